(** Unicode 14.0.0 case mappings and compatibility decompositions (generated by
    tools/mkucd.py). *)
From Verif Require Import Base.

(** Full lower-case mapping. *)
Definition case_lower : list (Z * list Z) :=
  [(65, [97]); (66, [98]); (67, [99]); (68, [100]); (69, [101]); (70, [102]); (71, [103]); (72, [104]); 
   (73, [105]); (74, [106]); (75, [107]); (76, [108]); (77, [109]); (78, [110]); (79, [111]); (80, [112]); 
   (81, [113]); (82, [114]); (83, [115]); (84, [116]); (85, [117]); (86, [118]); (87, [119]); (88, [120]); 
   (89, [121]); (90, [122]); (192, [224]); (193, [225]); (194, [226]); (195, [227]); (196, [228]); (197, [229]); 
   (198, [230]); (199, [231]); (200, [232]); (201, [233]); (202, [234]); (203, [235]); (204, [236]); (205, [237]); 
   (206, [238]); (207, [239]); (208, [240]); (209, [241]); (210, [242]); (211, [243]); (212, [244]); (213, [245]); 
   (214, [246]); (216, [248]); (217, [249]); (218, [250]); (219, [251]); (220, [252]); (221, [253]); (222, [254]); 
   (256, [257]); (258, [259]); (260, [261]); (262, [263]); (264, [265]); (266, [267]); (268, [269]); (270, [271]); 
   (272, [273]); (274, [275]); (276, [277]); (278, [279]); (280, [281]); (282, [283]); (284, [285]); (286, [287]); 
   (288, [289]); (290, [291]); (292, [293]); (294, [295]); (296, [297]); (298, [299]); (300, [301]); (302, [303]); 
   (304, [105;775]); (306, [307]); (308, [309]); (310, [311]); (313, [314]); (315, [316]); (317, [318]); 
   (319, [320]); (321, [322]); (323, [324]); (325, [326]); (327, [328]); (330, [331]); (332, [333]); (334, [335]); 
   (336, [337]); (338, [339]); (340, [341]); (342, [343]); (344, [345]); (346, [347]); (348, [349]); (350, [351]); 
   (352, [353]); (354, [355]); (356, [357]); (358, [359]); (360, [361]); (362, [363]); (364, [365]); (366, [367]); 
   (368, [369]); (370, [371]); (372, [373]); (374, [375]); (376, [255]); (377, [378]); (379, [380]); (381, [382]); 
   (385, [595]); (386, [387]); (388, [389]); (390, [596]); (391, [392]); (393, [598]); (394, [599]); (395, [396]); 
   (398, [477]); (399, [601]); (400, [603]); (401, [402]); (403, [608]); (404, [611]); (406, [617]); (407, [616]); 
   (408, [409]); (412, [623]); (413, [626]); (415, [629]); (416, [417]); (418, [419]); (420, [421]); (422, [640]); 
   (423, [424]); (425, [643]); (428, [429]); (430, [648]); (431, [432]); (433, [650]); (434, [651]); (435, [436]); 
   (437, [438]); (439, [658]); (440, [441]); (444, [445]); (452, [454]); (453, [454]); (455, [457]); (456, [457]); 
   (458, [460]); (459, [460]); (461, [462]); (463, [464]); (465, [466]); (467, [468]); (469, [470]); (471, [472]); 
   (473, [474]); (475, [476]); (478, [479]); (480, [481]); (482, [483]); (484, [485]); (486, [487]); (488, [489]); 
   (490, [491]); (492, [493]); (494, [495]); (497, [499]); (498, [499]); (500, [501]); (502, [405]); (503, [447]); 
   (504, [505]); (506, [507]); (508, [509]); (510, [511]); (512, [513]); (514, [515]); (516, [517]); (518, [519]); 
   (520, [521]); (522, [523]); (524, [525]); (526, [527]); (528, [529]); (530, [531]); (532, [533]); (534, [535]); 
   (536, [537]); (538, [539]); (540, [541]); (542, [543]); (544, [414]); (546, [547]); (548, [549]); (550, [551]); 
   (552, [553]); (554, [555]); (556, [557]); (558, [559]); (560, [561]); (562, [563]); (570, [11365]); 
   (571, [572]); (573, [410]); (574, [11366]); (577, [578]); (579, [384]); (580, [649]); (581, [652]); 
   (582, [583]); (584, [585]); (586, [587]); (588, [589]); (590, [591]); (880, [881]); (882, [883]); (886, [887]); 
   (895, [1011]); (902, [940]); (904, [941]); (905, [942]); (906, [943]); (908, [972]); (910, [973]); 
   (911, [974]); (913, [945]); (914, [946]); (915, [947]); (916, [948]); (917, [949]); (918, [950]); (919, [951]); 
   (920, [952]); (921, [953]); (922, [954]); (923, [955]); (924, [956]); (925, [957]); (926, [958]); (927, [959]); 
   (928, [960]); (929, [961]); (931, [963]); (932, [964]); (933, [965]); (934, [966]); (935, [967]); (936, [968]); 
   (937, [969]); (938, [970]); (939, [971]); (975, [983]); (984, [985]); (986, [987]); (988, [989]); (990, [991]); 
   (992, [993]); (994, [995]); (996, [997]); (998, [999]); (1000, [1001]); (1002, [1003]); (1004, [1005]); 
   (1006, [1007]); (1012, [952]); (1015, [1016]); (1017, [1010]); (1018, [1019]); (1021, [891]); (1022, [892]); 
   (1023, [893]); (1024, [1104]); (1025, [1105]); (1026, [1106]); (1027, [1107]); (1028, [1108]); (1029, [1109]); 
   (1030, [1110]); (1031, [1111]); (1032, [1112]); (1033, [1113]); (1034, [1114]); (1035, [1115]); (1036, [1116]); 
   (1037, [1117]); (1038, [1118]); (1039, [1119]); (1040, [1072]); (1041, [1073]); (1042, [1074]); (1043, [1075]); 
   (1044, [1076]); (1045, [1077]); (1046, [1078]); (1047, [1079]); (1048, [1080]); (1049, [1081]); (1050, [1082]); 
   (1051, [1083]); (1052, [1084]); (1053, [1085]); (1054, [1086]); (1055, [1087]); (1056, [1088]); (1057, [1089]); 
   (1058, [1090]); (1059, [1091]); (1060, [1092]); (1061, [1093]); (1062, [1094]); (1063, [1095]); (1064, [1096]); 
   (1065, [1097]); (1066, [1098]); (1067, [1099]); (1068, [1100]); (1069, [1101]); (1070, [1102]); (1071, [1103]); 
   (1120, [1121]); (1122, [1123]); (1124, [1125]); (1126, [1127]); (1128, [1129]); (1130, [1131]); (1132, [1133]); 
   (1134, [1135]); (1136, [1137]); (1138, [1139]); (1140, [1141]); (1142, [1143]); (1144, [1145]); (1146, [1147]); 
   (1148, [1149]); (1150, [1151]); (1152, [1153]); (1162, [1163]); (1164, [1165]); (1166, [1167]); (1168, [1169]); 
   (1170, [1171]); (1172, [1173]); (1174, [1175]); (1176, [1177]); (1178, [1179]); (1180, [1181]); (1182, [1183]); 
   (1184, [1185]); (1186, [1187]); (1188, [1189]); (1190, [1191]); (1192, [1193]); (1194, [1195]); (1196, [1197]); 
   (1198, [1199]); (1200, [1201]); (1202, [1203]); (1204, [1205]); (1206, [1207]); (1208, [1209]); (1210, [1211]); 
   (1212, [1213]); (1214, [1215]); (1216, [1231]); (1217, [1218]); (1219, [1220]); (1221, [1222]); (1223, [1224]); 
   (1225, [1226]); (1227, [1228]); (1229, [1230]); (1232, [1233]); (1234, [1235]); (1236, [1237]); (1238, [1239]); 
   (1240, [1241]); (1242, [1243]); (1244, [1245]); (1246, [1247]); (1248, [1249]); (1250, [1251]); (1252, [1253]); 
   (1254, [1255]); (1256, [1257]); (1258, [1259]); (1260, [1261]); (1262, [1263]); (1264, [1265]); (1266, [1267]); 
   (1268, [1269]); (1270, [1271]); (1272, [1273]); (1274, [1275]); (1276, [1277]); (1278, [1279]); (1280, [1281]); 
   (1282, [1283]); (1284, [1285]); (1286, [1287]); (1288, [1289]); (1290, [1291]); (1292, [1293]); (1294, [1295]); 
   (1296, [1297]); (1298, [1299]); (1300, [1301]); (1302, [1303]); (1304, [1305]); (1306, [1307]); (1308, [1309]); 
   (1310, [1311]); (1312, [1313]); (1314, [1315]); (1316, [1317]); (1318, [1319]); (1320, [1321]); (1322, [1323]); 
   (1324, [1325]); (1326, [1327]); (1329, [1377]); (1330, [1378]); (1331, [1379]); (1332, [1380]); (1333, [1381]); 
   (1334, [1382]); (1335, [1383]); (1336, [1384]); (1337, [1385]); (1338, [1386]); (1339, [1387]); (1340, [1388]); 
   (1341, [1389]); (1342, [1390]); (1343, [1391]); (1344, [1392]); (1345, [1393]); (1346, [1394]); (1347, [1395]); 
   (1348, [1396]); (1349, [1397]); (1350, [1398]); (1351, [1399]); (1352, [1400]); (1353, [1401]); (1354, [1402]); 
   (1355, [1403]); (1356, [1404]); (1357, [1405]); (1358, [1406]); (1359, [1407]); (1360, [1408]); (1361, [1409]); 
   (1362, [1410]); (1363, [1411]); (1364, [1412]); (1365, [1413]); (1366, [1414]); (4256, [11520]); 
   (4257, [11521]); (4258, [11522]); (4259, [11523]); (4260, [11524]); (4261, [11525]); (4262, [11526]); 
   (4263, [11527]); (4264, [11528]); (4265, [11529]); (4266, [11530]); (4267, [11531]); (4268, [11532]); 
   (4269, [11533]); (4270, [11534]); (4271, [11535]); (4272, [11536]); (4273, [11537]); (4274, [11538]); 
   (4275, [11539]); (4276, [11540]); (4277, [11541]); (4278, [11542]); (4279, [11543]); (4280, [11544]); 
   (4281, [11545]); (4282, [11546]); (4283, [11547]); (4284, [11548]); (4285, [11549]); (4286, [11550]); 
   (4287, [11551]); (4288, [11552]); (4289, [11553]); (4290, [11554]); (4291, [11555]); (4292, [11556]); 
   (4293, [11557]); (4295, [11559]); (4301, [11565]); (5024, [43888]); (5025, [43889]); (5026, [43890]); 
   (5027, [43891]); (5028, [43892]); (5029, [43893]); (5030, [43894]); (5031, [43895]); (5032, [43896]); 
   (5033, [43897]); (5034, [43898]); (5035, [43899]); (5036, [43900]); (5037, [43901]); (5038, [43902]); 
   (5039, [43903]); (5040, [43904]); (5041, [43905]); (5042, [43906]); (5043, [43907]); (5044, [43908]); 
   (5045, [43909]); (5046, [43910]); (5047, [43911]); (5048, [43912]); (5049, [43913]); (5050, [43914]); 
   (5051, [43915]); (5052, [43916]); (5053, [43917]); (5054, [43918]); (5055, [43919]); (5056, [43920]); 
   (5057, [43921]); (5058, [43922]); (5059, [43923]); (5060, [43924]); (5061, [43925]); (5062, [43926]); 
   (5063, [43927]); (5064, [43928]); (5065, [43929]); (5066, [43930]); (5067, [43931]); (5068, [43932]); 
   (5069, [43933]); (5070, [43934]); (5071, [43935]); (5072, [43936]); (5073, [43937]); (5074, [43938]); 
   (5075, [43939]); (5076, [43940]); (5077, [43941]); (5078, [43942]); (5079, [43943]); (5080, [43944]); 
   (5081, [43945]); (5082, [43946]); (5083, [43947]); (5084, [43948]); (5085, [43949]); (5086, [43950]); 
   (5087, [43951]); (5088, [43952]); (5089, [43953]); (5090, [43954]); (5091, [43955]); (5092, [43956]); 
   (5093, [43957]); (5094, [43958]); (5095, [43959]); (5096, [43960]); (5097, [43961]); (5098, [43962]); 
   (5099, [43963]); (5100, [43964]); (5101, [43965]); (5102, [43966]); (5103, [43967]); (5104, [5112]); 
   (5105, [5113]); (5106, [5114]); (5107, [5115]); (5108, [5116]); (5109, [5117]); (7312, [4304]); (7313, [4305]); 
   (7314, [4306]); (7315, [4307]); (7316, [4308]); (7317, [4309]); (7318, [4310]); (7319, [4311]); (7320, [4312]); 
   (7321, [4313]); (7322, [4314]); (7323, [4315]); (7324, [4316]); (7325, [4317]); (7326, [4318]); (7327, [4319]); 
   (7328, [4320]); (7329, [4321]); (7330, [4322]); (7331, [4323]); (7332, [4324]); (7333, [4325]); (7334, [4326]); 
   (7335, [4327]); (7336, [4328]); (7337, [4329]); (7338, [4330]); (7339, [4331]); (7340, [4332]); (7341, [4333]); 
   (7342, [4334]); (7343, [4335]); (7344, [4336]); (7345, [4337]); (7346, [4338]); (7347, [4339]); (7348, [4340]); 
   (7349, [4341]); (7350, [4342]); (7351, [4343]); (7352, [4344]); (7353, [4345]); (7354, [4346]); (7357, [4349]); 
   (7358, [4350]); (7359, [4351]); (7680, [7681]); (7682, [7683]); (7684, [7685]); (7686, [7687]); (7688, [7689]); 
   (7690, [7691]); (7692, [7693]); (7694, [7695]); (7696, [7697]); (7698, [7699]); (7700, [7701]); (7702, [7703]); 
   (7704, [7705]); (7706, [7707]); (7708, [7709]); (7710, [7711]); (7712, [7713]); (7714, [7715]); (7716, [7717]); 
   (7718, [7719]); (7720, [7721]); (7722, [7723]); (7724, [7725]); (7726, [7727]); (7728, [7729]); (7730, [7731]); 
   (7732, [7733]); (7734, [7735]); (7736, [7737]); (7738, [7739]); (7740, [7741]); (7742, [7743]); (7744, [7745]); 
   (7746, [7747]); (7748, [7749]); (7750, [7751]); (7752, [7753]); (7754, [7755]); (7756, [7757]); (7758, [7759]); 
   (7760, [7761]); (7762, [7763]); (7764, [7765]); (7766, [7767]); (7768, [7769]); (7770, [7771]); (7772, [7773]); 
   (7774, [7775]); (7776, [7777]); (7778, [7779]); (7780, [7781]); (7782, [7783]); (7784, [7785]); (7786, [7787]); 
   (7788, [7789]); (7790, [7791]); (7792, [7793]); (7794, [7795]); (7796, [7797]); (7798, [7799]); (7800, [7801]); 
   (7802, [7803]); (7804, [7805]); (7806, [7807]); (7808, [7809]); (7810, [7811]); (7812, [7813]); (7814, [7815]); 
   (7816, [7817]); (7818, [7819]); (7820, [7821]); (7822, [7823]); (7824, [7825]); (7826, [7827]); (7828, [7829]); 
   (7838, [223]); (7840, [7841]); (7842, [7843]); (7844, [7845]); (7846, [7847]); (7848, [7849]); (7850, [7851]); 
   (7852, [7853]); (7854, [7855]); (7856, [7857]); (7858, [7859]); (7860, [7861]); (7862, [7863]); (7864, [7865]); 
   (7866, [7867]); (7868, [7869]); (7870, [7871]); (7872, [7873]); (7874, [7875]); (7876, [7877]); (7878, [7879]); 
   (7880, [7881]); (7882, [7883]); (7884, [7885]); (7886, [7887]); (7888, [7889]); (7890, [7891]); (7892, [7893]); 
   (7894, [7895]); (7896, [7897]); (7898, [7899]); (7900, [7901]); (7902, [7903]); (7904, [7905]); (7906, [7907]); 
   (7908, [7909]); (7910, [7911]); (7912, [7913]); (7914, [7915]); (7916, [7917]); (7918, [7919]); (7920, [7921]); 
   (7922, [7923]); (7924, [7925]); (7926, [7927]); (7928, [7929]); (7930, [7931]); (7932, [7933]); (7934, [7935]); 
   (7944, [7936]); (7945, [7937]); (7946, [7938]); (7947, [7939]); (7948, [7940]); (7949, [7941]); (7950, [7942]); 
   (7951, [7943]); (7960, [7952]); (7961, [7953]); (7962, [7954]); (7963, [7955]); (7964, [7956]); (7965, [7957]); 
   (7976, [7968]); (7977, [7969]); (7978, [7970]); (7979, [7971]); (7980, [7972]); (7981, [7973]); (7982, [7974]); 
   (7983, [7975]); (7992, [7984]); (7993, [7985]); (7994, [7986]); (7995, [7987]); (7996, [7988]); (7997, [7989]); 
   (7998, [7990]); (7999, [7991]); (8008, [8000]); (8009, [8001]); (8010, [8002]); (8011, [8003]); (8012, [8004]); 
   (8013, [8005]); (8025, [8017]); (8027, [8019]); (8029, [8021]); (8031, [8023]); (8040, [8032]); (8041, [8033]); 
   (8042, [8034]); (8043, [8035]); (8044, [8036]); (8045, [8037]); (8046, [8038]); (8047, [8039]); (8072, [8064]); 
   (8073, [8065]); (8074, [8066]); (8075, [8067]); (8076, [8068]); (8077, [8069]); (8078, [8070]); (8079, [8071]); 
   (8088, [8080]); (8089, [8081]); (8090, [8082]); (8091, [8083]); (8092, [8084]); (8093, [8085]); (8094, [8086]); 
   (8095, [8087]); (8104, [8096]); (8105, [8097]); (8106, [8098]); (8107, [8099]); (8108, [8100]); (8109, [8101]); 
   (8110, [8102]); (8111, [8103]); (8120, [8112]); (8121, [8113]); (8122, [8048]); (8123, [8049]); (8124, [8115]); 
   (8136, [8050]); (8137, [8051]); (8138, [8052]); (8139, [8053]); (8140, [8131]); (8152, [8144]); (8153, [8145]); 
   (8154, [8054]); (8155, [8055]); (8168, [8160]); (8169, [8161]); (8170, [8058]); (8171, [8059]); (8172, [8165]); 
   (8184, [8056]); (8185, [8057]); (8186, [8060]); (8187, [8061]); (8188, [8179]); (8486, [969]); (8490, [107]); 
   (8491, [229]); (8498, [8526]); (8544, [8560]); (8545, [8561]); (8546, [8562]); (8547, [8563]); (8548, [8564]); 
   (8549, [8565]); (8550, [8566]); (8551, [8567]); (8552, [8568]); (8553, [8569]); (8554, [8570]); (8555, [8571]); 
   (8556, [8572]); (8557, [8573]); (8558, [8574]); (8559, [8575]); (8579, [8580]); (9398, [9424]); (9399, [9425]); 
   (9400, [9426]); (9401, [9427]); (9402, [9428]); (9403, [9429]); (9404, [9430]); (9405, [9431]); (9406, [9432]); 
   (9407, [9433]); (9408, [9434]); (9409, [9435]); (9410, [9436]); (9411, [9437]); (9412, [9438]); (9413, [9439]); 
   (9414, [9440]); (9415, [9441]); (9416, [9442]); (9417, [9443]); (9418, [9444]); (9419, [9445]); (9420, [9446]); 
   (9421, [9447]); (9422, [9448]); (9423, [9449]); (11264, [11312]); (11265, [11313]); (11266, [11314]); 
   (11267, [11315]); (11268, [11316]); (11269, [11317]); (11270, [11318]); (11271, [11319]); (11272, [11320]); 
   (11273, [11321]); (11274, [11322]); (11275, [11323]); (11276, [11324]); (11277, [11325]); (11278, [11326]); 
   (11279, [11327]); (11280, [11328]); (11281, [11329]); (11282, [11330]); (11283, [11331]); (11284, [11332]); 
   (11285, [11333]); (11286, [11334]); (11287, [11335]); (11288, [11336]); (11289, [11337]); (11290, [11338]); 
   (11291, [11339]); (11292, [11340]); (11293, [11341]); (11294, [11342]); (11295, [11343]); (11296, [11344]); 
   (11297, [11345]); (11298, [11346]); (11299, [11347]); (11300, [11348]); (11301, [11349]); (11302, [11350]); 
   (11303, [11351]); (11304, [11352]); (11305, [11353]); (11306, [11354]); (11307, [11355]); (11308, [11356]); 
   (11309, [11357]); (11310, [11358]); (11311, [11359]); (11360, [11361]); (11362, [619]); (11363, [7549]); 
   (11364, [637]); (11367, [11368]); (11369, [11370]); (11371, [11372]); (11373, [593]); (11374, [625]); 
   (11375, [592]); (11376, [594]); (11378, [11379]); (11381, [11382]); (11390, [575]); (11391, [576]); 
   (11392, [11393]); (11394, [11395]); (11396, [11397]); (11398, [11399]); (11400, [11401]); (11402, [11403]); 
   (11404, [11405]); (11406, [11407]); (11408, [11409]); (11410, [11411]); (11412, [11413]); (11414, [11415]); 
   (11416, [11417]); (11418, [11419]); (11420, [11421]); (11422, [11423]); (11424, [11425]); (11426, [11427]); 
   (11428, [11429]); (11430, [11431]); (11432, [11433]); (11434, [11435]); (11436, [11437]); (11438, [11439]); 
   (11440, [11441]); (11442, [11443]); (11444, [11445]); (11446, [11447]); (11448, [11449]); (11450, [11451]); 
   (11452, [11453]); (11454, [11455]); (11456, [11457]); (11458, [11459]); (11460, [11461]); (11462, [11463]); 
   (11464, [11465]); (11466, [11467]); (11468, [11469]); (11470, [11471]); (11472, [11473]); (11474, [11475]); 
   (11476, [11477]); (11478, [11479]); (11480, [11481]); (11482, [11483]); (11484, [11485]); (11486, [11487]); 
   (11488, [11489]); (11490, [11491]); (11499, [11500]); (11501, [11502]); (11506, [11507]); (42560, [42561]); 
   (42562, [42563]); (42564, [42565]); (42566, [42567]); (42568, [42569]); (42570, [42571]); (42572, [42573]); 
   (42574, [42575]); (42576, [42577]); (42578, [42579]); (42580, [42581]); (42582, [42583]); (42584, [42585]); 
   (42586, [42587]); (42588, [42589]); (42590, [42591]); (42592, [42593]); (42594, [42595]); (42596, [42597]); 
   (42598, [42599]); (42600, [42601]); (42602, [42603]); (42604, [42605]); (42624, [42625]); (42626, [42627]); 
   (42628, [42629]); (42630, [42631]); (42632, [42633]); (42634, [42635]); (42636, [42637]); (42638, [42639]); 
   (42640, [42641]); (42642, [42643]); (42644, [42645]); (42646, [42647]); (42648, [42649]); (42650, [42651]); 
   (42786, [42787]); (42788, [42789]); (42790, [42791]); (42792, [42793]); (42794, [42795]); (42796, [42797]); 
   (42798, [42799]); (42802, [42803]); (42804, [42805]); (42806, [42807]); (42808, [42809]); (42810, [42811]); 
   (42812, [42813]); (42814, [42815]); (42816, [42817]); (42818, [42819]); (42820, [42821]); (42822, [42823]); 
   (42824, [42825]); (42826, [42827]); (42828, [42829]); (42830, [42831]); (42832, [42833]); (42834, [42835]); 
   (42836, [42837]); (42838, [42839]); (42840, [42841]); (42842, [42843]); (42844, [42845]); (42846, [42847]); 
   (42848, [42849]); (42850, [42851]); (42852, [42853]); (42854, [42855]); (42856, [42857]); (42858, [42859]); 
   (42860, [42861]); (42862, [42863]); (42873, [42874]); (42875, [42876]); (42877, [7545]); (42878, [42879]); 
   (42880, [42881]); (42882, [42883]); (42884, [42885]); (42886, [42887]); (42891, [42892]); (42893, [613]); 
   (42896, [42897]); (42898, [42899]); (42902, [42903]); (42904, [42905]); (42906, [42907]); (42908, [42909]); 
   (42910, [42911]); (42912, [42913]); (42914, [42915]); (42916, [42917]); (42918, [42919]); (42920, [42921]); 
   (42922, [614]); (42923, [604]); (42924, [609]); (42925, [620]); (42926, [618]); (42928, [670]); (42929, [647]); 
   (42930, [669]); (42931, [43859]); (42932, [42933]); (42934, [42935]); (42936, [42937]); (42938, [42939]); 
   (42940, [42941]); (42942, [42943]); (42944, [42945]); (42946, [42947]); (42948, [42900]); (42949, [642]); 
   (42950, [7566]); (42951, [42952]); (42953, [42954]); (42960, [42961]); (42966, [42967]); (42968, [42969]); 
   (42997, [42998]); (65313, [65345]); (65314, [65346]); (65315, [65347]); (65316, [65348]); (65317, [65349]); 
   (65318, [65350]); (65319, [65351]); (65320, [65352]); (65321, [65353]); (65322, [65354]); (65323, [65355]); 
   (65324, [65356]); (65325, [65357]); (65326, [65358]); (65327, [65359]); (65328, [65360]); (65329, [65361]); 
   (65330, [65362]); (65331, [65363]); (65332, [65364]); (65333, [65365]); (65334, [65366]); (65335, [65367]); 
   (65336, [65368]); (65337, [65369]); (65338, [65370]); (66560, [66600]); (66561, [66601]); (66562, [66602]); 
   (66563, [66603]); (66564, [66604]); (66565, [66605]); (66566, [66606]); (66567, [66607]); (66568, [66608]); 
   (66569, [66609]); (66570, [66610]); (66571, [66611]); (66572, [66612]); (66573, [66613]); (66574, [66614]); 
   (66575, [66615]); (66576, [66616]); (66577, [66617]); (66578, [66618]); (66579, [66619]); (66580, [66620]); 
   (66581, [66621]); (66582, [66622]); (66583, [66623]); (66584, [66624]); (66585, [66625]); (66586, [66626]); 
   (66587, [66627]); (66588, [66628]); (66589, [66629]); (66590, [66630]); (66591, [66631]); (66592, [66632]); 
   (66593, [66633]); (66594, [66634]); (66595, [66635]); (66596, [66636]); (66597, [66637]); (66598, [66638]); 
   (66599, [66639]); (66736, [66776]); (66737, [66777]); (66738, [66778]); (66739, [66779]); (66740, [66780]); 
   (66741, [66781]); (66742, [66782]); (66743, [66783]); (66744, [66784]); (66745, [66785]); (66746, [66786]); 
   (66747, [66787]); (66748, [66788]); (66749, [66789]); (66750, [66790]); (66751, [66791]); (66752, [66792]); 
   (66753, [66793]); (66754, [66794]); (66755, [66795]); (66756, [66796]); (66757, [66797]); (66758, [66798]); 
   (66759, [66799]); (66760, [66800]); (66761, [66801]); (66762, [66802]); (66763, [66803]); (66764, [66804]); 
   (66765, [66805]); (66766, [66806]); (66767, [66807]); (66768, [66808]); (66769, [66809]); (66770, [66810]); 
   (66771, [66811]); (66928, [66967]); (66929, [66968]); (66930, [66969]); (66931, [66970]); (66932, [66971]); 
   (66933, [66972]); (66934, [66973]); (66935, [66974]); (66936, [66975]); (66937, [66976]); (66938, [66977]); 
   (66940, [66979]); (66941, [66980]); (66942, [66981]); (66943, [66982]); (66944, [66983]); (66945, [66984]); 
   (66946, [66985]); (66947, [66986]); (66948, [66987]); (66949, [66988]); (66950, [66989]); (66951, [66990]); 
   (66952, [66991]); (66953, [66992]); (66954, [66993]); (66956, [66995]); (66957, [66996]); (66958, [66997]); 
   (66959, [66998]); (66960, [66999]); (66961, [67000]); (66962, [67001]); (66964, [67003]); (66965, [67004]); 
   (68736, [68800]); (68737, [68801]); (68738, [68802]); (68739, [68803]); (68740, [68804]); (68741, [68805]); 
   (68742, [68806]); (68743, [68807]); (68744, [68808]); (68745, [68809]); (68746, [68810]); (68747, [68811]); 
   (68748, [68812]); (68749, [68813]); (68750, [68814]); (68751, [68815]); (68752, [68816]); (68753, [68817]); 
   (68754, [68818]); (68755, [68819]); (68756, [68820]); (68757, [68821]); (68758, [68822]); (68759, [68823]); 
   (68760, [68824]); (68761, [68825]); (68762, [68826]); (68763, [68827]); (68764, [68828]); (68765, [68829]); 
   (68766, [68830]); (68767, [68831]); (68768, [68832]); (68769, [68833]); (68770, [68834]); (68771, [68835]); 
   (68772, [68836]); (68773, [68837]); (68774, [68838]); (68775, [68839]); (68776, [68840]); (68777, [68841]); 
   (68778, [68842]); (68779, [68843]); (68780, [68844]); (68781, [68845]); (68782, [68846]); (68783, [68847]); 
   (68784, [68848]); (68785, [68849]); (68786, [68850]); (71840, [71872]); (71841, [71873]); (71842, [71874]); 
   (71843, [71875]); (71844, [71876]); (71845, [71877]); (71846, [71878]); (71847, [71879]); (71848, [71880]); 
   (71849, [71881]); (71850, [71882]); (71851, [71883]); (71852, [71884]); (71853, [71885]); (71854, [71886]); 
   (71855, [71887]); (71856, [71888]); (71857, [71889]); (71858, [71890]); (71859, [71891]); (71860, [71892]); 
   (71861, [71893]); (71862, [71894]); (71863, [71895]); (71864, [71896]); (71865, [71897]); (71866, [71898]); 
   (71867, [71899]); (71868, [71900]); (71869, [71901]); (71870, [71902]); (71871, [71903]); (93760, [93792]); 
   (93761, [93793]); (93762, [93794]); (93763, [93795]); (93764, [93796]); (93765, [93797]); (93766, [93798]); 
   (93767, [93799]); (93768, [93800]); (93769, [93801]); (93770, [93802]); (93771, [93803]); (93772, [93804]); 
   (93773, [93805]); (93774, [93806]); (93775, [93807]); (93776, [93808]); (93777, [93809]); (93778, [93810]); 
   (93779, [93811]); (93780, [93812]); (93781, [93813]); (93782, [93814]); (93783, [93815]); (93784, [93816]); 
   (93785, [93817]); (93786, [93818]); (93787, [93819]); (93788, [93820]); (93789, [93821]); (93790, [93822]); 
   (93791, [93823]); (125184, [125218]); (125185, [125219]); (125186, [125220]); (125187, [125221]); 
   (125188, [125222]); (125189, [125223]); (125190, [125224]); (125191, [125225]); (125192, [125226]); 
   (125193, [125227]); (125194, [125228]); (125195, [125229]); (125196, [125230]); (125197, [125231]); 
   (125198, [125232]); (125199, [125233]); (125200, [125234]); (125201, [125235]); (125202, [125236]); 
   (125203, [125237]); (125204, [125238]); (125205, [125239]); (125206, [125240]); (125207, [125241]); 
   (125208, [125242]); (125209, [125243]); (125210, [125244]); (125211, [125245]); (125212, [125246]); 
   (125213, [125247]); (125214, [125248]); (125215, [125249]); (125216, [125250]); (125217, [125251])].

(** Full upper-case mapping. *)
Definition case_upper : list (Z * list Z) :=
  [(97, [65]); (98, [66]); (99, [67]); (100, [68]); (101, [69]); (102, [70]); (103, [71]); (104, [72]); 
   (105, [73]); (106, [74]); (107, [75]); (108, [76]); (109, [77]); (110, [78]); (111, [79]); (112, [80]); 
   (113, [81]); (114, [82]); (115, [83]); (116, [84]); (117, [85]); (118, [86]); (119, [87]); (120, [88]); 
   (121, [89]); (122, [90]); (181, [924]); (223, [83;83]); (224, [192]); (225, [193]); (226, [194]); (227, [195]); 
   (228, [196]); (229, [197]); (230, [198]); (231, [199]); (232, [200]); (233, [201]); (234, [202]); (235, [203]); 
   (236, [204]); (237, [205]); (238, [206]); (239, [207]); (240, [208]); (241, [209]); (242, [210]); (243, [211]); 
   (244, [212]); (245, [213]); (246, [214]); (248, [216]); (249, [217]); (250, [218]); (251, [219]); (252, [220]); 
   (253, [221]); (254, [222]); (255, [376]); (257, [256]); (259, [258]); (261, [260]); (263, [262]); (265, [264]); 
   (267, [266]); (269, [268]); (271, [270]); (273, [272]); (275, [274]); (277, [276]); (279, [278]); (281, [280]); 
   (283, [282]); (285, [284]); (287, [286]); (289, [288]); (291, [290]); (293, [292]); (295, [294]); (297, [296]); 
   (299, [298]); (301, [300]); (303, [302]); (305, [73]); (307, [306]); (309, [308]); (311, [310]); (314, [313]); 
   (316, [315]); (318, [317]); (320, [319]); (322, [321]); (324, [323]); (326, [325]); (328, [327]); 
   (329, [700;78]); (331, [330]); (333, [332]); (335, [334]); (337, [336]); (339, [338]); (341, [340]); 
   (343, [342]); (345, [344]); (347, [346]); (349, [348]); (351, [350]); (353, [352]); (355, [354]); (357, [356]); 
   (359, [358]); (361, [360]); (363, [362]); (365, [364]); (367, [366]); (369, [368]); (371, [370]); (373, [372]); 
   (375, [374]); (378, [377]); (380, [379]); (382, [381]); (383, [83]); (384, [579]); (387, [386]); (389, [388]); 
   (392, [391]); (396, [395]); (402, [401]); (405, [502]); (409, [408]); (410, [573]); (414, [544]); (417, [416]); 
   (419, [418]); (421, [420]); (424, [423]); (429, [428]); (432, [431]); (436, [435]); (438, [437]); (441, [440]); 
   (445, [444]); (447, [503]); (453, [452]); (454, [452]); (456, [455]); (457, [455]); (459, [458]); (460, [458]); 
   (462, [461]); (464, [463]); (466, [465]); (468, [467]); (470, [469]); (472, [471]); (474, [473]); (476, [475]); 
   (477, [398]); (479, [478]); (481, [480]); (483, [482]); (485, [484]); (487, [486]); (489, [488]); (491, [490]); 
   (493, [492]); (495, [494]); (496, [74;780]); (498, [497]); (499, [497]); (501, [500]); (505, [504]); 
   (507, [506]); (509, [508]); (511, [510]); (513, [512]); (515, [514]); (517, [516]); (519, [518]); (521, [520]); 
   (523, [522]); (525, [524]); (527, [526]); (529, [528]); (531, [530]); (533, [532]); (535, [534]); (537, [536]); 
   (539, [538]); (541, [540]); (543, [542]); (547, [546]); (549, [548]); (551, [550]); (553, [552]); (555, [554]); 
   (557, [556]); (559, [558]); (561, [560]); (563, [562]); (572, [571]); (575, [11390]); (576, [11391]); 
   (578, [577]); (583, [582]); (585, [584]); (587, [586]); (589, [588]); (591, [590]); (592, [11375]); 
   (593, [11373]); (594, [11376]); (595, [385]); (596, [390]); (598, [393]); (599, [394]); (601, [399]); 
   (603, [400]); (604, [42923]); (608, [403]); (609, [42924]); (611, [404]); (613, [42893]); (614, [42922]); 
   (616, [407]); (617, [406]); (618, [42926]); (619, [11362]); (620, [42925]); (623, [412]); (625, [11374]); 
   (626, [413]); (629, [415]); (637, [11364]); (640, [422]); (642, [42949]); (643, [425]); (647, [42929]); 
   (648, [430]); (649, [580]); (650, [433]); (651, [434]); (652, [581]); (658, [439]); (669, [42930]); 
   (670, [42928]); (837, [921]); (881, [880]); (883, [882]); (887, [886]); (891, [1021]); (892, [1022]); 
   (893, [1023]); (912, [921;776;769]); (940, [902]); (941, [904]); (942, [905]); (943, [906]); 
   (944, [933;776;769]); (945, [913]); (946, [914]); (947, [915]); (948, [916]); (949, [917]); (950, [918]); 
   (951, [919]); (952, [920]); (953, [921]); (954, [922]); (955, [923]); (956, [924]); (957, [925]); (958, [926]); 
   (959, [927]); (960, [928]); (961, [929]); (962, [931]); (963, [931]); (964, [932]); (965, [933]); (966, [934]); 
   (967, [935]); (968, [936]); (969, [937]); (970, [938]); (971, [939]); (972, [908]); (973, [910]); (974, [911]); 
   (976, [914]); (977, [920]); (981, [934]); (982, [928]); (983, [975]); (985, [984]); (987, [986]); (989, [988]); 
   (991, [990]); (993, [992]); (995, [994]); (997, [996]); (999, [998]); (1001, [1000]); (1003, [1002]); 
   (1005, [1004]); (1007, [1006]); (1008, [922]); (1009, [929]); (1010, [1017]); (1011, [895]); (1013, [917]); 
   (1016, [1015]); (1019, [1018]); (1072, [1040]); (1073, [1041]); (1074, [1042]); (1075, [1043]); (1076, [1044]); 
   (1077, [1045]); (1078, [1046]); (1079, [1047]); (1080, [1048]); (1081, [1049]); (1082, [1050]); (1083, [1051]); 
   (1084, [1052]); (1085, [1053]); (1086, [1054]); (1087, [1055]); (1088, [1056]); (1089, [1057]); (1090, [1058]); 
   (1091, [1059]); (1092, [1060]); (1093, [1061]); (1094, [1062]); (1095, [1063]); (1096, [1064]); (1097, [1065]); 
   (1098, [1066]); (1099, [1067]); (1100, [1068]); (1101, [1069]); (1102, [1070]); (1103, [1071]); (1104, [1024]); 
   (1105, [1025]); (1106, [1026]); (1107, [1027]); (1108, [1028]); (1109, [1029]); (1110, [1030]); (1111, [1031]); 
   (1112, [1032]); (1113, [1033]); (1114, [1034]); (1115, [1035]); (1116, [1036]); (1117, [1037]); (1118, [1038]); 
   (1119, [1039]); (1121, [1120]); (1123, [1122]); (1125, [1124]); (1127, [1126]); (1129, [1128]); (1131, [1130]); 
   (1133, [1132]); (1135, [1134]); (1137, [1136]); (1139, [1138]); (1141, [1140]); (1143, [1142]); (1145, [1144]); 
   (1147, [1146]); (1149, [1148]); (1151, [1150]); (1153, [1152]); (1163, [1162]); (1165, [1164]); (1167, [1166]); 
   (1169, [1168]); (1171, [1170]); (1173, [1172]); (1175, [1174]); (1177, [1176]); (1179, [1178]); (1181, [1180]); 
   (1183, [1182]); (1185, [1184]); (1187, [1186]); (1189, [1188]); (1191, [1190]); (1193, [1192]); (1195, [1194]); 
   (1197, [1196]); (1199, [1198]); (1201, [1200]); (1203, [1202]); (1205, [1204]); (1207, [1206]); (1209, [1208]); 
   (1211, [1210]); (1213, [1212]); (1215, [1214]); (1218, [1217]); (1220, [1219]); (1222, [1221]); (1224, [1223]); 
   (1226, [1225]); (1228, [1227]); (1230, [1229]); (1231, [1216]); (1233, [1232]); (1235, [1234]); (1237, [1236]); 
   (1239, [1238]); (1241, [1240]); (1243, [1242]); (1245, [1244]); (1247, [1246]); (1249, [1248]); (1251, [1250]); 
   (1253, [1252]); (1255, [1254]); (1257, [1256]); (1259, [1258]); (1261, [1260]); (1263, [1262]); (1265, [1264]); 
   (1267, [1266]); (1269, [1268]); (1271, [1270]); (1273, [1272]); (1275, [1274]); (1277, [1276]); (1279, [1278]); 
   (1281, [1280]); (1283, [1282]); (1285, [1284]); (1287, [1286]); (1289, [1288]); (1291, [1290]); (1293, [1292]); 
   (1295, [1294]); (1297, [1296]); (1299, [1298]); (1301, [1300]); (1303, [1302]); (1305, [1304]); (1307, [1306]); 
   (1309, [1308]); (1311, [1310]); (1313, [1312]); (1315, [1314]); (1317, [1316]); (1319, [1318]); (1321, [1320]); 
   (1323, [1322]); (1325, [1324]); (1327, [1326]); (1377, [1329]); (1378, [1330]); (1379, [1331]); (1380, [1332]); 
   (1381, [1333]); (1382, [1334]); (1383, [1335]); (1384, [1336]); (1385, [1337]); (1386, [1338]); (1387, [1339]); 
   (1388, [1340]); (1389, [1341]); (1390, [1342]); (1391, [1343]); (1392, [1344]); (1393, [1345]); (1394, [1346]); 
   (1395, [1347]); (1396, [1348]); (1397, [1349]); (1398, [1350]); (1399, [1351]); (1400, [1352]); (1401, [1353]); 
   (1402, [1354]); (1403, [1355]); (1404, [1356]); (1405, [1357]); (1406, [1358]); (1407, [1359]); (1408, [1360]); 
   (1409, [1361]); (1410, [1362]); (1411, [1363]); (1412, [1364]); (1413, [1365]); (1414, [1366]); 
   (1415, [1333;1362]); (4304, [7312]); (4305, [7313]); (4306, [7314]); (4307, [7315]); (4308, [7316]); 
   (4309, [7317]); (4310, [7318]); (4311, [7319]); (4312, [7320]); (4313, [7321]); (4314, [7322]); (4315, [7323]); 
   (4316, [7324]); (4317, [7325]); (4318, [7326]); (4319, [7327]); (4320, [7328]); (4321, [7329]); (4322, [7330]); 
   (4323, [7331]); (4324, [7332]); (4325, [7333]); (4326, [7334]); (4327, [7335]); (4328, [7336]); (4329, [7337]); 
   (4330, [7338]); (4331, [7339]); (4332, [7340]); (4333, [7341]); (4334, [7342]); (4335, [7343]); (4336, [7344]); 
   (4337, [7345]); (4338, [7346]); (4339, [7347]); (4340, [7348]); (4341, [7349]); (4342, [7350]); (4343, [7351]); 
   (4344, [7352]); (4345, [7353]); (4346, [7354]); (4349, [7357]); (4350, [7358]); (4351, [7359]); (5112, [5104]); 
   (5113, [5105]); (5114, [5106]); (5115, [5107]); (5116, [5108]); (5117, [5109]); (7296, [1042]); (7297, [1044]); 
   (7298, [1054]); (7299, [1057]); (7300, [1058]); (7301, [1058]); (7302, [1066]); (7303, [1122]); 
   (7304, [42570]); (7545, [42877]); (7549, [11363]); (7566, [42950]); (7681, [7680]); (7683, [7682]); 
   (7685, [7684]); (7687, [7686]); (7689, [7688]); (7691, [7690]); (7693, [7692]); (7695, [7694]); (7697, [7696]); 
   (7699, [7698]); (7701, [7700]); (7703, [7702]); (7705, [7704]); (7707, [7706]); (7709, [7708]); (7711, [7710]); 
   (7713, [7712]); (7715, [7714]); (7717, [7716]); (7719, [7718]); (7721, [7720]); (7723, [7722]); (7725, [7724]); 
   (7727, [7726]); (7729, [7728]); (7731, [7730]); (7733, [7732]); (7735, [7734]); (7737, [7736]); (7739, [7738]); 
   (7741, [7740]); (7743, [7742]); (7745, [7744]); (7747, [7746]); (7749, [7748]); (7751, [7750]); (7753, [7752]); 
   (7755, [7754]); (7757, [7756]); (7759, [7758]); (7761, [7760]); (7763, [7762]); (7765, [7764]); (7767, [7766]); 
   (7769, [7768]); (7771, [7770]); (7773, [7772]); (7775, [7774]); (7777, [7776]); (7779, [7778]); (7781, [7780]); 
   (7783, [7782]); (7785, [7784]); (7787, [7786]); (7789, [7788]); (7791, [7790]); (7793, [7792]); (7795, [7794]); 
   (7797, [7796]); (7799, [7798]); (7801, [7800]); (7803, [7802]); (7805, [7804]); (7807, [7806]); (7809, [7808]); 
   (7811, [7810]); (7813, [7812]); (7815, [7814]); (7817, [7816]); (7819, [7818]); (7821, [7820]); (7823, [7822]); 
   (7825, [7824]); (7827, [7826]); (7829, [7828]); (7830, [72;817]); (7831, [84;776]); (7832, [87;778]); 
   (7833, [89;778]); (7834, [65;702]); (7835, [7776]); (7841, [7840]); (7843, [7842]); (7845, [7844]); 
   (7847, [7846]); (7849, [7848]); (7851, [7850]); (7853, [7852]); (7855, [7854]); (7857, [7856]); (7859, [7858]); 
   (7861, [7860]); (7863, [7862]); (7865, [7864]); (7867, [7866]); (7869, [7868]); (7871, [7870]); (7873, [7872]); 
   (7875, [7874]); (7877, [7876]); (7879, [7878]); (7881, [7880]); (7883, [7882]); (7885, [7884]); (7887, [7886]); 
   (7889, [7888]); (7891, [7890]); (7893, [7892]); (7895, [7894]); (7897, [7896]); (7899, [7898]); (7901, [7900]); 
   (7903, [7902]); (7905, [7904]); (7907, [7906]); (7909, [7908]); (7911, [7910]); (7913, [7912]); (7915, [7914]); 
   (7917, [7916]); (7919, [7918]); (7921, [7920]); (7923, [7922]); (7925, [7924]); (7927, [7926]); (7929, [7928]); 
   (7931, [7930]); (7933, [7932]); (7935, [7934]); (7936, [7944]); (7937, [7945]); (7938, [7946]); (7939, [7947]); 
   (7940, [7948]); (7941, [7949]); (7942, [7950]); (7943, [7951]); (7952, [7960]); (7953, [7961]); (7954, [7962]); 
   (7955, [7963]); (7956, [7964]); (7957, [7965]); (7968, [7976]); (7969, [7977]); (7970, [7978]); (7971, [7979]); 
   (7972, [7980]); (7973, [7981]); (7974, [7982]); (7975, [7983]); (7984, [7992]); (7985, [7993]); (7986, [7994]); 
   (7987, [7995]); (7988, [7996]); (7989, [7997]); (7990, [7998]); (7991, [7999]); (8000, [8008]); (8001, [8009]); 
   (8002, [8010]); (8003, [8011]); (8004, [8012]); (8005, [8013]); (8016, [933;787]); (8017, [8025]); 
   (8018, [933;787;768]); (8019, [8027]); (8020, [933;787;769]); (8021, [8029]); (8022, [933;787;834]); 
   (8023, [8031]); (8032, [8040]); (8033, [8041]); (8034, [8042]); (8035, [8043]); (8036, [8044]); (8037, [8045]); 
   (8038, [8046]); (8039, [8047]); (8048, [8122]); (8049, [8123]); (8050, [8136]); (8051, [8137]); (8052, [8138]); 
   (8053, [8139]); (8054, [8154]); (8055, [8155]); (8056, [8184]); (8057, [8185]); (8058, [8170]); (8059, [8171]); 
   (8060, [8186]); (8061, [8187]); (8064, [7944;921]); (8065, [7945;921]); (8066, [7946;921]); (8067, [7947;921]); 
   (8068, [7948;921]); (8069, [7949;921]); (8070, [7950;921]); (8071, [7951;921]); (8072, [7944;921]); 
   (8073, [7945;921]); (8074, [7946;921]); (8075, [7947;921]); (8076, [7948;921]); (8077, [7949;921]); 
   (8078, [7950;921]); (8079, [7951;921]); (8080, [7976;921]); (8081, [7977;921]); (8082, [7978;921]); 
   (8083, [7979;921]); (8084, [7980;921]); (8085, [7981;921]); (8086, [7982;921]); (8087, [7983;921]); 
   (8088, [7976;921]); (8089, [7977;921]); (8090, [7978;921]); (8091, [7979;921]); (8092, [7980;921]); 
   (8093, [7981;921]); (8094, [7982;921]); (8095, [7983;921]); (8096, [8040;921]); (8097, [8041;921]); 
   (8098, [8042;921]); (8099, [8043;921]); (8100, [8044;921]); (8101, [8045;921]); (8102, [8046;921]); 
   (8103, [8047;921]); (8104, [8040;921]); (8105, [8041;921]); (8106, [8042;921]); (8107, [8043;921]); 
   (8108, [8044;921]); (8109, [8045;921]); (8110, [8046;921]); (8111, [8047;921]); (8112, [8120]); (8113, [8121]); 
   (8114, [8122;921]); (8115, [913;921]); (8116, [902;921]); (8118, [913;834]); (8119, [913;834;921]); 
   (8124, [913;921]); (8126, [921]); (8130, [8138;921]); (8131, [919;921]); (8132, [905;921]); (8134, [919;834]); 
   (8135, [919;834;921]); (8140, [919;921]); (8144, [8152]); (8145, [8153]); (8146, [921;776;768]); 
   (8147, [921;776;769]); (8150, [921;834]); (8151, [921;776;834]); (8160, [8168]); (8161, [8169]); 
   (8162, [933;776;768]); (8163, [933;776;769]); (8164, [929;787]); (8165, [8172]); (8166, [933;834]); 
   (8167, [933;776;834]); (8178, [8186;921]); (8179, [937;921]); (8180, [911;921]); (8182, [937;834]); 
   (8183, [937;834;921]); (8188, [937;921]); (8526, [8498]); (8560, [8544]); (8561, [8545]); (8562, [8546]); 
   (8563, [8547]); (8564, [8548]); (8565, [8549]); (8566, [8550]); (8567, [8551]); (8568, [8552]); (8569, [8553]); 
   (8570, [8554]); (8571, [8555]); (8572, [8556]); (8573, [8557]); (8574, [8558]); (8575, [8559]); (8580, [8579]); 
   (9424, [9398]); (9425, [9399]); (9426, [9400]); (9427, [9401]); (9428, [9402]); (9429, [9403]); (9430, [9404]); 
   (9431, [9405]); (9432, [9406]); (9433, [9407]); (9434, [9408]); (9435, [9409]); (9436, [9410]); (9437, [9411]); 
   (9438, [9412]); (9439, [9413]); (9440, [9414]); (9441, [9415]); (9442, [9416]); (9443, [9417]); (9444, [9418]); 
   (9445, [9419]); (9446, [9420]); (9447, [9421]); (9448, [9422]); (9449, [9423]); (11312, [11264]); 
   (11313, [11265]); (11314, [11266]); (11315, [11267]); (11316, [11268]); (11317, [11269]); (11318, [11270]); 
   (11319, [11271]); (11320, [11272]); (11321, [11273]); (11322, [11274]); (11323, [11275]); (11324, [11276]); 
   (11325, [11277]); (11326, [11278]); (11327, [11279]); (11328, [11280]); (11329, [11281]); (11330, [11282]); 
   (11331, [11283]); (11332, [11284]); (11333, [11285]); (11334, [11286]); (11335, [11287]); (11336, [11288]); 
   (11337, [11289]); (11338, [11290]); (11339, [11291]); (11340, [11292]); (11341, [11293]); (11342, [11294]); 
   (11343, [11295]); (11344, [11296]); (11345, [11297]); (11346, [11298]); (11347, [11299]); (11348, [11300]); 
   (11349, [11301]); (11350, [11302]); (11351, [11303]); (11352, [11304]); (11353, [11305]); (11354, [11306]); 
   (11355, [11307]); (11356, [11308]); (11357, [11309]); (11358, [11310]); (11359, [11311]); (11361, [11360]); 
   (11365, [570]); (11366, [574]); (11368, [11367]); (11370, [11369]); (11372, [11371]); (11379, [11378]); 
   (11382, [11381]); (11393, [11392]); (11395, [11394]); (11397, [11396]); (11399, [11398]); (11401, [11400]); 
   (11403, [11402]); (11405, [11404]); (11407, [11406]); (11409, [11408]); (11411, [11410]); (11413, [11412]); 
   (11415, [11414]); (11417, [11416]); (11419, [11418]); (11421, [11420]); (11423, [11422]); (11425, [11424]); 
   (11427, [11426]); (11429, [11428]); (11431, [11430]); (11433, [11432]); (11435, [11434]); (11437, [11436]); 
   (11439, [11438]); (11441, [11440]); (11443, [11442]); (11445, [11444]); (11447, [11446]); (11449, [11448]); 
   (11451, [11450]); (11453, [11452]); (11455, [11454]); (11457, [11456]); (11459, [11458]); (11461, [11460]); 
   (11463, [11462]); (11465, [11464]); (11467, [11466]); (11469, [11468]); (11471, [11470]); (11473, [11472]); 
   (11475, [11474]); (11477, [11476]); (11479, [11478]); (11481, [11480]); (11483, [11482]); (11485, [11484]); 
   (11487, [11486]); (11489, [11488]); (11491, [11490]); (11500, [11499]); (11502, [11501]); (11507, [11506]); 
   (11520, [4256]); (11521, [4257]); (11522, [4258]); (11523, [4259]); (11524, [4260]); (11525, [4261]); 
   (11526, [4262]); (11527, [4263]); (11528, [4264]); (11529, [4265]); (11530, [4266]); (11531, [4267]); 
   (11532, [4268]); (11533, [4269]); (11534, [4270]); (11535, [4271]); (11536, [4272]); (11537, [4273]); 
   (11538, [4274]); (11539, [4275]); (11540, [4276]); (11541, [4277]); (11542, [4278]); (11543, [4279]); 
   (11544, [4280]); (11545, [4281]); (11546, [4282]); (11547, [4283]); (11548, [4284]); (11549, [4285]); 
   (11550, [4286]); (11551, [4287]); (11552, [4288]); (11553, [4289]); (11554, [4290]); (11555, [4291]); 
   (11556, [4292]); (11557, [4293]); (11559, [4295]); (11565, [4301]); (42561, [42560]); (42563, [42562]); 
   (42565, [42564]); (42567, [42566]); (42569, [42568]); (42571, [42570]); (42573, [42572]); (42575, [42574]); 
   (42577, [42576]); (42579, [42578]); (42581, [42580]); (42583, [42582]); (42585, [42584]); (42587, [42586]); 
   (42589, [42588]); (42591, [42590]); (42593, [42592]); (42595, [42594]); (42597, [42596]); (42599, [42598]); 
   (42601, [42600]); (42603, [42602]); (42605, [42604]); (42625, [42624]); (42627, [42626]); (42629, [42628]); 
   (42631, [42630]); (42633, [42632]); (42635, [42634]); (42637, [42636]); (42639, [42638]); (42641, [42640]); 
   (42643, [42642]); (42645, [42644]); (42647, [42646]); (42649, [42648]); (42651, [42650]); (42787, [42786]); 
   (42789, [42788]); (42791, [42790]); (42793, [42792]); (42795, [42794]); (42797, [42796]); (42799, [42798]); 
   (42803, [42802]); (42805, [42804]); (42807, [42806]); (42809, [42808]); (42811, [42810]); (42813, [42812]); 
   (42815, [42814]); (42817, [42816]); (42819, [42818]); (42821, [42820]); (42823, [42822]); (42825, [42824]); 
   (42827, [42826]); (42829, [42828]); (42831, [42830]); (42833, [42832]); (42835, [42834]); (42837, [42836]); 
   (42839, [42838]); (42841, [42840]); (42843, [42842]); (42845, [42844]); (42847, [42846]); (42849, [42848]); 
   (42851, [42850]); (42853, [42852]); (42855, [42854]); (42857, [42856]); (42859, [42858]); (42861, [42860]); 
   (42863, [42862]); (42874, [42873]); (42876, [42875]); (42879, [42878]); (42881, [42880]); (42883, [42882]); 
   (42885, [42884]); (42887, [42886]); (42892, [42891]); (42897, [42896]); (42899, [42898]); (42900, [42948]); 
   (42903, [42902]); (42905, [42904]); (42907, [42906]); (42909, [42908]); (42911, [42910]); (42913, [42912]); 
   (42915, [42914]); (42917, [42916]); (42919, [42918]); (42921, [42920]); (42933, [42932]); (42935, [42934]); 
   (42937, [42936]); (42939, [42938]); (42941, [42940]); (42943, [42942]); (42945, [42944]); (42947, [42946]); 
   (42952, [42951]); (42954, [42953]); (42961, [42960]); (42967, [42966]); (42969, [42968]); (42998, [42997]); 
   (43859, [42931]); (43888, [5024]); (43889, [5025]); (43890, [5026]); (43891, [5027]); (43892, [5028]); 
   (43893, [5029]); (43894, [5030]); (43895, [5031]); (43896, [5032]); (43897, [5033]); (43898, [5034]); 
   (43899, [5035]); (43900, [5036]); (43901, [5037]); (43902, [5038]); (43903, [5039]); (43904, [5040]); 
   (43905, [5041]); (43906, [5042]); (43907, [5043]); (43908, [5044]); (43909, [5045]); (43910, [5046]); 
   (43911, [5047]); (43912, [5048]); (43913, [5049]); (43914, [5050]); (43915, [5051]); (43916, [5052]); 
   (43917, [5053]); (43918, [5054]); (43919, [5055]); (43920, [5056]); (43921, [5057]); (43922, [5058]); 
   (43923, [5059]); (43924, [5060]); (43925, [5061]); (43926, [5062]); (43927, [5063]); (43928, [5064]); 
   (43929, [5065]); (43930, [5066]); (43931, [5067]); (43932, [5068]); (43933, [5069]); (43934, [5070]); 
   (43935, [5071]); (43936, [5072]); (43937, [5073]); (43938, [5074]); (43939, [5075]); (43940, [5076]); 
   (43941, [5077]); (43942, [5078]); (43943, [5079]); (43944, [5080]); (43945, [5081]); (43946, [5082]); 
   (43947, [5083]); (43948, [5084]); (43949, [5085]); (43950, [5086]); (43951, [5087]); (43952, [5088]); 
   (43953, [5089]); (43954, [5090]); (43955, [5091]); (43956, [5092]); (43957, [5093]); (43958, [5094]); 
   (43959, [5095]); (43960, [5096]); (43961, [5097]); (43962, [5098]); (43963, [5099]); (43964, [5100]); 
   (43965, [5101]); (43966, [5102]); (43967, [5103]); (64256, [70;70]); (64257, [70;73]); (64258, [70;76]); 
   (64259, [70;70;73]); (64260, [70;70;76]); (64261, [83;84]); (64262, [83;84]); (64275, [1348;1350]); 
   (64276, [1348;1333]); (64277, [1348;1339]); (64278, [1358;1350]); (64279, [1348;1341]); (65345, [65313]); 
   (65346, [65314]); (65347, [65315]); (65348, [65316]); (65349, [65317]); (65350, [65318]); (65351, [65319]); 
   (65352, [65320]); (65353, [65321]); (65354, [65322]); (65355, [65323]); (65356, [65324]); (65357, [65325]); 
   (65358, [65326]); (65359, [65327]); (65360, [65328]); (65361, [65329]); (65362, [65330]); (65363, [65331]); 
   (65364, [65332]); (65365, [65333]); (65366, [65334]); (65367, [65335]); (65368, [65336]); (65369, [65337]); 
   (65370, [65338]); (66600, [66560]); (66601, [66561]); (66602, [66562]); (66603, [66563]); (66604, [66564]); 
   (66605, [66565]); (66606, [66566]); (66607, [66567]); (66608, [66568]); (66609, [66569]); (66610, [66570]); 
   (66611, [66571]); (66612, [66572]); (66613, [66573]); (66614, [66574]); (66615, [66575]); (66616, [66576]); 
   (66617, [66577]); (66618, [66578]); (66619, [66579]); (66620, [66580]); (66621, [66581]); (66622, [66582]); 
   (66623, [66583]); (66624, [66584]); (66625, [66585]); (66626, [66586]); (66627, [66587]); (66628, [66588]); 
   (66629, [66589]); (66630, [66590]); (66631, [66591]); (66632, [66592]); (66633, [66593]); (66634, [66594]); 
   (66635, [66595]); (66636, [66596]); (66637, [66597]); (66638, [66598]); (66639, [66599]); (66776, [66736]); 
   (66777, [66737]); (66778, [66738]); (66779, [66739]); (66780, [66740]); (66781, [66741]); (66782, [66742]); 
   (66783, [66743]); (66784, [66744]); (66785, [66745]); (66786, [66746]); (66787, [66747]); (66788, [66748]); 
   (66789, [66749]); (66790, [66750]); (66791, [66751]); (66792, [66752]); (66793, [66753]); (66794, [66754]); 
   (66795, [66755]); (66796, [66756]); (66797, [66757]); (66798, [66758]); (66799, [66759]); (66800, [66760]); 
   (66801, [66761]); (66802, [66762]); (66803, [66763]); (66804, [66764]); (66805, [66765]); (66806, [66766]); 
   (66807, [66767]); (66808, [66768]); (66809, [66769]); (66810, [66770]); (66811, [66771]); (66967, [66928]); 
   (66968, [66929]); (66969, [66930]); (66970, [66931]); (66971, [66932]); (66972, [66933]); (66973, [66934]); 
   (66974, [66935]); (66975, [66936]); (66976, [66937]); (66977, [66938]); (66979, [66940]); (66980, [66941]); 
   (66981, [66942]); (66982, [66943]); (66983, [66944]); (66984, [66945]); (66985, [66946]); (66986, [66947]); 
   (66987, [66948]); (66988, [66949]); (66989, [66950]); (66990, [66951]); (66991, [66952]); (66992, [66953]); 
   (66993, [66954]); (66995, [66956]); (66996, [66957]); (66997, [66958]); (66998, [66959]); (66999, [66960]); 
   (67000, [66961]); (67001, [66962]); (67003, [66964]); (67004, [66965]); (68800, [68736]); (68801, [68737]); 
   (68802, [68738]); (68803, [68739]); (68804, [68740]); (68805, [68741]); (68806, [68742]); (68807, [68743]); 
   (68808, [68744]); (68809, [68745]); (68810, [68746]); (68811, [68747]); (68812, [68748]); (68813, [68749]); 
   (68814, [68750]); (68815, [68751]); (68816, [68752]); (68817, [68753]); (68818, [68754]); (68819, [68755]); 
   (68820, [68756]); (68821, [68757]); (68822, [68758]); (68823, [68759]); (68824, [68760]); (68825, [68761]); 
   (68826, [68762]); (68827, [68763]); (68828, [68764]); (68829, [68765]); (68830, [68766]); (68831, [68767]); 
   (68832, [68768]); (68833, [68769]); (68834, [68770]); (68835, [68771]); (68836, [68772]); (68837, [68773]); 
   (68838, [68774]); (68839, [68775]); (68840, [68776]); (68841, [68777]); (68842, [68778]); (68843, [68779]); 
   (68844, [68780]); (68845, [68781]); (68846, [68782]); (68847, [68783]); (68848, [68784]); (68849, [68785]); 
   (68850, [68786]); (71872, [71840]); (71873, [71841]); (71874, [71842]); (71875, [71843]); (71876, [71844]); 
   (71877, [71845]); (71878, [71846]); (71879, [71847]); (71880, [71848]); (71881, [71849]); (71882, [71850]); 
   (71883, [71851]); (71884, [71852]); (71885, [71853]); (71886, [71854]); (71887, [71855]); (71888, [71856]); 
   (71889, [71857]); (71890, [71858]); (71891, [71859]); (71892, [71860]); (71893, [71861]); (71894, [71862]); 
   (71895, [71863]); (71896, [71864]); (71897, [71865]); (71898, [71866]); (71899, [71867]); (71900, [71868]); 
   (71901, [71869]); (71902, [71870]); (71903, [71871]); (93792, [93760]); (93793, [93761]); (93794, [93762]); 
   (93795, [93763]); (93796, [93764]); (93797, [93765]); (93798, [93766]); (93799, [93767]); (93800, [93768]); 
   (93801, [93769]); (93802, [93770]); (93803, [93771]); (93804, [93772]); (93805, [93773]); (93806, [93774]); 
   (93807, [93775]); (93808, [93776]); (93809, [93777]); (93810, [93778]); (93811, [93779]); (93812, [93780]); 
   (93813, [93781]); (93814, [93782]); (93815, [93783]); (93816, [93784]); (93817, [93785]); (93818, [93786]); 
   (93819, [93787]); (93820, [93788]); (93821, [93789]); (93822, [93790]); (93823, [93791]); (125218, [125184]); 
   (125219, [125185]); (125220, [125186]); (125221, [125187]); (125222, [125188]); (125223, [125189]); 
   (125224, [125190]); (125225, [125191]); (125226, [125192]); (125227, [125193]); (125228, [125194]); 
   (125229, [125195]); (125230, [125196]); (125231, [125197]); (125232, [125198]); (125233, [125199]); 
   (125234, [125200]); (125235, [125201]); (125236, [125202]); (125237, [125203]); (125238, [125204]); 
   (125239, [125205]); (125240, [125206]); (125241, [125207]); (125242, [125208]); (125243, [125209]); 
   (125244, [125210]); (125245, [125211]); (125246, [125212]); (125247, [125213]); (125248, [125214]); 
   (125249, [125215]); (125250, [125216]); (125251, [125217])].

(** Full title-case mapping. *)
Definition case_title : list (Z * list Z) :=
  [(97, [65]); (98, [66]); (99, [67]); (100, [68]); (101, [69]); (102, [70]); (103, [71]); (104, [72]); 
   (105, [73]); (106, [74]); (107, [75]); (108, [76]); (109, [77]); (110, [78]); (111, [79]); (112, [80]); 
   (113, [81]); (114, [82]); (115, [83]); (116, [84]); (117, [85]); (118, [86]); (119, [87]); (120, [88]); 
   (121, [89]); (122, [90]); (181, [924]); (223, [83;115]); (224, [192]); (225, [193]); (226, [194]); 
   (227, [195]); (228, [196]); (229, [197]); (230, [198]); (231, [199]); (232, [200]); (233, [201]); (234, [202]); 
   (235, [203]); (236, [204]); (237, [205]); (238, [206]); (239, [207]); (240, [208]); (241, [209]); (242, [210]); 
   (243, [211]); (244, [212]); (245, [213]); (246, [214]); (248, [216]); (249, [217]); (250, [218]); (251, [219]); 
   (252, [220]); (253, [221]); (254, [222]); (255, [376]); (257, [256]); (259, [258]); (261, [260]); (263, [262]); 
   (265, [264]); (267, [266]); (269, [268]); (271, [270]); (273, [272]); (275, [274]); (277, [276]); (279, [278]); 
   (281, [280]); (283, [282]); (285, [284]); (287, [286]); (289, [288]); (291, [290]); (293, [292]); (295, [294]); 
   (297, [296]); (299, [298]); (301, [300]); (303, [302]); (305, [73]); (307, [306]); (309, [308]); (311, [310]); 
   (314, [313]); (316, [315]); (318, [317]); (320, [319]); (322, [321]); (324, [323]); (326, [325]); (328, [327]); 
   (329, [700;78]); (331, [330]); (333, [332]); (335, [334]); (337, [336]); (339, [338]); (341, [340]); 
   (343, [342]); (345, [344]); (347, [346]); (349, [348]); (351, [350]); (353, [352]); (355, [354]); (357, [356]); 
   (359, [358]); (361, [360]); (363, [362]); (365, [364]); (367, [366]); (369, [368]); (371, [370]); (373, [372]); 
   (375, [374]); (378, [377]); (380, [379]); (382, [381]); (383, [83]); (384, [579]); (387, [386]); (389, [388]); 
   (392, [391]); (396, [395]); (402, [401]); (405, [502]); (409, [408]); (410, [573]); (414, [544]); (417, [416]); 
   (419, [418]); (421, [420]); (424, [423]); (429, [428]); (432, [431]); (436, [435]); (438, [437]); (441, [440]); 
   (445, [444]); (447, [503]); (452, [453]); (454, [453]); (455, [456]); (457, [456]); (458, [459]); (460, [459]); 
   (462, [461]); (464, [463]); (466, [465]); (468, [467]); (470, [469]); (472, [471]); (474, [473]); (476, [475]); 
   (477, [398]); (479, [478]); (481, [480]); (483, [482]); (485, [484]); (487, [486]); (489, [488]); (491, [490]); 
   (493, [492]); (495, [494]); (496, [74;780]); (497, [498]); (499, [498]); (501, [500]); (505, [504]); 
   (507, [506]); (509, [508]); (511, [510]); (513, [512]); (515, [514]); (517, [516]); (519, [518]); (521, [520]); 
   (523, [522]); (525, [524]); (527, [526]); (529, [528]); (531, [530]); (533, [532]); (535, [534]); (537, [536]); 
   (539, [538]); (541, [540]); (543, [542]); (547, [546]); (549, [548]); (551, [550]); (553, [552]); (555, [554]); 
   (557, [556]); (559, [558]); (561, [560]); (563, [562]); (572, [571]); (575, [11390]); (576, [11391]); 
   (578, [577]); (583, [582]); (585, [584]); (587, [586]); (589, [588]); (591, [590]); (592, [11375]); 
   (593, [11373]); (594, [11376]); (595, [385]); (596, [390]); (598, [393]); (599, [394]); (601, [399]); 
   (603, [400]); (604, [42923]); (608, [403]); (609, [42924]); (611, [404]); (613, [42893]); (614, [42922]); 
   (616, [407]); (617, [406]); (618, [42926]); (619, [11362]); (620, [42925]); (623, [412]); (625, [11374]); 
   (626, [413]); (629, [415]); (637, [11364]); (640, [422]); (642, [42949]); (643, [425]); (647, [42929]); 
   (648, [430]); (649, [580]); (650, [433]); (651, [434]); (652, [581]); (658, [439]); (669, [42930]); 
   (670, [42928]); (837, [921]); (881, [880]); (883, [882]); (887, [886]); (891, [1021]); (892, [1022]); 
   (893, [1023]); (912, [921;776;769]); (940, [902]); (941, [904]); (942, [905]); (943, [906]); 
   (944, [933;776;769]); (945, [913]); (946, [914]); (947, [915]); (948, [916]); (949, [917]); (950, [918]); 
   (951, [919]); (952, [920]); (953, [921]); (954, [922]); (955, [923]); (956, [924]); (957, [925]); (958, [926]); 
   (959, [927]); (960, [928]); (961, [929]); (962, [931]); (963, [931]); (964, [932]); (965, [933]); (966, [934]); 
   (967, [935]); (968, [936]); (969, [937]); (970, [938]); (971, [939]); (972, [908]); (973, [910]); (974, [911]); 
   (976, [914]); (977, [920]); (981, [934]); (982, [928]); (983, [975]); (985, [984]); (987, [986]); (989, [988]); 
   (991, [990]); (993, [992]); (995, [994]); (997, [996]); (999, [998]); (1001, [1000]); (1003, [1002]); 
   (1005, [1004]); (1007, [1006]); (1008, [922]); (1009, [929]); (1010, [1017]); (1011, [895]); (1013, [917]); 
   (1016, [1015]); (1019, [1018]); (1072, [1040]); (1073, [1041]); (1074, [1042]); (1075, [1043]); (1076, [1044]); 
   (1077, [1045]); (1078, [1046]); (1079, [1047]); (1080, [1048]); (1081, [1049]); (1082, [1050]); (1083, [1051]); 
   (1084, [1052]); (1085, [1053]); (1086, [1054]); (1087, [1055]); (1088, [1056]); (1089, [1057]); (1090, [1058]); 
   (1091, [1059]); (1092, [1060]); (1093, [1061]); (1094, [1062]); (1095, [1063]); (1096, [1064]); (1097, [1065]); 
   (1098, [1066]); (1099, [1067]); (1100, [1068]); (1101, [1069]); (1102, [1070]); (1103, [1071]); (1104, [1024]); 
   (1105, [1025]); (1106, [1026]); (1107, [1027]); (1108, [1028]); (1109, [1029]); (1110, [1030]); (1111, [1031]); 
   (1112, [1032]); (1113, [1033]); (1114, [1034]); (1115, [1035]); (1116, [1036]); (1117, [1037]); (1118, [1038]); 
   (1119, [1039]); (1121, [1120]); (1123, [1122]); (1125, [1124]); (1127, [1126]); (1129, [1128]); (1131, [1130]); 
   (1133, [1132]); (1135, [1134]); (1137, [1136]); (1139, [1138]); (1141, [1140]); (1143, [1142]); (1145, [1144]); 
   (1147, [1146]); (1149, [1148]); (1151, [1150]); (1153, [1152]); (1163, [1162]); (1165, [1164]); (1167, [1166]); 
   (1169, [1168]); (1171, [1170]); (1173, [1172]); (1175, [1174]); (1177, [1176]); (1179, [1178]); (1181, [1180]); 
   (1183, [1182]); (1185, [1184]); (1187, [1186]); (1189, [1188]); (1191, [1190]); (1193, [1192]); (1195, [1194]); 
   (1197, [1196]); (1199, [1198]); (1201, [1200]); (1203, [1202]); (1205, [1204]); (1207, [1206]); (1209, [1208]); 
   (1211, [1210]); (1213, [1212]); (1215, [1214]); (1218, [1217]); (1220, [1219]); (1222, [1221]); (1224, [1223]); 
   (1226, [1225]); (1228, [1227]); (1230, [1229]); (1231, [1216]); (1233, [1232]); (1235, [1234]); (1237, [1236]); 
   (1239, [1238]); (1241, [1240]); (1243, [1242]); (1245, [1244]); (1247, [1246]); (1249, [1248]); (1251, [1250]); 
   (1253, [1252]); (1255, [1254]); (1257, [1256]); (1259, [1258]); (1261, [1260]); (1263, [1262]); (1265, [1264]); 
   (1267, [1266]); (1269, [1268]); (1271, [1270]); (1273, [1272]); (1275, [1274]); (1277, [1276]); (1279, [1278]); 
   (1281, [1280]); (1283, [1282]); (1285, [1284]); (1287, [1286]); (1289, [1288]); (1291, [1290]); (1293, [1292]); 
   (1295, [1294]); (1297, [1296]); (1299, [1298]); (1301, [1300]); (1303, [1302]); (1305, [1304]); (1307, [1306]); 
   (1309, [1308]); (1311, [1310]); (1313, [1312]); (1315, [1314]); (1317, [1316]); (1319, [1318]); (1321, [1320]); 
   (1323, [1322]); (1325, [1324]); (1327, [1326]); (1377, [1329]); (1378, [1330]); (1379, [1331]); (1380, [1332]); 
   (1381, [1333]); (1382, [1334]); (1383, [1335]); (1384, [1336]); (1385, [1337]); (1386, [1338]); (1387, [1339]); 
   (1388, [1340]); (1389, [1341]); (1390, [1342]); (1391, [1343]); (1392, [1344]); (1393, [1345]); (1394, [1346]); 
   (1395, [1347]); (1396, [1348]); (1397, [1349]); (1398, [1350]); (1399, [1351]); (1400, [1352]); (1401, [1353]); 
   (1402, [1354]); (1403, [1355]); (1404, [1356]); (1405, [1357]); (1406, [1358]); (1407, [1359]); (1408, [1360]); 
   (1409, [1361]); (1410, [1362]); (1411, [1363]); (1412, [1364]); (1413, [1365]); (1414, [1366]); 
   (1415, [1333;1410]); (5112, [5104]); (5113, [5105]); (5114, [5106]); (5115, [5107]); (5116, [5108]); 
   (5117, [5109]); (7296, [1042]); (7297, [1044]); (7298, [1054]); (7299, [1057]); (7300, [1058]); (7301, [1058]); 
   (7302, [1066]); (7303, [1122]); (7304, [42570]); (7545, [42877]); (7549, [11363]); (7566, [42950]); 
   (7681, [7680]); (7683, [7682]); (7685, [7684]); (7687, [7686]); (7689, [7688]); (7691, [7690]); (7693, [7692]); 
   (7695, [7694]); (7697, [7696]); (7699, [7698]); (7701, [7700]); (7703, [7702]); (7705, [7704]); (7707, [7706]); 
   (7709, [7708]); (7711, [7710]); (7713, [7712]); (7715, [7714]); (7717, [7716]); (7719, [7718]); (7721, [7720]); 
   (7723, [7722]); (7725, [7724]); (7727, [7726]); (7729, [7728]); (7731, [7730]); (7733, [7732]); (7735, [7734]); 
   (7737, [7736]); (7739, [7738]); (7741, [7740]); (7743, [7742]); (7745, [7744]); (7747, [7746]); (7749, [7748]); 
   (7751, [7750]); (7753, [7752]); (7755, [7754]); (7757, [7756]); (7759, [7758]); (7761, [7760]); (7763, [7762]); 
   (7765, [7764]); (7767, [7766]); (7769, [7768]); (7771, [7770]); (7773, [7772]); (7775, [7774]); (7777, [7776]); 
   (7779, [7778]); (7781, [7780]); (7783, [7782]); (7785, [7784]); (7787, [7786]); (7789, [7788]); (7791, [7790]); 
   (7793, [7792]); (7795, [7794]); (7797, [7796]); (7799, [7798]); (7801, [7800]); (7803, [7802]); (7805, [7804]); 
   (7807, [7806]); (7809, [7808]); (7811, [7810]); (7813, [7812]); (7815, [7814]); (7817, [7816]); (7819, [7818]); 
   (7821, [7820]); (7823, [7822]); (7825, [7824]); (7827, [7826]); (7829, [7828]); (7830, [72;817]); 
   (7831, [84;776]); (7832, [87;778]); (7833, [89;778]); (7834, [65;702]); (7835, [7776]); (7841, [7840]); 
   (7843, [7842]); (7845, [7844]); (7847, [7846]); (7849, [7848]); (7851, [7850]); (7853, [7852]); (7855, [7854]); 
   (7857, [7856]); (7859, [7858]); (7861, [7860]); (7863, [7862]); (7865, [7864]); (7867, [7866]); (7869, [7868]); 
   (7871, [7870]); (7873, [7872]); (7875, [7874]); (7877, [7876]); (7879, [7878]); (7881, [7880]); (7883, [7882]); 
   (7885, [7884]); (7887, [7886]); (7889, [7888]); (7891, [7890]); (7893, [7892]); (7895, [7894]); (7897, [7896]); 
   (7899, [7898]); (7901, [7900]); (7903, [7902]); (7905, [7904]); (7907, [7906]); (7909, [7908]); (7911, [7910]); 
   (7913, [7912]); (7915, [7914]); (7917, [7916]); (7919, [7918]); (7921, [7920]); (7923, [7922]); (7925, [7924]); 
   (7927, [7926]); (7929, [7928]); (7931, [7930]); (7933, [7932]); (7935, [7934]); (7936, [7944]); (7937, [7945]); 
   (7938, [7946]); (7939, [7947]); (7940, [7948]); (7941, [7949]); (7942, [7950]); (7943, [7951]); (7952, [7960]); 
   (7953, [7961]); (7954, [7962]); (7955, [7963]); (7956, [7964]); (7957, [7965]); (7968, [7976]); (7969, [7977]); 
   (7970, [7978]); (7971, [7979]); (7972, [7980]); (7973, [7981]); (7974, [7982]); (7975, [7983]); (7984, [7992]); 
   (7985, [7993]); (7986, [7994]); (7987, [7995]); (7988, [7996]); (7989, [7997]); (7990, [7998]); (7991, [7999]); 
   (8000, [8008]); (8001, [8009]); (8002, [8010]); (8003, [8011]); (8004, [8012]); (8005, [8013]); 
   (8016, [933;787]); (8017, [8025]); (8018, [933;787;768]); (8019, [8027]); (8020, [933;787;769]); 
   (8021, [8029]); (8022, [933;787;834]); (8023, [8031]); (8032, [8040]); (8033, [8041]); (8034, [8042]); 
   (8035, [8043]); (8036, [8044]); (8037, [8045]); (8038, [8046]); (8039, [8047]); (8048, [8122]); (8049, [8123]); 
   (8050, [8136]); (8051, [8137]); (8052, [8138]); (8053, [8139]); (8054, [8154]); (8055, [8155]); (8056, [8184]); 
   (8057, [8185]); (8058, [8170]); (8059, [8171]); (8060, [8186]); (8061, [8187]); (8064, [8072]); (8065, [8073]); 
   (8066, [8074]); (8067, [8075]); (8068, [8076]); (8069, [8077]); (8070, [8078]); (8071, [8079]); (8080, [8088]); 
   (8081, [8089]); (8082, [8090]); (8083, [8091]); (8084, [8092]); (8085, [8093]); (8086, [8094]); (8087, [8095]); 
   (8096, [8104]); (8097, [8105]); (8098, [8106]); (8099, [8107]); (8100, [8108]); (8101, [8109]); (8102, [8110]); 
   (8103, [8111]); (8112, [8120]); (8113, [8121]); (8114, [8122;837]); (8115, [8124]); (8116, [902;837]); 
   (8118, [913;834]); (8119, [913;834;837]); (8126, [921]); (8130, [8138;837]); (8131, [8140]); (8132, [905;837]); 
   (8134, [919;834]); (8135, [919;834;837]); (8144, [8152]); (8145, [8153]); (8146, [921;776;768]); 
   (8147, [921;776;769]); (8150, [921;834]); (8151, [921;776;834]); (8160, [8168]); (8161, [8169]); 
   (8162, [933;776;768]); (8163, [933;776;769]); (8164, [929;787]); (8165, [8172]); (8166, [933;834]); 
   (8167, [933;776;834]); (8178, [8186;837]); (8179, [8188]); (8180, [911;837]); (8182, [937;834]); 
   (8183, [937;834;837]); (8526, [8498]); (8560, [8544]); (8561, [8545]); (8562, [8546]); (8563, [8547]); 
   (8564, [8548]); (8565, [8549]); (8566, [8550]); (8567, [8551]); (8568, [8552]); (8569, [8553]); (8570, [8554]); 
   (8571, [8555]); (8572, [8556]); (8573, [8557]); (8574, [8558]); (8575, [8559]); (8580, [8579]); (9424, [9398]); 
   (9425, [9399]); (9426, [9400]); (9427, [9401]); (9428, [9402]); (9429, [9403]); (9430, [9404]); (9431, [9405]); 
   (9432, [9406]); (9433, [9407]); (9434, [9408]); (9435, [9409]); (9436, [9410]); (9437, [9411]); (9438, [9412]); 
   (9439, [9413]); (9440, [9414]); (9441, [9415]); (9442, [9416]); (9443, [9417]); (9444, [9418]); (9445, [9419]); 
   (9446, [9420]); (9447, [9421]); (9448, [9422]); (9449, [9423]); (11312, [11264]); (11313, [11265]); 
   (11314, [11266]); (11315, [11267]); (11316, [11268]); (11317, [11269]); (11318, [11270]); (11319, [11271]); 
   (11320, [11272]); (11321, [11273]); (11322, [11274]); (11323, [11275]); (11324, [11276]); (11325, [11277]); 
   (11326, [11278]); (11327, [11279]); (11328, [11280]); (11329, [11281]); (11330, [11282]); (11331, [11283]); 
   (11332, [11284]); (11333, [11285]); (11334, [11286]); (11335, [11287]); (11336, [11288]); (11337, [11289]); 
   (11338, [11290]); (11339, [11291]); (11340, [11292]); (11341, [11293]); (11342, [11294]); (11343, [11295]); 
   (11344, [11296]); (11345, [11297]); (11346, [11298]); (11347, [11299]); (11348, [11300]); (11349, [11301]); 
   (11350, [11302]); (11351, [11303]); (11352, [11304]); (11353, [11305]); (11354, [11306]); (11355, [11307]); 
   (11356, [11308]); (11357, [11309]); (11358, [11310]); (11359, [11311]); (11361, [11360]); (11365, [570]); 
   (11366, [574]); (11368, [11367]); (11370, [11369]); (11372, [11371]); (11379, [11378]); (11382, [11381]); 
   (11393, [11392]); (11395, [11394]); (11397, [11396]); (11399, [11398]); (11401, [11400]); (11403, [11402]); 
   (11405, [11404]); (11407, [11406]); (11409, [11408]); (11411, [11410]); (11413, [11412]); (11415, [11414]); 
   (11417, [11416]); (11419, [11418]); (11421, [11420]); (11423, [11422]); (11425, [11424]); (11427, [11426]); 
   (11429, [11428]); (11431, [11430]); (11433, [11432]); (11435, [11434]); (11437, [11436]); (11439, [11438]); 
   (11441, [11440]); (11443, [11442]); (11445, [11444]); (11447, [11446]); (11449, [11448]); (11451, [11450]); 
   (11453, [11452]); (11455, [11454]); (11457, [11456]); (11459, [11458]); (11461, [11460]); (11463, [11462]); 
   (11465, [11464]); (11467, [11466]); (11469, [11468]); (11471, [11470]); (11473, [11472]); (11475, [11474]); 
   (11477, [11476]); (11479, [11478]); (11481, [11480]); (11483, [11482]); (11485, [11484]); (11487, [11486]); 
   (11489, [11488]); (11491, [11490]); (11500, [11499]); (11502, [11501]); (11507, [11506]); (11520, [4256]); 
   (11521, [4257]); (11522, [4258]); (11523, [4259]); (11524, [4260]); (11525, [4261]); (11526, [4262]); 
   (11527, [4263]); (11528, [4264]); (11529, [4265]); (11530, [4266]); (11531, [4267]); (11532, [4268]); 
   (11533, [4269]); (11534, [4270]); (11535, [4271]); (11536, [4272]); (11537, [4273]); (11538, [4274]); 
   (11539, [4275]); (11540, [4276]); (11541, [4277]); (11542, [4278]); (11543, [4279]); (11544, [4280]); 
   (11545, [4281]); (11546, [4282]); (11547, [4283]); (11548, [4284]); (11549, [4285]); (11550, [4286]); 
   (11551, [4287]); (11552, [4288]); (11553, [4289]); (11554, [4290]); (11555, [4291]); (11556, [4292]); 
   (11557, [4293]); (11559, [4295]); (11565, [4301]); (42561, [42560]); (42563, [42562]); (42565, [42564]); 
   (42567, [42566]); (42569, [42568]); (42571, [42570]); (42573, [42572]); (42575, [42574]); (42577, [42576]); 
   (42579, [42578]); (42581, [42580]); (42583, [42582]); (42585, [42584]); (42587, [42586]); (42589, [42588]); 
   (42591, [42590]); (42593, [42592]); (42595, [42594]); (42597, [42596]); (42599, [42598]); (42601, [42600]); 
   (42603, [42602]); (42605, [42604]); (42625, [42624]); (42627, [42626]); (42629, [42628]); (42631, [42630]); 
   (42633, [42632]); (42635, [42634]); (42637, [42636]); (42639, [42638]); (42641, [42640]); (42643, [42642]); 
   (42645, [42644]); (42647, [42646]); (42649, [42648]); (42651, [42650]); (42787, [42786]); (42789, [42788]); 
   (42791, [42790]); (42793, [42792]); (42795, [42794]); (42797, [42796]); (42799, [42798]); (42803, [42802]); 
   (42805, [42804]); (42807, [42806]); (42809, [42808]); (42811, [42810]); (42813, [42812]); (42815, [42814]); 
   (42817, [42816]); (42819, [42818]); (42821, [42820]); (42823, [42822]); (42825, [42824]); (42827, [42826]); 
   (42829, [42828]); (42831, [42830]); (42833, [42832]); (42835, [42834]); (42837, [42836]); (42839, [42838]); 
   (42841, [42840]); (42843, [42842]); (42845, [42844]); (42847, [42846]); (42849, [42848]); (42851, [42850]); 
   (42853, [42852]); (42855, [42854]); (42857, [42856]); (42859, [42858]); (42861, [42860]); (42863, [42862]); 
   (42874, [42873]); (42876, [42875]); (42879, [42878]); (42881, [42880]); (42883, [42882]); (42885, [42884]); 
   (42887, [42886]); (42892, [42891]); (42897, [42896]); (42899, [42898]); (42900, [42948]); (42903, [42902]); 
   (42905, [42904]); (42907, [42906]); (42909, [42908]); (42911, [42910]); (42913, [42912]); (42915, [42914]); 
   (42917, [42916]); (42919, [42918]); (42921, [42920]); (42933, [42932]); (42935, [42934]); (42937, [42936]); 
   (42939, [42938]); (42941, [42940]); (42943, [42942]); (42945, [42944]); (42947, [42946]); (42952, [42951]); 
   (42954, [42953]); (42961, [42960]); (42967, [42966]); (42969, [42968]); (42998, [42997]); (43859, [42931]); 
   (43888, [5024]); (43889, [5025]); (43890, [5026]); (43891, [5027]); (43892, [5028]); (43893, [5029]); 
   (43894, [5030]); (43895, [5031]); (43896, [5032]); (43897, [5033]); (43898, [5034]); (43899, [5035]); 
   (43900, [5036]); (43901, [5037]); (43902, [5038]); (43903, [5039]); (43904, [5040]); (43905, [5041]); 
   (43906, [5042]); (43907, [5043]); (43908, [5044]); (43909, [5045]); (43910, [5046]); (43911, [5047]); 
   (43912, [5048]); (43913, [5049]); (43914, [5050]); (43915, [5051]); (43916, [5052]); (43917, [5053]); 
   (43918, [5054]); (43919, [5055]); (43920, [5056]); (43921, [5057]); (43922, [5058]); (43923, [5059]); 
   (43924, [5060]); (43925, [5061]); (43926, [5062]); (43927, [5063]); (43928, [5064]); (43929, [5065]); 
   (43930, [5066]); (43931, [5067]); (43932, [5068]); (43933, [5069]); (43934, [5070]); (43935, [5071]); 
   (43936, [5072]); (43937, [5073]); (43938, [5074]); (43939, [5075]); (43940, [5076]); (43941, [5077]); 
   (43942, [5078]); (43943, [5079]); (43944, [5080]); (43945, [5081]); (43946, [5082]); (43947, [5083]); 
   (43948, [5084]); (43949, [5085]); (43950, [5086]); (43951, [5087]); (43952, [5088]); (43953, [5089]); 
   (43954, [5090]); (43955, [5091]); (43956, [5092]); (43957, [5093]); (43958, [5094]); (43959, [5095]); 
   (43960, [5096]); (43961, [5097]); (43962, [5098]); (43963, [5099]); (43964, [5100]); (43965, [5101]); 
   (43966, [5102]); (43967, [5103]); (64256, [70;102]); (64257, [70;105]); (64258, [70;108]); 
   (64259, [70;102;105]); (64260, [70;102;108]); (64261, [83;116]); (64262, [83;116]); (64275, [1348;1398]); 
   (64276, [1348;1381]); (64277, [1348;1387]); (64278, [1358;1398]); (64279, [1348;1389]); (65345, [65313]); 
   (65346, [65314]); (65347, [65315]); (65348, [65316]); (65349, [65317]); (65350, [65318]); (65351, [65319]); 
   (65352, [65320]); (65353, [65321]); (65354, [65322]); (65355, [65323]); (65356, [65324]); (65357, [65325]); 
   (65358, [65326]); (65359, [65327]); (65360, [65328]); (65361, [65329]); (65362, [65330]); (65363, [65331]); 
   (65364, [65332]); (65365, [65333]); (65366, [65334]); (65367, [65335]); (65368, [65336]); (65369, [65337]); 
   (65370, [65338]); (66600, [66560]); (66601, [66561]); (66602, [66562]); (66603, [66563]); (66604, [66564]); 
   (66605, [66565]); (66606, [66566]); (66607, [66567]); (66608, [66568]); (66609, [66569]); (66610, [66570]); 
   (66611, [66571]); (66612, [66572]); (66613, [66573]); (66614, [66574]); (66615, [66575]); (66616, [66576]); 
   (66617, [66577]); (66618, [66578]); (66619, [66579]); (66620, [66580]); (66621, [66581]); (66622, [66582]); 
   (66623, [66583]); (66624, [66584]); (66625, [66585]); (66626, [66586]); (66627, [66587]); (66628, [66588]); 
   (66629, [66589]); (66630, [66590]); (66631, [66591]); (66632, [66592]); (66633, [66593]); (66634, [66594]); 
   (66635, [66595]); (66636, [66596]); (66637, [66597]); (66638, [66598]); (66639, [66599]); (66776, [66736]); 
   (66777, [66737]); (66778, [66738]); (66779, [66739]); (66780, [66740]); (66781, [66741]); (66782, [66742]); 
   (66783, [66743]); (66784, [66744]); (66785, [66745]); (66786, [66746]); (66787, [66747]); (66788, [66748]); 
   (66789, [66749]); (66790, [66750]); (66791, [66751]); (66792, [66752]); (66793, [66753]); (66794, [66754]); 
   (66795, [66755]); (66796, [66756]); (66797, [66757]); (66798, [66758]); (66799, [66759]); (66800, [66760]); 
   (66801, [66761]); (66802, [66762]); (66803, [66763]); (66804, [66764]); (66805, [66765]); (66806, [66766]); 
   (66807, [66767]); (66808, [66768]); (66809, [66769]); (66810, [66770]); (66811, [66771]); (66967, [66928]); 
   (66968, [66929]); (66969, [66930]); (66970, [66931]); (66971, [66932]); (66972, [66933]); (66973, [66934]); 
   (66974, [66935]); (66975, [66936]); (66976, [66937]); (66977, [66938]); (66979, [66940]); (66980, [66941]); 
   (66981, [66942]); (66982, [66943]); (66983, [66944]); (66984, [66945]); (66985, [66946]); (66986, [66947]); 
   (66987, [66948]); (66988, [66949]); (66989, [66950]); (66990, [66951]); (66991, [66952]); (66992, [66953]); 
   (66993, [66954]); (66995, [66956]); (66996, [66957]); (66997, [66958]); (66998, [66959]); (66999, [66960]); 
   (67000, [66961]); (67001, [66962]); (67003, [66964]); (67004, [66965]); (68800, [68736]); (68801, [68737]); 
   (68802, [68738]); (68803, [68739]); (68804, [68740]); (68805, [68741]); (68806, [68742]); (68807, [68743]); 
   (68808, [68744]); (68809, [68745]); (68810, [68746]); (68811, [68747]); (68812, [68748]); (68813, [68749]); 
   (68814, [68750]); (68815, [68751]); (68816, [68752]); (68817, [68753]); (68818, [68754]); (68819, [68755]); 
   (68820, [68756]); (68821, [68757]); (68822, [68758]); (68823, [68759]); (68824, [68760]); (68825, [68761]); 
   (68826, [68762]); (68827, [68763]); (68828, [68764]); (68829, [68765]); (68830, [68766]); (68831, [68767]); 
   (68832, [68768]); (68833, [68769]); (68834, [68770]); (68835, [68771]); (68836, [68772]); (68837, [68773]); 
   (68838, [68774]); (68839, [68775]); (68840, [68776]); (68841, [68777]); (68842, [68778]); (68843, [68779]); 
   (68844, [68780]); (68845, [68781]); (68846, [68782]); (68847, [68783]); (68848, [68784]); (68849, [68785]); 
   (68850, [68786]); (71872, [71840]); (71873, [71841]); (71874, [71842]); (71875, [71843]); (71876, [71844]); 
   (71877, [71845]); (71878, [71846]); (71879, [71847]); (71880, [71848]); (71881, [71849]); (71882, [71850]); 
   (71883, [71851]); (71884, [71852]); (71885, [71853]); (71886, [71854]); (71887, [71855]); (71888, [71856]); 
   (71889, [71857]); (71890, [71858]); (71891, [71859]); (71892, [71860]); (71893, [71861]); (71894, [71862]); 
   (71895, [71863]); (71896, [71864]); (71897, [71865]); (71898, [71866]); (71899, [71867]); (71900, [71868]); 
   (71901, [71869]); (71902, [71870]); (71903, [71871]); (93792, [93760]); (93793, [93761]); (93794, [93762]); 
   (93795, [93763]); (93796, [93764]); (93797, [93765]); (93798, [93766]); (93799, [93767]); (93800, [93768]); 
   (93801, [93769]); (93802, [93770]); (93803, [93771]); (93804, [93772]); (93805, [93773]); (93806, [93774]); 
   (93807, [93775]); (93808, [93776]); (93809, [93777]); (93810, [93778]); (93811, [93779]); (93812, [93780]); 
   (93813, [93781]); (93814, [93782]); (93815, [93783]); (93816, [93784]); (93817, [93785]); (93818, [93786]); 
   (93819, [93787]); (93820, [93788]); (93821, [93789]); (93822, [93790]); (93823, [93791]); (125218, [125184]); 
   (125219, [125185]); (125220, [125186]); (125221, [125187]); (125222, [125188]); (125223, [125189]); 
   (125224, [125190]); (125225, [125191]); (125226, [125192]); (125227, [125193]); (125228, [125194]); 
   (125229, [125195]); (125230, [125196]); (125231, [125197]); (125232, [125198]); (125233, [125199]); 
   (125234, [125200]); (125235, [125201]); (125236, [125202]); (125237, [125203]); (125238, [125204]); 
   (125239, [125205]); (125240, [125206]); (125241, [125207]); (125242, [125208]); (125243, [125209]); 
   (125244, [125210]); (125245, [125211]); (125246, [125212]); (125247, [125213]); (125248, [125214]); 
   (125249, [125215]); (125250, [125216]); (125251, [125217])].

(** Full case folding. *)
Definition case_fold : list (Z * list Z) :=
  [(65, [97]); (66, [98]); (67, [99]); (68, [100]); (69, [101]); (70, [102]); (71, [103]); (72, [104]); 
   (73, [105]); (74, [106]); (75, [107]); (76, [108]); (77, [109]); (78, [110]); (79, [111]); (80, [112]); 
   (81, [113]); (82, [114]); (83, [115]); (84, [116]); (85, [117]); (86, [118]); (87, [119]); (88, [120]); 
   (89, [121]); (90, [122]); (181, [956]); (192, [224]); (193, [225]); (194, [226]); (195, [227]); (196, [228]); 
   (197, [229]); (198, [230]); (199, [231]); (200, [232]); (201, [233]); (202, [234]); (203, [235]); (204, [236]); 
   (205, [237]); (206, [238]); (207, [239]); (208, [240]); (209, [241]); (210, [242]); (211, [243]); (212, [244]); 
   (213, [245]); (214, [246]); (216, [248]); (217, [249]); (218, [250]); (219, [251]); (220, [252]); (221, [253]); 
   (222, [254]); (223, [115;115]); (256, [257]); (258, [259]); (260, [261]); (262, [263]); (264, [265]); 
   (266, [267]); (268, [269]); (270, [271]); (272, [273]); (274, [275]); (276, [277]); (278, [279]); (280, [281]); 
   (282, [283]); (284, [285]); (286, [287]); (288, [289]); (290, [291]); (292, [293]); (294, [295]); (296, [297]); 
   (298, [299]); (300, [301]); (302, [303]); (304, [105;775]); (306, [307]); (308, [309]); (310, [311]); 
   (313, [314]); (315, [316]); (317, [318]); (319, [320]); (321, [322]); (323, [324]); (325, [326]); (327, [328]); 
   (329, [700;110]); (330, [331]); (332, [333]); (334, [335]); (336, [337]); (338, [339]); (340, [341]); 
   (342, [343]); (344, [345]); (346, [347]); (348, [349]); (350, [351]); (352, [353]); (354, [355]); (356, [357]); 
   (358, [359]); (360, [361]); (362, [363]); (364, [365]); (366, [367]); (368, [369]); (370, [371]); (372, [373]); 
   (374, [375]); (376, [255]); (377, [378]); (379, [380]); (381, [382]); (383, [115]); (385, [595]); (386, [387]); 
   (388, [389]); (390, [596]); (391, [392]); (393, [598]); (394, [599]); (395, [396]); (398, [477]); (399, [601]); 
   (400, [603]); (401, [402]); (403, [608]); (404, [611]); (406, [617]); (407, [616]); (408, [409]); (412, [623]); 
   (413, [626]); (415, [629]); (416, [417]); (418, [419]); (420, [421]); (422, [640]); (423, [424]); (425, [643]); 
   (428, [429]); (430, [648]); (431, [432]); (433, [650]); (434, [651]); (435, [436]); (437, [438]); (439, [658]); 
   (440, [441]); (444, [445]); (452, [454]); (453, [454]); (455, [457]); (456, [457]); (458, [460]); (459, [460]); 
   (461, [462]); (463, [464]); (465, [466]); (467, [468]); (469, [470]); (471, [472]); (473, [474]); (475, [476]); 
   (478, [479]); (480, [481]); (482, [483]); (484, [485]); (486, [487]); (488, [489]); (490, [491]); (492, [493]); 
   (494, [495]); (496, [106;780]); (497, [499]); (498, [499]); (500, [501]); (502, [405]); (503, [447]); 
   (504, [505]); (506, [507]); (508, [509]); (510, [511]); (512, [513]); (514, [515]); (516, [517]); (518, [519]); 
   (520, [521]); (522, [523]); (524, [525]); (526, [527]); (528, [529]); (530, [531]); (532, [533]); (534, [535]); 
   (536, [537]); (538, [539]); (540, [541]); (542, [543]); (544, [414]); (546, [547]); (548, [549]); (550, [551]); 
   (552, [553]); (554, [555]); (556, [557]); (558, [559]); (560, [561]); (562, [563]); (570, [11365]); 
   (571, [572]); (573, [410]); (574, [11366]); (577, [578]); (579, [384]); (580, [649]); (581, [652]); 
   (582, [583]); (584, [585]); (586, [587]); (588, [589]); (590, [591]); (837, [953]); (880, [881]); (882, [883]); 
   (886, [887]); (895, [1011]); (902, [940]); (904, [941]); (905, [942]); (906, [943]); (908, [972]); 
   (910, [973]); (911, [974]); (912, [953;776;769]); (913, [945]); (914, [946]); (915, [947]); (916, [948]); 
   (917, [949]); (918, [950]); (919, [951]); (920, [952]); (921, [953]); (922, [954]); (923, [955]); (924, [956]); 
   (925, [957]); (926, [958]); (927, [959]); (928, [960]); (929, [961]); (931, [963]); (932, [964]); (933, [965]); 
   (934, [966]); (935, [967]); (936, [968]); (937, [969]); (938, [970]); (939, [971]); (944, [965;776;769]); 
   (962, [963]); (975, [983]); (976, [946]); (977, [952]); (981, [966]); (982, [960]); (984, [985]); (986, [987]); 
   (988, [989]); (990, [991]); (992, [993]); (994, [995]); (996, [997]); (998, [999]); (1000, [1001]); 
   (1002, [1003]); (1004, [1005]); (1006, [1007]); (1008, [954]); (1009, [961]); (1012, [952]); (1013, [949]); 
   (1015, [1016]); (1017, [1010]); (1018, [1019]); (1021, [891]); (1022, [892]); (1023, [893]); (1024, [1104]); 
   (1025, [1105]); (1026, [1106]); (1027, [1107]); (1028, [1108]); (1029, [1109]); (1030, [1110]); (1031, [1111]); 
   (1032, [1112]); (1033, [1113]); (1034, [1114]); (1035, [1115]); (1036, [1116]); (1037, [1117]); (1038, [1118]); 
   (1039, [1119]); (1040, [1072]); (1041, [1073]); (1042, [1074]); (1043, [1075]); (1044, [1076]); (1045, [1077]); 
   (1046, [1078]); (1047, [1079]); (1048, [1080]); (1049, [1081]); (1050, [1082]); (1051, [1083]); (1052, [1084]); 
   (1053, [1085]); (1054, [1086]); (1055, [1087]); (1056, [1088]); (1057, [1089]); (1058, [1090]); (1059, [1091]); 
   (1060, [1092]); (1061, [1093]); (1062, [1094]); (1063, [1095]); (1064, [1096]); (1065, [1097]); (1066, [1098]); 
   (1067, [1099]); (1068, [1100]); (1069, [1101]); (1070, [1102]); (1071, [1103]); (1120, [1121]); (1122, [1123]); 
   (1124, [1125]); (1126, [1127]); (1128, [1129]); (1130, [1131]); (1132, [1133]); (1134, [1135]); (1136, [1137]); 
   (1138, [1139]); (1140, [1141]); (1142, [1143]); (1144, [1145]); (1146, [1147]); (1148, [1149]); (1150, [1151]); 
   (1152, [1153]); (1162, [1163]); (1164, [1165]); (1166, [1167]); (1168, [1169]); (1170, [1171]); (1172, [1173]); 
   (1174, [1175]); (1176, [1177]); (1178, [1179]); (1180, [1181]); (1182, [1183]); (1184, [1185]); (1186, [1187]); 
   (1188, [1189]); (1190, [1191]); (1192, [1193]); (1194, [1195]); (1196, [1197]); (1198, [1199]); (1200, [1201]); 
   (1202, [1203]); (1204, [1205]); (1206, [1207]); (1208, [1209]); (1210, [1211]); (1212, [1213]); (1214, [1215]); 
   (1216, [1231]); (1217, [1218]); (1219, [1220]); (1221, [1222]); (1223, [1224]); (1225, [1226]); (1227, [1228]); 
   (1229, [1230]); (1232, [1233]); (1234, [1235]); (1236, [1237]); (1238, [1239]); (1240, [1241]); (1242, [1243]); 
   (1244, [1245]); (1246, [1247]); (1248, [1249]); (1250, [1251]); (1252, [1253]); (1254, [1255]); (1256, [1257]); 
   (1258, [1259]); (1260, [1261]); (1262, [1263]); (1264, [1265]); (1266, [1267]); (1268, [1269]); (1270, [1271]); 
   (1272, [1273]); (1274, [1275]); (1276, [1277]); (1278, [1279]); (1280, [1281]); (1282, [1283]); (1284, [1285]); 
   (1286, [1287]); (1288, [1289]); (1290, [1291]); (1292, [1293]); (1294, [1295]); (1296, [1297]); (1298, [1299]); 
   (1300, [1301]); (1302, [1303]); (1304, [1305]); (1306, [1307]); (1308, [1309]); (1310, [1311]); (1312, [1313]); 
   (1314, [1315]); (1316, [1317]); (1318, [1319]); (1320, [1321]); (1322, [1323]); (1324, [1325]); (1326, [1327]); 
   (1329, [1377]); (1330, [1378]); (1331, [1379]); (1332, [1380]); (1333, [1381]); (1334, [1382]); (1335, [1383]); 
   (1336, [1384]); (1337, [1385]); (1338, [1386]); (1339, [1387]); (1340, [1388]); (1341, [1389]); (1342, [1390]); 
   (1343, [1391]); (1344, [1392]); (1345, [1393]); (1346, [1394]); (1347, [1395]); (1348, [1396]); (1349, [1397]); 
   (1350, [1398]); (1351, [1399]); (1352, [1400]); (1353, [1401]); (1354, [1402]); (1355, [1403]); (1356, [1404]); 
   (1357, [1405]); (1358, [1406]); (1359, [1407]); (1360, [1408]); (1361, [1409]); (1362, [1410]); (1363, [1411]); 
   (1364, [1412]); (1365, [1413]); (1366, [1414]); (1415, [1381;1410]); (4256, [11520]); (4257, [11521]); 
   (4258, [11522]); (4259, [11523]); (4260, [11524]); (4261, [11525]); (4262, [11526]); (4263, [11527]); 
   (4264, [11528]); (4265, [11529]); (4266, [11530]); (4267, [11531]); (4268, [11532]); (4269, [11533]); 
   (4270, [11534]); (4271, [11535]); (4272, [11536]); (4273, [11537]); (4274, [11538]); (4275, [11539]); 
   (4276, [11540]); (4277, [11541]); (4278, [11542]); (4279, [11543]); (4280, [11544]); (4281, [11545]); 
   (4282, [11546]); (4283, [11547]); (4284, [11548]); (4285, [11549]); (4286, [11550]); (4287, [11551]); 
   (4288, [11552]); (4289, [11553]); (4290, [11554]); (4291, [11555]); (4292, [11556]); (4293, [11557]); 
   (4295, [11559]); (4301, [11565]); (5112, [5104]); (5113, [5105]); (5114, [5106]); (5115, [5107]); 
   (5116, [5108]); (5117, [5109]); (7296, [1074]); (7297, [1076]); (7298, [1086]); (7299, [1089]); (7300, [1090]); 
   (7301, [1090]); (7302, [1098]); (7303, [1123]); (7304, [42571]); (7312, [4304]); (7313, [4305]); 
   (7314, [4306]); (7315, [4307]); (7316, [4308]); (7317, [4309]); (7318, [4310]); (7319, [4311]); (7320, [4312]); 
   (7321, [4313]); (7322, [4314]); (7323, [4315]); (7324, [4316]); (7325, [4317]); (7326, [4318]); (7327, [4319]); 
   (7328, [4320]); (7329, [4321]); (7330, [4322]); (7331, [4323]); (7332, [4324]); (7333, [4325]); (7334, [4326]); 
   (7335, [4327]); (7336, [4328]); (7337, [4329]); (7338, [4330]); (7339, [4331]); (7340, [4332]); (7341, [4333]); 
   (7342, [4334]); (7343, [4335]); (7344, [4336]); (7345, [4337]); (7346, [4338]); (7347, [4339]); (7348, [4340]); 
   (7349, [4341]); (7350, [4342]); (7351, [4343]); (7352, [4344]); (7353, [4345]); (7354, [4346]); (7357, [4349]); 
   (7358, [4350]); (7359, [4351]); (7680, [7681]); (7682, [7683]); (7684, [7685]); (7686, [7687]); (7688, [7689]); 
   (7690, [7691]); (7692, [7693]); (7694, [7695]); (7696, [7697]); (7698, [7699]); (7700, [7701]); (7702, [7703]); 
   (7704, [7705]); (7706, [7707]); (7708, [7709]); (7710, [7711]); (7712, [7713]); (7714, [7715]); (7716, [7717]); 
   (7718, [7719]); (7720, [7721]); (7722, [7723]); (7724, [7725]); (7726, [7727]); (7728, [7729]); (7730, [7731]); 
   (7732, [7733]); (7734, [7735]); (7736, [7737]); (7738, [7739]); (7740, [7741]); (7742, [7743]); (7744, [7745]); 
   (7746, [7747]); (7748, [7749]); (7750, [7751]); (7752, [7753]); (7754, [7755]); (7756, [7757]); (7758, [7759]); 
   (7760, [7761]); (7762, [7763]); (7764, [7765]); (7766, [7767]); (7768, [7769]); (7770, [7771]); (7772, [7773]); 
   (7774, [7775]); (7776, [7777]); (7778, [7779]); (7780, [7781]); (7782, [7783]); (7784, [7785]); (7786, [7787]); 
   (7788, [7789]); (7790, [7791]); (7792, [7793]); (7794, [7795]); (7796, [7797]); (7798, [7799]); (7800, [7801]); 
   (7802, [7803]); (7804, [7805]); (7806, [7807]); (7808, [7809]); (7810, [7811]); (7812, [7813]); (7814, [7815]); 
   (7816, [7817]); (7818, [7819]); (7820, [7821]); (7822, [7823]); (7824, [7825]); (7826, [7827]); (7828, [7829]); 
   (7830, [104;817]); (7831, [116;776]); (7832, [119;778]); (7833, [121;778]); (7834, [97;702]); (7835, [7777]); 
   (7838, [115;115]); (7840, [7841]); (7842, [7843]); (7844, [7845]); (7846, [7847]); (7848, [7849]); 
   (7850, [7851]); (7852, [7853]); (7854, [7855]); (7856, [7857]); (7858, [7859]); (7860, [7861]); (7862, [7863]); 
   (7864, [7865]); (7866, [7867]); (7868, [7869]); (7870, [7871]); (7872, [7873]); (7874, [7875]); (7876, [7877]); 
   (7878, [7879]); (7880, [7881]); (7882, [7883]); (7884, [7885]); (7886, [7887]); (7888, [7889]); (7890, [7891]); 
   (7892, [7893]); (7894, [7895]); (7896, [7897]); (7898, [7899]); (7900, [7901]); (7902, [7903]); (7904, [7905]); 
   (7906, [7907]); (7908, [7909]); (7910, [7911]); (7912, [7913]); (7914, [7915]); (7916, [7917]); (7918, [7919]); 
   (7920, [7921]); (7922, [7923]); (7924, [7925]); (7926, [7927]); (7928, [7929]); (7930, [7931]); (7932, [7933]); 
   (7934, [7935]); (7944, [7936]); (7945, [7937]); (7946, [7938]); (7947, [7939]); (7948, [7940]); (7949, [7941]); 
   (7950, [7942]); (7951, [7943]); (7960, [7952]); (7961, [7953]); (7962, [7954]); (7963, [7955]); (7964, [7956]); 
   (7965, [7957]); (7976, [7968]); (7977, [7969]); (7978, [7970]); (7979, [7971]); (7980, [7972]); (7981, [7973]); 
   (7982, [7974]); (7983, [7975]); (7992, [7984]); (7993, [7985]); (7994, [7986]); (7995, [7987]); (7996, [7988]); 
   (7997, [7989]); (7998, [7990]); (7999, [7991]); (8008, [8000]); (8009, [8001]); (8010, [8002]); (8011, [8003]); 
   (8012, [8004]); (8013, [8005]); (8016, [965;787]); (8018, [965;787;768]); (8020, [965;787;769]); 
   (8022, [965;787;834]); (8025, [8017]); (8027, [8019]); (8029, [8021]); (8031, [8023]); (8040, [8032]); 
   (8041, [8033]); (8042, [8034]); (8043, [8035]); (8044, [8036]); (8045, [8037]); (8046, [8038]); (8047, [8039]); 
   (8064, [7936;953]); (8065, [7937;953]); (8066, [7938;953]); (8067, [7939;953]); (8068, [7940;953]); 
   (8069, [7941;953]); (8070, [7942;953]); (8071, [7943;953]); (8072, [7936;953]); (8073, [7937;953]); 
   (8074, [7938;953]); (8075, [7939;953]); (8076, [7940;953]); (8077, [7941;953]); (8078, [7942;953]); 
   (8079, [7943;953]); (8080, [7968;953]); (8081, [7969;953]); (8082, [7970;953]); (8083, [7971;953]); 
   (8084, [7972;953]); (8085, [7973;953]); (8086, [7974;953]); (8087, [7975;953]); (8088, [7968;953]); 
   (8089, [7969;953]); (8090, [7970;953]); (8091, [7971;953]); (8092, [7972;953]); (8093, [7973;953]); 
   (8094, [7974;953]); (8095, [7975;953]); (8096, [8032;953]); (8097, [8033;953]); (8098, [8034;953]); 
   (8099, [8035;953]); (8100, [8036;953]); (8101, [8037;953]); (8102, [8038;953]); (8103, [8039;953]); 
   (8104, [8032;953]); (8105, [8033;953]); (8106, [8034;953]); (8107, [8035;953]); (8108, [8036;953]); 
   (8109, [8037;953]); (8110, [8038;953]); (8111, [8039;953]); (8114, [8048;953]); (8115, [945;953]); 
   (8116, [940;953]); (8118, [945;834]); (8119, [945;834;953]); (8120, [8112]); (8121, [8113]); (8122, [8048]); 
   (8123, [8049]); (8124, [945;953]); (8126, [953]); (8130, [8052;953]); (8131, [951;953]); (8132, [942;953]); 
   (8134, [951;834]); (8135, [951;834;953]); (8136, [8050]); (8137, [8051]); (8138, [8052]); (8139, [8053]); 
   (8140, [951;953]); (8146, [953;776;768]); (8147, [953;776;769]); (8150, [953;834]); (8151, [953;776;834]); 
   (8152, [8144]); (8153, [8145]); (8154, [8054]); (8155, [8055]); (8162, [965;776;768]); (8163, [965;776;769]); 
   (8164, [961;787]); (8166, [965;834]); (8167, [965;776;834]); (8168, [8160]); (8169, [8161]); (8170, [8058]); 
   (8171, [8059]); (8172, [8165]); (8178, [8060;953]); (8179, [969;953]); (8180, [974;953]); (8182, [969;834]); 
   (8183, [969;834;953]); (8184, [8056]); (8185, [8057]); (8186, [8060]); (8187, [8061]); (8188, [969;953]); 
   (8486, [969]); (8490, [107]); (8491, [229]); (8498, [8526]); (8544, [8560]); (8545, [8561]); (8546, [8562]); 
   (8547, [8563]); (8548, [8564]); (8549, [8565]); (8550, [8566]); (8551, [8567]); (8552, [8568]); (8553, [8569]); 
   (8554, [8570]); (8555, [8571]); (8556, [8572]); (8557, [8573]); (8558, [8574]); (8559, [8575]); (8579, [8580]); 
   (9398, [9424]); (9399, [9425]); (9400, [9426]); (9401, [9427]); (9402, [9428]); (9403, [9429]); (9404, [9430]); 
   (9405, [9431]); (9406, [9432]); (9407, [9433]); (9408, [9434]); (9409, [9435]); (9410, [9436]); (9411, [9437]); 
   (9412, [9438]); (9413, [9439]); (9414, [9440]); (9415, [9441]); (9416, [9442]); (9417, [9443]); (9418, [9444]); 
   (9419, [9445]); (9420, [9446]); (9421, [9447]); (9422, [9448]); (9423, [9449]); (11264, [11312]); 
   (11265, [11313]); (11266, [11314]); (11267, [11315]); (11268, [11316]); (11269, [11317]); (11270, [11318]); 
   (11271, [11319]); (11272, [11320]); (11273, [11321]); (11274, [11322]); (11275, [11323]); (11276, [11324]); 
   (11277, [11325]); (11278, [11326]); (11279, [11327]); (11280, [11328]); (11281, [11329]); (11282, [11330]); 
   (11283, [11331]); (11284, [11332]); (11285, [11333]); (11286, [11334]); (11287, [11335]); (11288, [11336]); 
   (11289, [11337]); (11290, [11338]); (11291, [11339]); (11292, [11340]); (11293, [11341]); (11294, [11342]); 
   (11295, [11343]); (11296, [11344]); (11297, [11345]); (11298, [11346]); (11299, [11347]); (11300, [11348]); 
   (11301, [11349]); (11302, [11350]); (11303, [11351]); (11304, [11352]); (11305, [11353]); (11306, [11354]); 
   (11307, [11355]); (11308, [11356]); (11309, [11357]); (11310, [11358]); (11311, [11359]); (11360, [11361]); 
   (11362, [619]); (11363, [7549]); (11364, [637]); (11367, [11368]); (11369, [11370]); (11371, [11372]); 
   (11373, [593]); (11374, [625]); (11375, [592]); (11376, [594]); (11378, [11379]); (11381, [11382]); 
   (11390, [575]); (11391, [576]); (11392, [11393]); (11394, [11395]); (11396, [11397]); (11398, [11399]); 
   (11400, [11401]); (11402, [11403]); (11404, [11405]); (11406, [11407]); (11408, [11409]); (11410, [11411]); 
   (11412, [11413]); (11414, [11415]); (11416, [11417]); (11418, [11419]); (11420, [11421]); (11422, [11423]); 
   (11424, [11425]); (11426, [11427]); (11428, [11429]); (11430, [11431]); (11432, [11433]); (11434, [11435]); 
   (11436, [11437]); (11438, [11439]); (11440, [11441]); (11442, [11443]); (11444, [11445]); (11446, [11447]); 
   (11448, [11449]); (11450, [11451]); (11452, [11453]); (11454, [11455]); (11456, [11457]); (11458, [11459]); 
   (11460, [11461]); (11462, [11463]); (11464, [11465]); (11466, [11467]); (11468, [11469]); (11470, [11471]); 
   (11472, [11473]); (11474, [11475]); (11476, [11477]); (11478, [11479]); (11480, [11481]); (11482, [11483]); 
   (11484, [11485]); (11486, [11487]); (11488, [11489]); (11490, [11491]); (11499, [11500]); (11501, [11502]); 
   (11506, [11507]); (42560, [42561]); (42562, [42563]); (42564, [42565]); (42566, [42567]); (42568, [42569]); 
   (42570, [42571]); (42572, [42573]); (42574, [42575]); (42576, [42577]); (42578, [42579]); (42580, [42581]); 
   (42582, [42583]); (42584, [42585]); (42586, [42587]); (42588, [42589]); (42590, [42591]); (42592, [42593]); 
   (42594, [42595]); (42596, [42597]); (42598, [42599]); (42600, [42601]); (42602, [42603]); (42604, [42605]); 
   (42624, [42625]); (42626, [42627]); (42628, [42629]); (42630, [42631]); (42632, [42633]); (42634, [42635]); 
   (42636, [42637]); (42638, [42639]); (42640, [42641]); (42642, [42643]); (42644, [42645]); (42646, [42647]); 
   (42648, [42649]); (42650, [42651]); (42786, [42787]); (42788, [42789]); (42790, [42791]); (42792, [42793]); 
   (42794, [42795]); (42796, [42797]); (42798, [42799]); (42802, [42803]); (42804, [42805]); (42806, [42807]); 
   (42808, [42809]); (42810, [42811]); (42812, [42813]); (42814, [42815]); (42816, [42817]); (42818, [42819]); 
   (42820, [42821]); (42822, [42823]); (42824, [42825]); (42826, [42827]); (42828, [42829]); (42830, [42831]); 
   (42832, [42833]); (42834, [42835]); (42836, [42837]); (42838, [42839]); (42840, [42841]); (42842, [42843]); 
   (42844, [42845]); (42846, [42847]); (42848, [42849]); (42850, [42851]); (42852, [42853]); (42854, [42855]); 
   (42856, [42857]); (42858, [42859]); (42860, [42861]); (42862, [42863]); (42873, [42874]); (42875, [42876]); 
   (42877, [7545]); (42878, [42879]); (42880, [42881]); (42882, [42883]); (42884, [42885]); (42886, [42887]); 
   (42891, [42892]); (42893, [613]); (42896, [42897]); (42898, [42899]); (42902, [42903]); (42904, [42905]); 
   (42906, [42907]); (42908, [42909]); (42910, [42911]); (42912, [42913]); (42914, [42915]); (42916, [42917]); 
   (42918, [42919]); (42920, [42921]); (42922, [614]); (42923, [604]); (42924, [609]); (42925, [620]); 
   (42926, [618]); (42928, [670]); (42929, [647]); (42930, [669]); (42931, [43859]); (42932, [42933]); 
   (42934, [42935]); (42936, [42937]); (42938, [42939]); (42940, [42941]); (42942, [42943]); (42944, [42945]); 
   (42946, [42947]); (42948, [42900]); (42949, [642]); (42950, [7566]); (42951, [42952]); (42953, [42954]); 
   (42960, [42961]); (42966, [42967]); (42968, [42969]); (42997, [42998]); (43888, [5024]); (43889, [5025]); 
   (43890, [5026]); (43891, [5027]); (43892, [5028]); (43893, [5029]); (43894, [5030]); (43895, [5031]); 
   (43896, [5032]); (43897, [5033]); (43898, [5034]); (43899, [5035]); (43900, [5036]); (43901, [5037]); 
   (43902, [5038]); (43903, [5039]); (43904, [5040]); (43905, [5041]); (43906, [5042]); (43907, [5043]); 
   (43908, [5044]); (43909, [5045]); (43910, [5046]); (43911, [5047]); (43912, [5048]); (43913, [5049]); 
   (43914, [5050]); (43915, [5051]); (43916, [5052]); (43917, [5053]); (43918, [5054]); (43919, [5055]); 
   (43920, [5056]); (43921, [5057]); (43922, [5058]); (43923, [5059]); (43924, [5060]); (43925, [5061]); 
   (43926, [5062]); (43927, [5063]); (43928, [5064]); (43929, [5065]); (43930, [5066]); (43931, [5067]); 
   (43932, [5068]); (43933, [5069]); (43934, [5070]); (43935, [5071]); (43936, [5072]); (43937, [5073]); 
   (43938, [5074]); (43939, [5075]); (43940, [5076]); (43941, [5077]); (43942, [5078]); (43943, [5079]); 
   (43944, [5080]); (43945, [5081]); (43946, [5082]); (43947, [5083]); (43948, [5084]); (43949, [5085]); 
   (43950, [5086]); (43951, [5087]); (43952, [5088]); (43953, [5089]); (43954, [5090]); (43955, [5091]); 
   (43956, [5092]); (43957, [5093]); (43958, [5094]); (43959, [5095]); (43960, [5096]); (43961, [5097]); 
   (43962, [5098]); (43963, [5099]); (43964, [5100]); (43965, [5101]); (43966, [5102]); (43967, [5103]); 
   (64256, [102;102]); (64257, [102;105]); (64258, [102;108]); (64259, [102;102;105]); (64260, [102;102;108]); 
   (64261, [115;116]); (64262, [115;116]); (64275, [1396;1398]); (64276, [1396;1381]); (64277, [1396;1387]); 
   (64278, [1406;1398]); (64279, [1396;1389]); (65313, [65345]); (65314, [65346]); (65315, [65347]); 
   (65316, [65348]); (65317, [65349]); (65318, [65350]); (65319, [65351]); (65320, [65352]); (65321, [65353]); 
   (65322, [65354]); (65323, [65355]); (65324, [65356]); (65325, [65357]); (65326, [65358]); (65327, [65359]); 
   (65328, [65360]); (65329, [65361]); (65330, [65362]); (65331, [65363]); (65332, [65364]); (65333, [65365]); 
   (65334, [65366]); (65335, [65367]); (65336, [65368]); (65337, [65369]); (65338, [65370]); (66560, [66600]); 
   (66561, [66601]); (66562, [66602]); (66563, [66603]); (66564, [66604]); (66565, [66605]); (66566, [66606]); 
   (66567, [66607]); (66568, [66608]); (66569, [66609]); (66570, [66610]); (66571, [66611]); (66572, [66612]); 
   (66573, [66613]); (66574, [66614]); (66575, [66615]); (66576, [66616]); (66577, [66617]); (66578, [66618]); 
   (66579, [66619]); (66580, [66620]); (66581, [66621]); (66582, [66622]); (66583, [66623]); (66584, [66624]); 
   (66585, [66625]); (66586, [66626]); (66587, [66627]); (66588, [66628]); (66589, [66629]); (66590, [66630]); 
   (66591, [66631]); (66592, [66632]); (66593, [66633]); (66594, [66634]); (66595, [66635]); (66596, [66636]); 
   (66597, [66637]); (66598, [66638]); (66599, [66639]); (66736, [66776]); (66737, [66777]); (66738, [66778]); 
   (66739, [66779]); (66740, [66780]); (66741, [66781]); (66742, [66782]); (66743, [66783]); (66744, [66784]); 
   (66745, [66785]); (66746, [66786]); (66747, [66787]); (66748, [66788]); (66749, [66789]); (66750, [66790]); 
   (66751, [66791]); (66752, [66792]); (66753, [66793]); (66754, [66794]); (66755, [66795]); (66756, [66796]); 
   (66757, [66797]); (66758, [66798]); (66759, [66799]); (66760, [66800]); (66761, [66801]); (66762, [66802]); 
   (66763, [66803]); (66764, [66804]); (66765, [66805]); (66766, [66806]); (66767, [66807]); (66768, [66808]); 
   (66769, [66809]); (66770, [66810]); (66771, [66811]); (66928, [66967]); (66929, [66968]); (66930, [66969]); 
   (66931, [66970]); (66932, [66971]); (66933, [66972]); (66934, [66973]); (66935, [66974]); (66936, [66975]); 
   (66937, [66976]); (66938, [66977]); (66940, [66979]); (66941, [66980]); (66942, [66981]); (66943, [66982]); 
   (66944, [66983]); (66945, [66984]); (66946, [66985]); (66947, [66986]); (66948, [66987]); (66949, [66988]); 
   (66950, [66989]); (66951, [66990]); (66952, [66991]); (66953, [66992]); (66954, [66993]); (66956, [66995]); 
   (66957, [66996]); (66958, [66997]); (66959, [66998]); (66960, [66999]); (66961, [67000]); (66962, [67001]); 
   (66964, [67003]); (66965, [67004]); (68736, [68800]); (68737, [68801]); (68738, [68802]); (68739, [68803]); 
   (68740, [68804]); (68741, [68805]); (68742, [68806]); (68743, [68807]); (68744, [68808]); (68745, [68809]); 
   (68746, [68810]); (68747, [68811]); (68748, [68812]); (68749, [68813]); (68750, [68814]); (68751, [68815]); 
   (68752, [68816]); (68753, [68817]); (68754, [68818]); (68755, [68819]); (68756, [68820]); (68757, [68821]); 
   (68758, [68822]); (68759, [68823]); (68760, [68824]); (68761, [68825]); (68762, [68826]); (68763, [68827]); 
   (68764, [68828]); (68765, [68829]); (68766, [68830]); (68767, [68831]); (68768, [68832]); (68769, [68833]); 
   (68770, [68834]); (68771, [68835]); (68772, [68836]); (68773, [68837]); (68774, [68838]); (68775, [68839]); 
   (68776, [68840]); (68777, [68841]); (68778, [68842]); (68779, [68843]); (68780, [68844]); (68781, [68845]); 
   (68782, [68846]); (68783, [68847]); (68784, [68848]); (68785, [68849]); (68786, [68850]); (71840, [71872]); 
   (71841, [71873]); (71842, [71874]); (71843, [71875]); (71844, [71876]); (71845, [71877]); (71846, [71878]); 
   (71847, [71879]); (71848, [71880]); (71849, [71881]); (71850, [71882]); (71851, [71883]); (71852, [71884]); 
   (71853, [71885]); (71854, [71886]); (71855, [71887]); (71856, [71888]); (71857, [71889]); (71858, [71890]); 
   (71859, [71891]); (71860, [71892]); (71861, [71893]); (71862, [71894]); (71863, [71895]); (71864, [71896]); 
   (71865, [71897]); (71866, [71898]); (71867, [71899]); (71868, [71900]); (71869, [71901]); (71870, [71902]); 
   (71871, [71903]); (93760, [93792]); (93761, [93793]); (93762, [93794]); (93763, [93795]); (93764, [93796]); 
   (93765, [93797]); (93766, [93798]); (93767, [93799]); (93768, [93800]); (93769, [93801]); (93770, [93802]); 
   (93771, [93803]); (93772, [93804]); (93773, [93805]); (93774, [93806]); (93775, [93807]); (93776, [93808]); 
   (93777, [93809]); (93778, [93810]); (93779, [93811]); (93780, [93812]); (93781, [93813]); (93782, [93814]); 
   (93783, [93815]); (93784, [93816]); (93785, [93817]); (93786, [93818]); (93787, [93819]); (93788, [93820]); 
   (93789, [93821]); (93790, [93822]); (93791, [93823]); (125184, [125218]); (125185, [125219]); 
   (125186, [125220]); (125187, [125221]); (125188, [125222]); (125189, [125223]); (125190, [125224]); 
   (125191, [125225]); (125192, [125226]); (125193, [125227]); (125194, [125228]); (125195, [125229]); 
   (125196, [125230]); (125197, [125231]); (125198, [125232]); (125199, [125233]); (125200, [125234]); 
   (125201, [125235]); (125202, [125236]); (125203, [125237]); (125204, [125238]); (125205, [125239]); 
   (125206, [125240]); (125207, [125241]); (125208, [125242]); (125209, [125243]); (125210, [125244]); 
   (125211, [125245]); (125212, [125246]); (125213, [125247]); (125214, [125248]); (125215, [125249]); 
   (125216, [125250]); (125217, [125251])].

(** Full compatibility decompositions, where they are not canonical. *)
Definition ucd_compat : list (Z * list Z) :=
  [(160, [32]); (168, [32;776]); (170, [97]); (175, [32;772]); (178, [50]); (179, [51]); (180, [32;769]); 
   (181, [956]); (184, [32;807]); (185, [49]); (186, [111]); (188, [49;8260;52]); (189, [49;8260;50]); 
   (190, [51;8260;52]); (306, [73;74]); (307, [105;106]); (319, [76;183]); (320, [108;183]); (329, [700;110]); 
   (383, [115]); (452, [68;90;780]); (453, [68;122;780]); (454, [100;122;780]); (455, [76;74]); (456, [76;106]); 
   (457, [108;106]); (458, [78;74]); (459, [78;106]); (460, [110;106]); (497, [68;90]); (498, [68;122]); 
   (499, [100;122]); (688, [104]); (689, [614]); (690, [106]); (691, [114]); (692, [633]); (693, [635]); 
   (694, [641]); (695, [119]); (696, [121]); (728, [32;774]); (729, [32;775]); (730, [32;778]); (731, [32;808]); 
   (732, [32;771]); (733, [32;779]); (736, [611]); (737, [108]); (738, [115]); (739, [120]); (740, [661]); 
   (890, [32;837]); (900, [32;769]); (901, [32;776;769]); (976, [946]); (977, [952]); (978, [933]); 
   (979, [933;769]); (980, [933;776]); (981, [966]); (982, [960]); (1008, [954]); (1009, [961]); (1010, [962]); 
   (1012, [920]); (1013, [949]); (1017, [931]); (1415, [1381;1410]); (1653, [1575;1652]); (1654, [1608;1652]); 
   (1655, [1735;1652]); (1656, [1610;1652]); (3635, [3661;3634]); (3763, [3789;3762]); (3804, [3755;3737]); 
   (3805, [3755;3745]); (3852, [3851]); (3959, [4018;3953;3968]); (3961, [4019;3953;3968]); (4348, [4316]); 
   (7468, [65]); (7469, [198]); (7470, [66]); (7472, [68]); (7473, [69]); (7474, [398]); (7475, [71]); 
   (7476, [72]); (7477, [73]); (7478, [74]); (7479, [75]); (7480, [76]); (7481, [77]); (7482, [78]); (7484, [79]); 
   (7485, [546]); (7486, [80]); (7487, [82]); (7488, [84]); (7489, [85]); (7490, [87]); (7491, [97]); 
   (7492, [592]); (7493, [593]); (7494, [7426]); (7495, [98]); (7496, [100]); (7497, [101]); (7498, [601]); 
   (7499, [603]); (7500, [604]); (7501, [103]); (7503, [107]); (7504, [109]); (7505, [331]); (7506, [111]); 
   (7507, [596]); (7508, [7446]); (7509, [7447]); (7510, [112]); (7511, [116]); (7512, [117]); (7513, [7453]); 
   (7514, [623]); (7515, [118]); (7516, [7461]); (7517, [946]); (7518, [947]); (7519, [948]); (7520, [966]); 
   (7521, [967]); (7522, [105]); (7523, [114]); (7524, [117]); (7525, [118]); (7526, [946]); (7527, [947]); 
   (7528, [961]); (7529, [966]); (7530, [967]); (7544, [1085]); (7579, [594]); (7580, [99]); (7581, [597]); 
   (7582, [240]); (7583, [604]); (7584, [102]); (7585, [607]); (7586, [609]); (7587, [613]); (7588, [616]); 
   (7589, [617]); (7590, [618]); (7591, [7547]); (7592, [669]); (7593, [621]); (7594, [7557]); (7595, [671]); 
   (7596, [625]); (7597, [624]); (7598, [626]); (7599, [627]); (7600, [628]); (7601, [629]); (7602, [632]); 
   (7603, [642]); (7604, [643]); (7605, [427]); (7606, [649]); (7607, [650]); (7608, [7452]); (7609, [651]); 
   (7610, [652]); (7611, [122]); (7612, [656]); (7613, [657]); (7614, [658]); (7615, [952]); (7834, [97;702]); 
   (7835, [115;775]); (8125, [32;787]); (8127, [32;787]); (8128, [32;834]); (8129, [32;776;834]); 
   (8141, [32;787;768]); (8142, [32;787;769]); (8143, [32;787;834]); (8157, [32;788;768]); (8158, [32;788;769]); 
   (8159, [32;788;834]); (8173, [32;776;768]); (8174, [32;776;769]); (8189, [32;769]); (8190, [32;788]); 
   (8192, [32]); (8193, [32]); (8194, [32]); (8195, [32]); (8196, [32]); (8197, [32]); (8198, [32]); (8199, [32]); 
   (8200, [32]); (8201, [32]); (8202, [32]); (8209, [8208]); (8215, [32;819]); (8228, [46]); (8229, [46;46]); 
   (8230, [46;46;46]); (8239, [32]); (8243, [8242;8242]); (8244, [8242;8242;8242]); (8246, [8245;8245]); 
   (8247, [8245;8245;8245]); (8252, [33;33]); (8254, [32;773]); (8263, [63;63]); (8264, [63;33]); (8265, [33;63]); 
   (8279, [8242;8242;8242;8242]); (8287, [32]); (8304, [48]); (8305, [105]); (8308, [52]); (8309, [53]); 
   (8310, [54]); (8311, [55]); (8312, [56]); (8313, [57]); (8314, [43]); (8315, [8722]); (8316, [61]); 
   (8317, [40]); (8318, [41]); (8319, [110]); (8320, [48]); (8321, [49]); (8322, [50]); (8323, [51]); 
   (8324, [52]); (8325, [53]); (8326, [54]); (8327, [55]); (8328, [56]); (8329, [57]); (8330, [43]); 
   (8331, [8722]); (8332, [61]); (8333, [40]); (8334, [41]); (8336, [97]); (8337, [101]); (8338, [111]); 
   (8339, [120]); (8340, [601]); (8341, [104]); (8342, [107]); (8343, [108]); (8344, [109]); (8345, [110]); 
   (8346, [112]); (8347, [115]); (8348, [116]); (8360, [82;115]); (8448, [97;47;99]); (8449, [97;47;115]); 
   (8450, [67]); (8451, [176;67]); (8453, [99;47;111]); (8454, [99;47;117]); (8455, [400]); (8457, [176;70]); 
   (8458, [103]); (8459, [72]); (8460, [72]); (8461, [72]); (8462, [104]); (8463, [295]); (8464, [73]); 
   (8465, [73]); (8466, [76]); (8467, [108]); (8469, [78]); (8470, [78;111]); (8473, [80]); (8474, [81]); 
   (8475, [82]); (8476, [82]); (8477, [82]); (8480, [83;77]); (8481, [84;69;76]); (8482, [84;77]); (8484, [90]); 
   (8488, [90]); (8492, [66]); (8493, [67]); (8495, [101]); (8496, [69]); (8497, [70]); (8499, [77]); 
   (8500, [111]); (8501, [1488]); (8502, [1489]); (8503, [1490]); (8504, [1491]); (8505, [105]); 
   (8507, [70;65;88]); (8508, [960]); (8509, [947]); (8510, [915]); (8511, [928]); (8512, [8721]); (8517, [68]); 
   (8518, [100]); (8519, [101]); (8520, [105]); (8521, [106]); (8528, [49;8260;55]); (8529, [49;8260;57]); 
   (8530, [49;8260;49;48]); (8531, [49;8260;51]); (8532, [50;8260;51]); (8533, [49;8260;53]); 
   (8534, [50;8260;53]); (8535, [51;8260;53]); (8536, [52;8260;53]); (8537, [49;8260;54]); (8538, [53;8260;54]); 
   (8539, [49;8260;56]); (8540, [51;8260;56]); (8541, [53;8260;56]); (8542, [55;8260;56]); (8543, [49;8260]); 
   (8544, [73]); (8545, [73;73]); (8546, [73;73;73]); (8547, [73;86]); (8548, [86]); (8549, [86;73]); 
   (8550, [86;73;73]); (8551, [86;73;73;73]); (8552, [73;88]); (8553, [88]); (8554, [88;73]); (8555, [88;73;73]); 
   (8556, [76]); (8557, [67]); (8558, [68]); (8559, [77]); (8560, [105]); (8561, [105;105]); 
   (8562, [105;105;105]); (8563, [105;118]); (8564, [118]); (8565, [118;105]); (8566, [118;105;105]); 
   (8567, [118;105;105;105]); (8568, [105;120]); (8569, [120]); (8570, [120;105]); (8571, [120;105;105]); 
   (8572, [108]); (8573, [99]); (8574, [100]); (8575, [109]); (8585, [48;8260;51]); (8748, [8747;8747]); 
   (8749, [8747;8747;8747]); (8751, [8750;8750]); (8752, [8750;8750;8750]); (9312, [49]); (9313, [50]); 
   (9314, [51]); (9315, [52]); (9316, [53]); (9317, [54]); (9318, [55]); (9319, [56]); (9320, [57]); 
   (9321, [49;48]); (9322, [49;49]); (9323, [49;50]); (9324, [49;51]); (9325, [49;52]); (9326, [49;53]); 
   (9327, [49;54]); (9328, [49;55]); (9329, [49;56]); (9330, [49;57]); (9331, [50;48]); (9332, [40;49;41]); 
   (9333, [40;50;41]); (9334, [40;51;41]); (9335, [40;52;41]); (9336, [40;53;41]); (9337, [40;54;41]); 
   (9338, [40;55;41]); (9339, [40;56;41]); (9340, [40;57;41]); (9341, [40;49;48;41]); (9342, [40;49;49;41]); 
   (9343, [40;49;50;41]); (9344, [40;49;51;41]); (9345, [40;49;52;41]); (9346, [40;49;53;41]); 
   (9347, [40;49;54;41]); (9348, [40;49;55;41]); (9349, [40;49;56;41]); (9350, [40;49;57;41]); 
   (9351, [40;50;48;41]); (9352, [49;46]); (9353, [50;46]); (9354, [51;46]); (9355, [52;46]); (9356, [53;46]); 
   (9357, [54;46]); (9358, [55;46]); (9359, [56;46]); (9360, [57;46]); (9361, [49;48;46]); (9362, [49;49;46]); 
   (9363, [49;50;46]); (9364, [49;51;46]); (9365, [49;52;46]); (9366, [49;53;46]); (9367, [49;54;46]); 
   (9368, [49;55;46]); (9369, [49;56;46]); (9370, [49;57;46]); (9371, [50;48;46]); (9372, [40;97;41]); 
   (9373, [40;98;41]); (9374, [40;99;41]); (9375, [40;100;41]); (9376, [40;101;41]); (9377, [40;102;41]); 
   (9378, [40;103;41]); (9379, [40;104;41]); (9380, [40;105;41]); (9381, [40;106;41]); (9382, [40;107;41]); 
   (9383, [40;108;41]); (9384, [40;109;41]); (9385, [40;110;41]); (9386, [40;111;41]); (9387, [40;112;41]); 
   (9388, [40;113;41]); (9389, [40;114;41]); (9390, [40;115;41]); (9391, [40;116;41]); (9392, [40;117;41]); 
   (9393, [40;118;41]); (9394, [40;119;41]); (9395, [40;120;41]); (9396, [40;121;41]); (9397, [40;122;41]); 
   (9398, [65]); (9399, [66]); (9400, [67]); (9401, [68]); (9402, [69]); (9403, [70]); (9404, [71]); (9405, [72]); 
   (9406, [73]); (9407, [74]); (9408, [75]); (9409, [76]); (9410, [77]); (9411, [78]); (9412, [79]); (9413, [80]); 
   (9414, [81]); (9415, [82]); (9416, [83]); (9417, [84]); (9418, [85]); (9419, [86]); (9420, [87]); (9421, [88]); 
   (9422, [89]); (9423, [90]); (9424, [97]); (9425, [98]); (9426, [99]); (9427, [100]); (9428, [101]); 
   (9429, [102]); (9430, [103]); (9431, [104]); (9432, [105]); (9433, [106]); (9434, [107]); (9435, [108]); 
   (9436, [109]); (9437, [110]); (9438, [111]); (9439, [112]); (9440, [113]); (9441, [114]); (9442, [115]); 
   (9443, [116]); (9444, [117]); (9445, [118]); (9446, [119]); (9447, [120]); (9448, [121]); (9449, [122]); 
   (9450, [48]); (10764, [8747;8747;8747;8747]); (10868, [58;58;61]); (10869, [61;61]); (10870, [61;61;61]); 
   (11388, [106]); (11389, [86]); (11631, [11617]); (11935, [27597]); (12019, [40863]); (12032, [19968]); 
   (12033, [20008]); (12034, [20022]); (12035, [20031]); (12036, [20057]); (12037, [20101]); (12038, [20108]); 
   (12039, [20128]); (12040, [20154]); (12041, [20799]); (12042, [20837]); (12043, [20843]); (12044, [20866]); 
   (12045, [20886]); (12046, [20907]); (12047, [20960]); (12048, [20981]); (12049, [20992]); (12050, [21147]); 
   (12051, [21241]); (12052, [21269]); (12053, [21274]); (12054, [21304]); (12055, [21313]); (12056, [21340]); 
   (12057, [21353]); (12058, [21378]); (12059, [21430]); (12060, [21448]); (12061, [21475]); (12062, [22231]); 
   (12063, [22303]); (12064, [22763]); (12065, [22786]); (12066, [22794]); (12067, [22805]); (12068, [22823]); 
   (12069, [22899]); (12070, [23376]); (12071, [23424]); (12072, [23544]); (12073, [23567]); (12074, [23586]); 
   (12075, [23608]); (12076, [23662]); (12077, [23665]); (12078, [24027]); (12079, [24037]); (12080, [24049]); 
   (12081, [24062]); (12082, [24178]); (12083, [24186]); (12084, [24191]); (12085, [24308]); (12086, [24318]); 
   (12087, [24331]); (12088, [24339]); (12089, [24400]); (12090, [24417]); (12091, [24435]); (12092, [24515]); 
   (12093, [25096]); (12094, [25142]); (12095, [25163]); (12096, [25903]); (12097, [25908]); (12098, [25991]); 
   (12099, [26007]); (12100, [26020]); (12101, [26041]); (12102, [26080]); (12103, [26085]); (12104, [26352]); 
   (12105, [26376]); (12106, [26408]); (12107, [27424]); (12108, [27490]); (12109, [27513]); (12110, [27571]); 
   (12111, [27595]); (12112, [27604]); (12113, [27611]); (12114, [27663]); (12115, [27668]); (12116, [27700]); 
   (12117, [28779]); (12118, [29226]); (12119, [29238]); (12120, [29243]); (12121, [29247]); (12122, [29255]); 
   (12123, [29273]); (12124, [29275]); (12125, [29356]); (12126, [29572]); (12127, [29577]); (12128, [29916]); 
   (12129, [29926]); (12130, [29976]); (12131, [29983]); (12132, [29992]); (12133, [30000]); (12134, [30091]); 
   (12135, [30098]); (12136, [30326]); (12137, [30333]); (12138, [30382]); (12139, [30399]); (12140, [30446]); 
   (12141, [30683]); (12142, [30690]); (12143, [30707]); (12144, [31034]); (12145, [31160]); (12146, [31166]); 
   (12147, [31348]); (12148, [31435]); (12149, [31481]); (12150, [31859]); (12151, [31992]); (12152, [32566]); 
   (12153, [32593]); (12154, [32650]); (12155, [32701]); (12156, [32769]); (12157, [32780]); (12158, [32786]); 
   (12159, [32819]); (12160, [32895]); (12161, [32905]); (12162, [33251]); (12163, [33258]); (12164, [33267]); 
   (12165, [33276]); (12166, [33292]); (12167, [33307]); (12168, [33311]); (12169, [33390]); (12170, [33394]); 
   (12171, [33400]); (12172, [34381]); (12173, [34411]); (12174, [34880]); (12175, [34892]); (12176, [34915]); 
   (12177, [35198]); (12178, [35211]); (12179, [35282]); (12180, [35328]); (12181, [35895]); (12182, [35910]); 
   (12183, [35925]); (12184, [35960]); (12185, [35997]); (12186, [36196]); (12187, [36208]); (12188, [36275]); 
   (12189, [36523]); (12190, [36554]); (12191, [36763]); (12192, [36784]); (12193, [36789]); (12194, [37009]); 
   (12195, [37193]); (12196, [37318]); (12197, [37324]); (12198, [37329]); (12199, [38263]); (12200, [38272]); 
   (12201, [38428]); (12202, [38582]); (12203, [38585]); (12204, [38632]); (12205, [38737]); (12206, [38750]); 
   (12207, [38754]); (12208, [38761]); (12209, [38859]); (12210, [38893]); (12211, [38899]); (12212, [38913]); 
   (12213, [39080]); (12214, [39131]); (12215, [39135]); (12216, [39318]); (12217, [39321]); (12218, [39340]); 
   (12219, [39592]); (12220, [39640]); (12221, [39647]); (12222, [39717]); (12223, [39727]); (12224, [39730]); 
   (12225, [39740]); (12226, [39770]); (12227, [40165]); (12228, [40565]); (12229, [40575]); (12230, [40613]); 
   (12231, [40635]); (12232, [40643]); (12233, [40653]); (12234, [40657]); (12235, [40697]); (12236, [40701]); 
   (12237, [40718]); (12238, [40723]); (12239, [40736]); (12240, [40763]); (12241, [40778]); (12242, [40786]); 
   (12243, [40845]); (12244, [40860]); (12245, [40864]); (12288, [32]); (12342, [12306]); (12344, [21313]); 
   (12345, [21316]); (12346, [21317]); (12443, [32;12441]); (12444, [32;12442]); (12447, [12424;12426]); 
   (12543, [12467;12488]); (12593, [4352]); (12594, [4353]); (12595, [4522]); (12596, [4354]); (12597, [4524]); 
   (12598, [4525]); (12599, [4355]); (12600, [4356]); (12601, [4357]); (12602, [4528]); (12603, [4529]); 
   (12604, [4530]); (12605, [4531]); (12606, [4532]); (12607, [4533]); (12608, [4378]); (12609, [4358]); 
   (12610, [4359]); (12611, [4360]); (12612, [4385]); (12613, [4361]); (12614, [4362]); (12615, [4363]); 
   (12616, [4364]); (12617, [4365]); (12618, [4366]); (12619, [4367]); (12620, [4368]); (12621, [4369]); 
   (12622, [4370]); (12623, [4449]); (12624, [4450]); (12625, [4451]); (12626, [4452]); (12627, [4453]); 
   (12628, [4454]); (12629, [4455]); (12630, [4456]); (12631, [4457]); (12632, [4458]); (12633, [4459]); 
   (12634, [4460]); (12635, [4461]); (12636, [4462]); (12637, [4463]); (12638, [4464]); (12639, [4465]); 
   (12640, [4466]); (12641, [4467]); (12642, [4468]); (12643, [4469]); (12644, [4448]); (12645, [4372]); 
   (12646, [4373]); (12647, [4551]); (12648, [4552]); (12649, [4556]); (12650, [4558]); (12651, [4563]); 
   (12652, [4567]); (12653, [4569]); (12654, [4380]); (12655, [4573]); (12656, [4575]); (12657, [4381]); 
   (12658, [4382]); (12659, [4384]); (12660, [4386]); (12661, [4387]); (12662, [4391]); (12663, [4393]); 
   (12664, [4395]); (12665, [4396]); (12666, [4397]); (12667, [4398]); (12668, [4399]); (12669, [4402]); 
   (12670, [4406]); (12671, [4416]); (12672, [4423]); (12673, [4428]); (12674, [4593]); (12675, [4594]); 
   (12676, [4439]); (12677, [4440]); (12678, [4441]); (12679, [4484]); (12680, [4485]); (12681, [4488]); 
   (12682, [4497]); (12683, [4498]); (12684, [4500]); (12685, [4510]); (12686, [4513]); (12690, [19968]); 
   (12691, [20108]); (12692, [19977]); (12693, [22235]); (12694, [19978]); (12695, [20013]); (12696, [19979]); 
   (12697, [30002]); (12698, [20057]); (12699, [19993]); (12700, [19969]); (12701, [22825]); (12702, [22320]); 
   (12703, [20154]); (12800, [40;4352;41]); (12801, [40;4354;41]); (12802, [40;4355;41]); (12803, [40;4357;41]); 
   (12804, [40;4358;41]); (12805, [40;4359;41]); (12806, [40;4361;41]); (12807, [40;4363;41]); 
   (12808, [40;4364;41]); (12809, [40;4366;41]); (12810, [40;4367;41]); (12811, [40;4368;41]); 
   (12812, [40;4369;41]); (12813, [40;4370;41]); (12814, [40;4352;4449;41]); (12815, [40;4354;4449;41]); 
   (12816, [40;4355;4449;41]); (12817, [40;4357;4449;41]); (12818, [40;4358;4449;41]); (12819, [40;4359;4449;41]); 
   (12820, [40;4361;4449;41]); (12821, [40;4363;4449;41]); (12822, [40;4364;4449;41]); (12823, [40;4366;4449;41]); 
   (12824, [40;4367;4449;41]); (12825, [40;4368;4449;41]); (12826, [40;4369;4449;41]); (12827, [40;4370;4449;41]); 
   (12828, [40;4364;4462;41]); (12829, [40;4363;4457;4364;4453;4523;41]); (12830, [40;4363;4457;4370;4462;41]); 
   (12832, [40;19968;41]); (12833, [40;20108;41]); (12834, [40;19977;41]); (12835, [40;22235;41]); 
   (12836, [40;20116;41]); (12837, [40;20845;41]); (12838, [40;19971;41]); (12839, [40;20843;41]); 
   (12840, [40;20061;41]); (12841, [40;21313;41]); (12842, [40;26376;41]); (12843, [40;28779;41]); 
   (12844, [40;27700;41]); (12845, [40;26408;41]); (12846, [40;37329;41]); (12847, [40;22303;41]); 
   (12848, [40;26085;41]); (12849, [40;26666;41]); (12850, [40;26377;41]); (12851, [40;31038;41]); 
   (12852, [40;21517;41]); (12853, [40;29305;41]); (12854, [40;36001;41]); (12855, [40;31069;41]); 
   (12856, [40;21172;41]); (12857, [40;20195;41]); (12858, [40;21628;41]); (12859, [40;23398;41]); 
   (12860, [40;30435;41]); (12861, [40;20225;41]); (12862, [40;36039;41]); (12863, [40;21332;41]); 
   (12864, [40;31085;41]); (12865, [40;20241;41]); (12866, [40;33258;41]); (12867, [40;33267;41]); 
   (12868, [21839]); (12869, [24188]); (12870, [25991]); (12871, [31631]); (12880, [80;84;69]); (12881, [50;49]); 
   (12882, [50;50]); (12883, [50;51]); (12884, [50;52]); (12885, [50;53]); (12886, [50;54]); (12887, [50;55]); 
   (12888, [50;56]); (12889, [50;57]); (12890, [51;48]); (12891, [51;49]); (12892, [51;50]); (12893, [51;51]); 
   (12894, [51;52]); (12895, [51;53]); (12896, [4352]); (12897, [4354]); (12898, [4355]); (12899, [4357]); 
   (12900, [4358]); (12901, [4359]); (12902, [4361]); (12903, [4363]); (12904, [4364]); (12905, [4366]); 
   (12906, [4367]); (12907, [4368]); (12908, [4369]); (12909, [4370]); (12910, [4352;4449]); (12911, [4354;4449]); 
   (12912, [4355;4449]); (12913, [4357;4449]); (12914, [4358;4449]); (12915, [4359;4449]); (12916, [4361;4449]); 
   (12917, [4363;4449]); (12918, [4364;4449]); (12919, [4366;4449]); (12920, [4367;4449]); (12921, [4368;4449]); 
   (12922, [4369;4449]); (12923, [4370;4449]); (12924, [4366;4449;4535;4352;4457]); 
   (12925, [4364;4462;4363;4468]); (12926, [4363;4462]); (12928, [19968]); (12929, [20108]); (12930, [19977]); 
   (12931, [22235]); (12932, [20116]); (12933, [20845]); (12934, [19971]); (12935, [20843]); (12936, [20061]); 
   (12937, [21313]); (12938, [26376]); (12939, [28779]); (12940, [27700]); (12941, [26408]); (12942, [37329]); 
   (12943, [22303]); (12944, [26085]); (12945, [26666]); (12946, [26377]); (12947, [31038]); (12948, [21517]); 
   (12949, [29305]); (12950, [36001]); (12951, [31069]); (12952, [21172]); (12953, [31192]); (12954, [30007]); 
   (12955, [22899]); (12956, [36969]); (12957, [20778]); (12958, [21360]); (12959, [27880]); (12960, [38917]); 
   (12961, [20241]); (12962, [20889]); (12963, [27491]); (12964, [19978]); (12965, [20013]); (12966, [19979]); 
   (12967, [24038]); (12968, [21491]); (12969, [21307]); (12970, [23447]); (12971, [23398]); (12972, [30435]); 
   (12973, [20225]); (12974, [36039]); (12975, [21332]); (12976, [22812]); (12977, [51;54]); (12978, [51;55]); 
   (12979, [51;56]); (12980, [51;57]); (12981, [52;48]); (12982, [52;49]); (12983, [52;50]); (12984, [52;51]); 
   (12985, [52;52]); (12986, [52;53]); (12987, [52;54]); (12988, [52;55]); (12989, [52;56]); (12990, [52;57]); 
   (12991, [53;48]); (12992, [49;26376]); (12993, [50;26376]); (12994, [51;26376]); (12995, [52;26376]); 
   (12996, [53;26376]); (12997, [54;26376]); (12998, [55;26376]); (12999, [56;26376]); (13000, [57;26376]); 
   (13001, [49;48;26376]); (13002, [49;49;26376]); (13003, [49;50;26376]); (13004, [72;103]); 
   (13005, [101;114;103]); (13006, [101;86]); (13007, [76;84;68]); (13008, [12450]); (13009, [12452]); 
   (13010, [12454]); (13011, [12456]); (13012, [12458]); (13013, [12459]); (13014, [12461]); (13015, [12463]); 
   (13016, [12465]); (13017, [12467]); (13018, [12469]); (13019, [12471]); (13020, [12473]); (13021, [12475]); 
   (13022, [12477]); (13023, [12479]); (13024, [12481]); (13025, [12484]); (13026, [12486]); (13027, [12488]); 
   (13028, [12490]); (13029, [12491]); (13030, [12492]); (13031, [12493]); (13032, [12494]); (13033, [12495]); 
   (13034, [12498]); (13035, [12501]); (13036, [12504]); (13037, [12507]); (13038, [12510]); (13039, [12511]); 
   (13040, [12512]); (13041, [12513]); (13042, [12514]); (13043, [12516]); (13044, [12518]); (13045, [12520]); 
   (13046, [12521]); (13047, [12522]); (13048, [12523]); (13049, [12524]); (13050, [12525]); (13051, [12527]); 
   (13052, [12528]); (13053, [12529]); (13054, [12530]); (13055, [20196;21644]); 
   (13056, [12450;12495;12442;12540;12488]); (13057, [12450;12523;12501;12449]); 
   (13058, [12450;12531;12504;12442;12450]); (13059, [12450;12540;12523]); 
   (13060, [12452;12491;12531;12463;12441]); (13061, [12452;12531;12481]); (13062, [12454;12457;12531]); 
   (13063, [12456;12473;12463;12540;12488;12441]); (13064, [12456;12540;12459;12540]); 
   (13065, [12458;12531;12473]); (13066, [12458;12540;12512]); (13067, [12459;12452;12522]); 
   (13068, [12459;12521;12483;12488]); (13069, [12459;12525;12522;12540]); (13070, [12459;12441;12525;12531]); 
   (13071, [12459;12441;12531;12510]); (13072, [12461;12441;12459;12441]); (13073, [12461;12441;12491;12540]); 
   (13074, [12461;12517;12522;12540]); (13075, [12461;12441;12523;12479;12441;12540]); (13076, [12461;12525]); 
   (13077, [12461;12525;12463;12441;12521;12512]); (13078, [12461;12525;12513;12540;12488;12523]); 
   (13079, [12461;12525;12527;12483;12488]); (13080, [12463;12441;12521;12512]); 
   (13081, [12463;12441;12521;12512;12488;12531]); (13082, [12463;12523;12475;12441;12452;12525]); 
   (13083, [12463;12525;12540;12493]); (13084, [12465;12540;12473]); (13085, [12467;12523;12490]); 
   (13086, [12467;12540;12507;12442]); (13087, [12469;12452;12463;12523]); 
   (13088, [12469;12531;12481;12540;12512]); (13089, [12471;12522;12531;12463;12441]); 
   (13090, [12475;12531;12481]); (13091, [12475;12531;12488]); (13092, [12479;12441;12540;12473]); 
   (13093, [12486;12441;12471]); (13094, [12488;12441;12523]); (13095, [12488;12531]); (13096, [12490;12494]); 
   (13097, [12494;12483;12488]); (13098, [12495;12452;12484]); (13099, [12495;12442;12540;12475;12531;12488]); 
   (13100, [12495;12442;12540;12484]); (13101, [12495;12441;12540;12524;12523]); 
   (13102, [12498;12442;12450;12473;12488;12523]); (13103, [12498;12442;12463;12523]); 
   (13104, [12498;12442;12467]); (13105, [12498;12441;12523]); (13106, [12501;12449;12521;12483;12488;12441]); 
   (13107, [12501;12451;12540;12488]); (13108, [12501;12441;12483;12471;12455;12523]); 
   (13109, [12501;12521;12531]); (13110, [12504;12463;12479;12540;12523]); (13111, [12504;12442;12477]); 
   (13112, [12504;12442;12491;12498]); (13113, [12504;12523;12484]); (13114, [12504;12442;12531;12473]); 
   (13115, [12504;12442;12540;12471;12441]); (13116, [12504;12441;12540;12479]); 
   (13117, [12507;12442;12452;12531;12488]); (13118, [12507;12441;12523;12488]); (13119, [12507;12531]); 
   (13120, [12507;12442;12531;12488;12441]); (13121, [12507;12540;12523]); (13122, [12507;12540;12531]); 
   (13123, [12510;12452;12463;12525]); (13124, [12510;12452;12523]); (13125, [12510;12483;12495]); 
   (13126, [12510;12523;12463]); (13127, [12510;12531;12471;12519;12531]); (13128, [12511;12463;12525;12531]); 
   (13129, [12511;12522]); (13130, [12511;12522;12495;12441;12540;12523]); (13131, [12513;12459;12441]); 
   (13132, [12513;12459;12441;12488;12531]); (13133, [12513;12540;12488;12523]); 
   (13134, [12516;12540;12488;12441]); (13135, [12516;12540;12523]); (13136, [12518;12450;12531]); 
   (13137, [12522;12483;12488;12523]); (13138, [12522;12521]); (13139, [12523;12498;12442;12540]); 
   (13140, [12523;12540;12501;12441;12523]); (13141, [12524;12512]); 
   (13142, [12524;12531;12488;12465;12441;12531]); (13143, [12527;12483;12488]); (13144, [48;28857]); 
   (13145, [49;28857]); (13146, [50;28857]); (13147, [51;28857]); (13148, [52;28857]); (13149, [53;28857]); 
   (13150, [54;28857]); (13151, [55;28857]); (13152, [56;28857]); (13153, [57;28857]); (13154, [49;48;28857]); 
   (13155, [49;49;28857]); (13156, [49;50;28857]); (13157, [49;51;28857]); (13158, [49;52;28857]); 
   (13159, [49;53;28857]); (13160, [49;54;28857]); (13161, [49;55;28857]); (13162, [49;56;28857]); 
   (13163, [49;57;28857]); (13164, [50;48;28857]); (13165, [50;49;28857]); (13166, [50;50;28857]); 
   (13167, [50;51;28857]); (13168, [50;52;28857]); (13169, [104;80;97]); (13170, [100;97]); (13171, [65;85]); 
   (13172, [98;97;114]); (13173, [111;86]); (13174, [112;99]); (13175, [100;109]); (13176, [100;109;50]); 
   (13177, [100;109;51]); (13178, [73;85]); (13179, [24179;25104]); (13180, [26157;21644]); 
   (13181, [22823;27491]); (13182, [26126;27835]); (13183, [26666;24335;20250;31038]); (13184, [112;65]); 
   (13185, [110;65]); (13186, [956;65]); (13187, [109;65]); (13188, [107;65]); (13189, [75;66]); (13190, [77;66]); 
   (13191, [71;66]); (13192, [99;97;108]); (13193, [107;99;97;108]); (13194, [112;70]); (13195, [110;70]); 
   (13196, [956;70]); (13197, [956;103]); (13198, [109;103]); (13199, [107;103]); (13200, [72;122]); 
   (13201, [107;72;122]); (13202, [77;72;122]); (13203, [71;72;122]); (13204, [84;72;122]); (13205, [956;108]); 
   (13206, [109;108]); (13207, [100;108]); (13208, [107;108]); (13209, [102;109]); (13210, [110;109]); 
   (13211, [956;109]); (13212, [109;109]); (13213, [99;109]); (13214, [107;109]); (13215, [109;109;50]); 
   (13216, [99;109;50]); (13217, [109;50]); (13218, [107;109;50]); (13219, [109;109;51]); (13220, [99;109;51]); 
   (13221, [109;51]); (13222, [107;109;51]); (13223, [109;8725;115]); (13224, [109;8725;115;50]); 
   (13225, [80;97]); (13226, [107;80;97]); (13227, [77;80;97]); (13228, [71;80;97]); (13229, [114;97;100]); 
   (13230, [114;97;100;8725;115]); (13231, [114;97;100;8725;115;50]); (13232, [112;115]); (13233, [110;115]); 
   (13234, [956;115]); (13235, [109;115]); (13236, [112;86]); (13237, [110;86]); (13238, [956;86]); 
   (13239, [109;86]); (13240, [107;86]); (13241, [77;86]); (13242, [112;87]); (13243, [110;87]); 
   (13244, [956;87]); (13245, [109;87]); (13246, [107;87]); (13247, [77;87]); (13248, [107;937]); 
   (13249, [77;937]); (13250, [97;46;109;46]); (13251, [66;113]); (13252, [99;99]); (13253, [99;100]); 
   (13254, [67;8725;107;103]); (13255, [67;111;46]); (13256, [100;66]); (13257, [71;121]); (13258, [104;97]); 
   (13259, [72;80]); (13260, [105;110]); (13261, [75;75]); (13262, [75;77]); (13263, [107;116]); 
   (13264, [108;109]); (13265, [108;110]); (13266, [108;111;103]); (13267, [108;120]); (13268, [109;98]); 
   (13269, [109;105;108]); (13270, [109;111;108]); (13271, [80;72]); (13272, [112;46;109;46]); 
   (13273, [80;80;77]); (13274, [80;82]); (13275, [115;114]); (13276, [83;118]); (13277, [87;98]); 
   (13278, [86;8725;109]); (13279, [65;8725;109]); (13280, [49;26085]); (13281, [50;26085]); (13282, [51;26085]); 
   (13283, [52;26085]); (13284, [53;26085]); (13285, [54;26085]); (13286, [55;26085]); (13287, [56;26085]); 
   (13288, [57;26085]); (13289, [49;48;26085]); (13290, [49;49;26085]); (13291, [49;50;26085]); 
   (13292, [49;51;26085]); (13293, [49;52;26085]); (13294, [49;53;26085]); (13295, [49;54;26085]); 
   (13296, [49;55;26085]); (13297, [49;56;26085]); (13298, [49;57;26085]); (13299, [50;48;26085]); 
   (13300, [50;49;26085]); (13301, [50;50;26085]); (13302, [50;51;26085]); (13303, [50;52;26085]); 
   (13304, [50;53;26085]); (13305, [50;54;26085]); (13306, [50;55;26085]); (13307, [50;56;26085]); 
   (13308, [50;57;26085]); (13309, [51;48;26085]); (13310, [51;49;26085]); (13311, [103;97;108]); (42652, [1098]); 
   (42653, [1100]); (42864, [42863]); (42994, [67]); (42995, [70]); (42996, [81]); (43000, [294]); (43001, [339]); 
   (43868, [42791]); (43869, [43831]); (43870, [619]); (43871, [43858]); (43881, [653]); (64256, [102;102]); 
   (64257, [102;105]); (64258, [102;108]); (64259, [102;102;105]); (64260, [102;102;108]); (64261, [115;116]); 
   (64262, [115;116]); (64275, [1396;1398]); (64276, [1396;1381]); (64277, [1396;1387]); (64278, [1406;1398]); 
   (64279, [1396;1389]); (64288, [1506]); (64289, [1488]); (64290, [1491]); (64291, [1492]); (64292, [1499]); 
   (64293, [1500]); (64294, [1501]); (64295, [1512]); (64296, [1514]); (64297, [43]); (64335, [1488;1500]); 
   (64336, [1649]); (64337, [1649]); (64338, [1659]); (64339, [1659]); (64340, [1659]); (64341, [1659]); 
   (64342, [1662]); (64343, [1662]); (64344, [1662]); (64345, [1662]); (64346, [1664]); (64347, [1664]); 
   (64348, [1664]); (64349, [1664]); (64350, [1658]); (64351, [1658]); (64352, [1658]); (64353, [1658]); 
   (64354, [1663]); (64355, [1663]); (64356, [1663]); (64357, [1663]); (64358, [1657]); (64359, [1657]); 
   (64360, [1657]); (64361, [1657]); (64362, [1700]); (64363, [1700]); (64364, [1700]); (64365, [1700]); 
   (64366, [1702]); (64367, [1702]); (64368, [1702]); (64369, [1702]); (64370, [1668]); (64371, [1668]); 
   (64372, [1668]); (64373, [1668]); (64374, [1667]); (64375, [1667]); (64376, [1667]); (64377, [1667]); 
   (64378, [1670]); (64379, [1670]); (64380, [1670]); (64381, [1670]); (64382, [1671]); (64383, [1671]); 
   (64384, [1671]); (64385, [1671]); (64386, [1677]); (64387, [1677]); (64388, [1676]); (64389, [1676]); 
   (64390, [1678]); (64391, [1678]); (64392, [1672]); (64393, [1672]); (64394, [1688]); (64395, [1688]); 
   (64396, [1681]); (64397, [1681]); (64398, [1705]); (64399, [1705]); (64400, [1705]); (64401, [1705]); 
   (64402, [1711]); (64403, [1711]); (64404, [1711]); (64405, [1711]); (64406, [1715]); (64407, [1715]); 
   (64408, [1715]); (64409, [1715]); (64410, [1713]); (64411, [1713]); (64412, [1713]); (64413, [1713]); 
   (64414, [1722]); (64415, [1722]); (64416, [1723]); (64417, [1723]); (64418, [1723]); (64419, [1723]); 
   (64420, [1749;1620]); (64421, [1749;1620]); (64422, [1729]); (64423, [1729]); (64424, [1729]); (64425, [1729]); 
   (64426, [1726]); (64427, [1726]); (64428, [1726]); (64429, [1726]); (64430, [1746]); (64431, [1746]); 
   (64432, [1746;1620]); (64433, [1746;1620]); (64467, [1709]); (64468, [1709]); (64469, [1709]); (64470, [1709]); 
   (64471, [1735]); (64472, [1735]); (64473, [1734]); (64474, [1734]); (64475, [1736]); (64476, [1736]); 
   (64477, [1735;1652]); (64478, [1739]); (64479, [1739]); (64480, [1733]); (64481, [1733]); (64482, [1737]); 
   (64483, [1737]); (64484, [1744]); (64485, [1744]); (64486, [1744]); (64487, [1744]); (64488, [1609]); 
   (64489, [1609]); (64490, [1610;1620;1575]); (64491, [1610;1620;1575]); (64492, [1610;1620;1749]); 
   (64493, [1610;1620;1749]); (64494, [1610;1620;1608]); (64495, [1610;1620;1608]); (64496, [1610;1620;1735]); 
   (64497, [1610;1620;1735]); (64498, [1610;1620;1734]); (64499, [1610;1620;1734]); (64500, [1610;1620;1736]); 
   (64501, [1610;1620;1736]); (64502, [1610;1620;1744]); (64503, [1610;1620;1744]); (64504, [1610;1620;1744]); 
   (64505, [1610;1620;1609]); (64506, [1610;1620;1609]); (64507, [1610;1620;1609]); (64508, [1740]); 
   (64509, [1740]); (64510, [1740]); (64511, [1740]); (64512, [1610;1620;1580]); (64513, [1610;1620;1581]); 
   (64514, [1610;1620;1605]); (64515, [1610;1620;1609]); (64516, [1610;1620;1610]); (64517, [1576;1580]); 
   (64518, [1576;1581]); (64519, [1576;1582]); (64520, [1576;1605]); (64521, [1576;1609]); (64522, [1576;1610]); 
   (64523, [1578;1580]); (64524, [1578;1581]); (64525, [1578;1582]); (64526, [1578;1605]); (64527, [1578;1609]); 
   (64528, [1578;1610]); (64529, [1579;1580]); (64530, [1579;1605]); (64531, [1579;1609]); (64532, [1579;1610]); 
   (64533, [1580;1581]); (64534, [1580;1605]); (64535, [1581;1580]); (64536, [1581;1605]); (64537, [1582;1580]); 
   (64538, [1582;1581]); (64539, [1582;1605]); (64540, [1587;1580]); (64541, [1587;1581]); (64542, [1587;1582]); 
   (64543, [1587;1605]); (64544, [1589;1581]); (64545, [1589;1605]); (64546, [1590;1580]); (64547, [1590;1581]); 
   (64548, [1590;1582]); (64549, [1590;1605]); (64550, [1591;1581]); (64551, [1591;1605]); (64552, [1592;1605]); 
   (64553, [1593;1580]); (64554, [1593;1605]); (64555, [1594;1580]); (64556, [1594;1605]); (64557, [1601;1580]); 
   (64558, [1601;1581]); (64559, [1601;1582]); (64560, [1601;1605]); (64561, [1601;1609]); (64562, [1601;1610]); 
   (64563, [1602;1581]); (64564, [1602;1605]); (64565, [1602;1609]); (64566, [1602;1610]); (64567, [1603;1575]); 
   (64568, [1603;1580]); (64569, [1603;1581]); (64570, [1603;1582]); (64571, [1603;1604]); (64572, [1603;1605]); 
   (64573, [1603;1609]); (64574, [1603;1610]); (64575, [1604;1580]); (64576, [1604;1581]); (64577, [1604;1582]); 
   (64578, [1604;1605]); (64579, [1604;1609]); (64580, [1604;1610]); (64581, [1605;1580]); (64582, [1605;1581]); 
   (64583, [1605;1582]); (64584, [1605;1605]); (64585, [1605;1609]); (64586, [1605;1610]); (64587, [1606;1580]); 
   (64588, [1606;1581]); (64589, [1606;1582]); (64590, [1606;1605]); (64591, [1606;1609]); (64592, [1606;1610]); 
   (64593, [1607;1580]); (64594, [1607;1605]); (64595, [1607;1609]); (64596, [1607;1610]); (64597, [1610;1580]); 
   (64598, [1610;1581]); (64599, [1610;1582]); (64600, [1610;1605]); (64601, [1610;1609]); (64602, [1610;1610]); 
   (64603, [1584;1648]); (64604, [1585;1648]); (64605, [1609;1648]); (64606, [32;1612;1617]); 
   (64607, [32;1613;1617]); (64608, [32;1614;1617]); (64609, [32;1615;1617]); (64610, [32;1616;1617]); 
   (64611, [32;1617;1648]); (64612, [1610;1620;1585]); (64613, [1610;1620;1586]); (64614, [1610;1620;1605]); 
   (64615, [1610;1620;1606]); (64616, [1610;1620;1609]); (64617, [1610;1620;1610]); (64618, [1576;1585]); 
   (64619, [1576;1586]); (64620, [1576;1605]); (64621, [1576;1606]); (64622, [1576;1609]); (64623, [1576;1610]); 
   (64624, [1578;1585]); (64625, [1578;1586]); (64626, [1578;1605]); (64627, [1578;1606]); (64628, [1578;1609]); 
   (64629, [1578;1610]); (64630, [1579;1585]); (64631, [1579;1586]); (64632, [1579;1605]); (64633, [1579;1606]); 
   (64634, [1579;1609]); (64635, [1579;1610]); (64636, [1601;1609]); (64637, [1601;1610]); (64638, [1602;1609]); 
   (64639, [1602;1610]); (64640, [1603;1575]); (64641, [1603;1604]); (64642, [1603;1605]); (64643, [1603;1609]); 
   (64644, [1603;1610]); (64645, [1604;1605]); (64646, [1604;1609]); (64647, [1604;1610]); (64648, [1605;1575]); 
   (64649, [1605;1605]); (64650, [1606;1585]); (64651, [1606;1586]); (64652, [1606;1605]); (64653, [1606;1606]); 
   (64654, [1606;1609]); (64655, [1606;1610]); (64656, [1609;1648]); (64657, [1610;1585]); (64658, [1610;1586]); 
   (64659, [1610;1605]); (64660, [1610;1606]); (64661, [1610;1609]); (64662, [1610;1610]); 
   (64663, [1610;1620;1580]); (64664, [1610;1620;1581]); (64665, [1610;1620;1582]); (64666, [1610;1620;1605]); 
   (64667, [1610;1620;1607]); (64668, [1576;1580]); (64669, [1576;1581]); (64670, [1576;1582]); 
   (64671, [1576;1605]); (64672, [1576;1607]); (64673, [1578;1580]); (64674, [1578;1581]); (64675, [1578;1582]); 
   (64676, [1578;1605]); (64677, [1578;1607]); (64678, [1579;1605]); (64679, [1580;1581]); (64680, [1580;1605]); 
   (64681, [1581;1580]); (64682, [1581;1605]); (64683, [1582;1580]); (64684, [1582;1605]); (64685, [1587;1580]); 
   (64686, [1587;1581]); (64687, [1587;1582]); (64688, [1587;1605]); (64689, [1589;1581]); (64690, [1589;1582]); 
   (64691, [1589;1605]); (64692, [1590;1580]); (64693, [1590;1581]); (64694, [1590;1582]); (64695, [1590;1605]); 
   (64696, [1591;1581]); (64697, [1592;1605]); (64698, [1593;1580]); (64699, [1593;1605]); (64700, [1594;1580]); 
   (64701, [1594;1605]); (64702, [1601;1580]); (64703, [1601;1581]); (64704, [1601;1582]); (64705, [1601;1605]); 
   (64706, [1602;1581]); (64707, [1602;1605]); (64708, [1603;1580]); (64709, [1603;1581]); (64710, [1603;1582]); 
   (64711, [1603;1604]); (64712, [1603;1605]); (64713, [1604;1580]); (64714, [1604;1581]); (64715, [1604;1582]); 
   (64716, [1604;1605]); (64717, [1604;1607]); (64718, [1605;1580]); (64719, [1605;1581]); (64720, [1605;1582]); 
   (64721, [1605;1605]); (64722, [1606;1580]); (64723, [1606;1581]); (64724, [1606;1582]); (64725, [1606;1605]); 
   (64726, [1606;1607]); (64727, [1607;1580]); (64728, [1607;1605]); (64729, [1607;1648]); (64730, [1610;1580]); 
   (64731, [1610;1581]); (64732, [1610;1582]); (64733, [1610;1605]); (64734, [1610;1607]); 
   (64735, [1610;1620;1605]); (64736, [1610;1620;1607]); (64737, [1576;1605]); (64738, [1576;1607]); 
   (64739, [1578;1605]); (64740, [1578;1607]); (64741, [1579;1605]); (64742, [1579;1607]); (64743, [1587;1605]); 
   (64744, [1587;1607]); (64745, [1588;1605]); (64746, [1588;1607]); (64747, [1603;1604]); (64748, [1603;1605]); 
   (64749, [1604;1605]); (64750, [1606;1605]); (64751, [1606;1607]); (64752, [1610;1605]); (64753, [1610;1607]); 
   (64754, [1600;1614;1617]); (64755, [1600;1615;1617]); (64756, [1600;1616;1617]); (64757, [1591;1609]); 
   (64758, [1591;1610]); (64759, [1593;1609]); (64760, [1593;1610]); (64761, [1594;1609]); (64762, [1594;1610]); 
   (64763, [1587;1609]); (64764, [1587;1610]); (64765, [1588;1609]); (64766, [1588;1610]); (64767, [1581;1609]); 
   (64768, [1581;1610]); (64769, [1580;1609]); (64770, [1580;1610]); (64771, [1582;1609]); (64772, [1582;1610]); 
   (64773, [1589;1609]); (64774, [1589;1610]); (64775, [1590;1609]); (64776, [1590;1610]); (64777, [1588;1580]); 
   (64778, [1588;1581]); (64779, [1588;1582]); (64780, [1588;1605]); (64781, [1588;1585]); (64782, [1587;1585]); 
   (64783, [1589;1585]); (64784, [1590;1585]); (64785, [1591;1609]); (64786, [1591;1610]); (64787, [1593;1609]); 
   (64788, [1593;1610]); (64789, [1594;1609]); (64790, [1594;1610]); (64791, [1587;1609]); (64792, [1587;1610]); 
   (64793, [1588;1609]); (64794, [1588;1610]); (64795, [1581;1609]); (64796, [1581;1610]); (64797, [1580;1609]); 
   (64798, [1580;1610]); (64799, [1582;1609]); (64800, [1582;1610]); (64801, [1589;1609]); (64802, [1589;1610]); 
   (64803, [1590;1609]); (64804, [1590;1610]); (64805, [1588;1580]); (64806, [1588;1581]); (64807, [1588;1582]); 
   (64808, [1588;1605]); (64809, [1588;1585]); (64810, [1587;1585]); (64811, [1589;1585]); (64812, [1590;1585]); 
   (64813, [1588;1580]); (64814, [1588;1581]); (64815, [1588;1582]); (64816, [1588;1605]); (64817, [1587;1607]); 
   (64818, [1588;1607]); (64819, [1591;1605]); (64820, [1587;1580]); (64821, [1587;1581]); (64822, [1587;1582]); 
   (64823, [1588;1580]); (64824, [1588;1581]); (64825, [1588;1582]); (64826, [1591;1605]); (64827, [1592;1605]); 
   (64828, [1575;1611]); (64829, [1575;1611]); (64848, [1578;1580;1605]); (64849, [1578;1581;1580]); 
   (64850, [1578;1581;1580]); (64851, [1578;1581;1605]); (64852, [1578;1582;1605]); (64853, [1578;1605;1580]); 
   (64854, [1578;1605;1581]); (64855, [1578;1605;1582]); (64856, [1580;1605;1581]); (64857, [1580;1605;1581]); 
   (64858, [1581;1605;1610]); (64859, [1581;1605;1609]); (64860, [1587;1581;1580]); (64861, [1587;1580;1581]); 
   (64862, [1587;1580;1609]); (64863, [1587;1605;1581]); (64864, [1587;1605;1581]); (64865, [1587;1605;1580]); 
   (64866, [1587;1605;1605]); (64867, [1587;1605;1605]); (64868, [1589;1581;1581]); (64869, [1589;1581;1581]); 
   (64870, [1589;1605;1605]); (64871, [1588;1581;1605]); (64872, [1588;1581;1605]); (64873, [1588;1580;1610]); 
   (64874, [1588;1605;1582]); (64875, [1588;1605;1582]); (64876, [1588;1605;1605]); (64877, [1588;1605;1605]); 
   (64878, [1590;1581;1609]); (64879, [1590;1582;1605]); (64880, [1590;1582;1605]); (64881, [1591;1605;1581]); 
   (64882, [1591;1605;1581]); (64883, [1591;1605;1605]); (64884, [1591;1605;1610]); (64885, [1593;1580;1605]); 
   (64886, [1593;1605;1605]); (64887, [1593;1605;1605]); (64888, [1593;1605;1609]); (64889, [1594;1605;1605]); 
   (64890, [1594;1605;1610]); (64891, [1594;1605;1609]); (64892, [1601;1582;1605]); (64893, [1601;1582;1605]); 
   (64894, [1602;1605;1581]); (64895, [1602;1605;1605]); (64896, [1604;1581;1605]); (64897, [1604;1581;1610]); 
   (64898, [1604;1581;1609]); (64899, [1604;1580;1580]); (64900, [1604;1580;1580]); (64901, [1604;1582;1605]); 
   (64902, [1604;1582;1605]); (64903, [1604;1605;1581]); (64904, [1604;1605;1581]); (64905, [1605;1581;1580]); 
   (64906, [1605;1581;1605]); (64907, [1605;1581;1610]); (64908, [1605;1580;1581]); (64909, [1605;1580;1605]); 
   (64910, [1605;1582;1580]); (64911, [1605;1582;1605]); (64914, [1605;1580;1582]); (64915, [1607;1605;1580]); 
   (64916, [1607;1605;1605]); (64917, [1606;1581;1605]); (64918, [1606;1581;1609]); (64919, [1606;1580;1605]); 
   (64920, [1606;1580;1605]); (64921, [1606;1580;1609]); (64922, [1606;1605;1610]); (64923, [1606;1605;1609]); 
   (64924, [1610;1605;1605]); (64925, [1610;1605;1605]); (64926, [1576;1582;1610]); (64927, [1578;1580;1610]); 
   (64928, [1578;1580;1609]); (64929, [1578;1582;1610]); (64930, [1578;1582;1609]); (64931, [1578;1605;1610]); 
   (64932, [1578;1605;1609]); (64933, [1580;1605;1610]); (64934, [1580;1581;1609]); (64935, [1580;1605;1609]); 
   (64936, [1587;1582;1609]); (64937, [1589;1581;1610]); (64938, [1588;1581;1610]); (64939, [1590;1581;1610]); 
   (64940, [1604;1580;1610]); (64941, [1604;1605;1610]); (64942, [1610;1581;1610]); (64943, [1610;1580;1610]); 
   (64944, [1610;1605;1610]); (64945, [1605;1605;1610]); (64946, [1602;1605;1610]); (64947, [1606;1581;1610]); 
   (64948, [1602;1605;1581]); (64949, [1604;1581;1605]); (64950, [1593;1605;1610]); (64951, [1603;1605;1610]); 
   (64952, [1606;1580;1581]); (64953, [1605;1582;1610]); (64954, [1604;1580;1605]); (64955, [1603;1605;1605]); 
   (64956, [1604;1580;1605]); (64957, [1606;1580;1581]); (64958, [1580;1581;1610]); (64959, [1581;1580;1610]); 
   (64960, [1605;1580;1610]); (64961, [1601;1605;1610]); (64962, [1576;1581;1610]); (64963, [1603;1605;1605]); 
   (64964, [1593;1580;1605]); (64965, [1589;1605;1605]); (64966, [1587;1582;1610]); (64967, [1606;1580;1610]); 
   (65008, [1589;1604;1746]); (65009, [1602;1604;1746]); (65010, [1575;1604;1604;1607]); 
   (65011, [1575;1603;1576;1585]); (65012, [1605;1581;1605;1583]); (65013, [1589;1604;1593;1605]); 
   (65014, [1585;1587;1608;1604]); (65015, [1593;1604;1610;1607]); (65016, [1608;1587;1604;1605]); 
   (65017, [1589;1604;1609]); 
   (65018, [1589;1604;1609;32;1575;1604;1604;1607;32;1593;1604;1610;1607;32;1608;1587;1604;1605]); 
   (65019, [1580;1604;32;1580;1604;1575;1604;1607]); (65020, [1585;1740;1575;1604]); (65040, [44]); 
   (65041, [12289]); (65042, [12290]); (65043, [58]); (65044, [59]); (65045, [33]); (65046, [63]); 
   (65047, [12310]); (65048, [12311]); (65049, [46;46;46]); (65072, [46;46]); (65073, [8212]); (65074, [8211]); 
   (65075, [95]); (65076, [95]); (65077, [40]); (65078, [41]); (65079, [123]); (65080, [125]); (65081, [12308]); 
   (65082, [12309]); (65083, [12304]); (65084, [12305]); (65085, [12298]); (65086, [12299]); (65087, [12296]); 
   (65088, [12297]); (65089, [12300]); (65090, [12301]); (65091, [12302]); (65092, [12303]); (65095, [91]); 
   (65096, [93]); (65097, [32;773]); (65098, [32;773]); (65099, [32;773]); (65100, [32;773]); (65101, [95]); 
   (65102, [95]); (65103, [95]); (65104, [44]); (65105, [12289]); (65106, [46]); (65108, [59]); (65109, [58]); 
   (65110, [63]); (65111, [33]); (65112, [8212]); (65113, [40]); (65114, [41]); (65115, [123]); (65116, [125]); 
   (65117, [12308]); (65118, [12309]); (65119, [35]); (65120, [38]); (65121, [42]); (65122, [43]); (65123, [45]); 
   (65124, [60]); (65125, [62]); (65126, [61]); (65128, [92]); (65129, [36]); (65130, [37]); (65131, [64]); 
   (65136, [32;1611]); (65137, [1600;1611]); (65138, [32;1612]); (65140, [32;1613]); (65142, [32;1614]); 
   (65143, [1600;1614]); (65144, [32;1615]); (65145, [1600;1615]); (65146, [32;1616]); (65147, [1600;1616]); 
   (65148, [32;1617]); (65149, [1600;1617]); (65150, [32;1618]); (65151, [1600;1618]); (65152, [1569]); 
   (65153, [1575;1619]); (65154, [1575;1619]); (65155, [1575;1620]); (65156, [1575;1620]); (65157, [1608;1620]); 
   (65158, [1608;1620]); (65159, [1575;1621]); (65160, [1575;1621]); (65161, [1610;1620]); (65162, [1610;1620]); 
   (65163, [1610;1620]); (65164, [1610;1620]); (65165, [1575]); (65166, [1575]); (65167, [1576]); (65168, [1576]); 
   (65169, [1576]); (65170, [1576]); (65171, [1577]); (65172, [1577]); (65173, [1578]); (65174, [1578]); 
   (65175, [1578]); (65176, [1578]); (65177, [1579]); (65178, [1579]); (65179, [1579]); (65180, [1579]); 
   (65181, [1580]); (65182, [1580]); (65183, [1580]); (65184, [1580]); (65185, [1581]); (65186, [1581]); 
   (65187, [1581]); (65188, [1581]); (65189, [1582]); (65190, [1582]); (65191, [1582]); (65192, [1582]); 
   (65193, [1583]); (65194, [1583]); (65195, [1584]); (65196, [1584]); (65197, [1585]); (65198, [1585]); 
   (65199, [1586]); (65200, [1586]); (65201, [1587]); (65202, [1587]); (65203, [1587]); (65204, [1587]); 
   (65205, [1588]); (65206, [1588]); (65207, [1588]); (65208, [1588]); (65209, [1589]); (65210, [1589]); 
   (65211, [1589]); (65212, [1589]); (65213, [1590]); (65214, [1590]); (65215, [1590]); (65216, [1590]); 
   (65217, [1591]); (65218, [1591]); (65219, [1591]); (65220, [1591]); (65221, [1592]); (65222, [1592]); 
   (65223, [1592]); (65224, [1592]); (65225, [1593]); (65226, [1593]); (65227, [1593]); (65228, [1593]); 
   (65229, [1594]); (65230, [1594]); (65231, [1594]); (65232, [1594]); (65233, [1601]); (65234, [1601]); 
   (65235, [1601]); (65236, [1601]); (65237, [1602]); (65238, [1602]); (65239, [1602]); (65240, [1602]); 
   (65241, [1603]); (65242, [1603]); (65243, [1603]); (65244, [1603]); (65245, [1604]); (65246, [1604]); 
   (65247, [1604]); (65248, [1604]); (65249, [1605]); (65250, [1605]); (65251, [1605]); (65252, [1605]); 
   (65253, [1606]); (65254, [1606]); (65255, [1606]); (65256, [1606]); (65257, [1607]); (65258, [1607]); 
   (65259, [1607]); (65260, [1607]); (65261, [1608]); (65262, [1608]); (65263, [1609]); (65264, [1609]); 
   (65265, [1610]); (65266, [1610]); (65267, [1610]); (65268, [1610]); (65269, [1604;1575;1619]); 
   (65270, [1604;1575;1619]); (65271, [1604;1575;1620]); (65272, [1604;1575;1620]); (65273, [1604;1575;1621]); 
   (65274, [1604;1575;1621]); (65275, [1604;1575]); (65276, [1604;1575]); (65281, [33]); (65282, [34]); 
   (65283, [35]); (65284, [36]); (65285, [37]); (65286, [38]); (65287, [39]); (65288, [40]); (65289, [41]); 
   (65290, [42]); (65291, [43]); (65292, [44]); (65293, [45]); (65294, [46]); (65295, [47]); (65296, [48]); 
   (65297, [49]); (65298, [50]); (65299, [51]); (65300, [52]); (65301, [53]); (65302, [54]); (65303, [55]); 
   (65304, [56]); (65305, [57]); (65306, [58]); (65307, [59]); (65308, [60]); (65309, [61]); (65310, [62]); 
   (65311, [63]); (65312, [64]); (65313, [65]); (65314, [66]); (65315, [67]); (65316, [68]); (65317, [69]); 
   (65318, [70]); (65319, [71]); (65320, [72]); (65321, [73]); (65322, [74]); (65323, [75]); (65324, [76]); 
   (65325, [77]); (65326, [78]); (65327, [79]); (65328, [80]); (65329, [81]); (65330, [82]); (65331, [83]); 
   (65332, [84]); (65333, [85]); (65334, [86]); (65335, [87]); (65336, [88]); (65337, [89]); (65338, [90]); 
   (65339, [91]); (65340, [92]); (65341, [93]); (65342, [94]); (65343, [95]); (65344, [96]); (65345, [97]); 
   (65346, [98]); (65347, [99]); (65348, [100]); (65349, [101]); (65350, [102]); (65351, [103]); (65352, [104]); 
   (65353, [105]); (65354, [106]); (65355, [107]); (65356, [108]); (65357, [109]); (65358, [110]); (65359, [111]); 
   (65360, [112]); (65361, [113]); (65362, [114]); (65363, [115]); (65364, [116]); (65365, [117]); (65366, [118]); 
   (65367, [119]); (65368, [120]); (65369, [121]); (65370, [122]); (65371, [123]); (65372, [124]); (65373, [125]); 
   (65374, [126]); (65375, [10629]); (65376, [10630]); (65377, [12290]); (65378, [12300]); (65379, [12301]); 
   (65380, [12289]); (65381, [12539]); (65382, [12530]); (65383, [12449]); (65384, [12451]); (65385, [12453]); 
   (65386, [12455]); (65387, [12457]); (65388, [12515]); (65389, [12517]); (65390, [12519]); (65391, [12483]); 
   (65392, [12540]); (65393, [12450]); (65394, [12452]); (65395, [12454]); (65396, [12456]); (65397, [12458]); 
   (65398, [12459]); (65399, [12461]); (65400, [12463]); (65401, [12465]); (65402, [12467]); (65403, [12469]); 
   (65404, [12471]); (65405, [12473]); (65406, [12475]); (65407, [12477]); (65408, [12479]); (65409, [12481]); 
   (65410, [12484]); (65411, [12486]); (65412, [12488]); (65413, [12490]); (65414, [12491]); (65415, [12492]); 
   (65416, [12493]); (65417, [12494]); (65418, [12495]); (65419, [12498]); (65420, [12501]); (65421, [12504]); 
   (65422, [12507]); (65423, [12510]); (65424, [12511]); (65425, [12512]); (65426, [12513]); (65427, [12514]); 
   (65428, [12516]); (65429, [12518]); (65430, [12520]); (65431, [12521]); (65432, [12522]); (65433, [12523]); 
   (65434, [12524]); (65435, [12525]); (65436, [12527]); (65437, [12531]); (65438, [12441]); (65439, [12442]); 
   (65440, [4448]); (65441, [4352]); (65442, [4353]); (65443, [4522]); (65444, [4354]); (65445, [4524]); 
   (65446, [4525]); (65447, [4355]); (65448, [4356]); (65449, [4357]); (65450, [4528]); (65451, [4529]); 
   (65452, [4530]); (65453, [4531]); (65454, [4532]); (65455, [4533]); (65456, [4378]); (65457, [4358]); 
   (65458, [4359]); (65459, [4360]); (65460, [4385]); (65461, [4361]); (65462, [4362]); (65463, [4363]); 
   (65464, [4364]); (65465, [4365]); (65466, [4366]); (65467, [4367]); (65468, [4368]); (65469, [4369]); 
   (65470, [4370]); (65474, [4449]); (65475, [4450]); (65476, [4451]); (65477, [4452]); (65478, [4453]); 
   (65479, [4454]); (65482, [4455]); (65483, [4456]); (65484, [4457]); (65485, [4458]); (65486, [4459]); 
   (65487, [4460]); (65490, [4461]); (65491, [4462]); (65492, [4463]); (65493, [4464]); (65494, [4465]); 
   (65495, [4466]); (65498, [4467]); (65499, [4468]); (65500, [4469]); (65504, [162]); (65505, [163]); 
   (65506, [172]); (65507, [32;772]); (65508, [166]); (65509, [165]); (65510, [8361]); (65512, [9474]); 
   (65513, [8592]); (65514, [8593]); (65515, [8594]); (65516, [8595]); (65517, [9632]); (65518, [9675]); 
   (67457, [720]); (67458, [721]); (67459, [230]); (67460, [665]); (67461, [595]); (67463, [675]); 
   (67464, [43878]); (67465, [677]); (67466, [676]); (67467, [598]); (67468, [599]); (67469, [7569]); 
   (67470, [600]); (67471, [606]); (67472, [681]); (67473, [612]); (67474, [610]); (67475, [608]); (67476, [667]); 
   (67477, [295]); (67478, [668]); (67479, [615]); (67480, [644]); (67481, [682]); (67482, [683]); (67483, [620]); 
   (67484, [122628]); (67485, [42894]); (67486, [622]); (67487, [122629]); (67488, [654]); (67489, [122630]); 
   (67490, [248]); (67491, [630]); (67492, [631]); (67493, [113]); (67494, [634]); (67495, [122632]); 
   (67496, [637]); (67497, [638]); (67498, [640]); (67499, [680]); (67500, [678]); (67501, [43879]); 
   (67502, [679]); (67503, [648]); (67504, [11377]); (67506, [655]); (67507, [673]); (67508, [674]); 
   (67509, [664]); (67510, [448]); (67511, [449]); (67512, [450]); (67513, [122634]); (67514, [122654]); 
   (119808, [65]); (119809, [66]); (119810, [67]); (119811, [68]); (119812, [69]); (119813, [70]); (119814, [71]); 
   (119815, [72]); (119816, [73]); (119817, [74]); (119818, [75]); (119819, [76]); (119820, [77]); (119821, [78]); 
   (119822, [79]); (119823, [80]); (119824, [81]); (119825, [82]); (119826, [83]); (119827, [84]); (119828, [85]); 
   (119829, [86]); (119830, [87]); (119831, [88]); (119832, [89]); (119833, [90]); (119834, [97]); (119835, [98]); 
   (119836, [99]); (119837, [100]); (119838, [101]); (119839, [102]); (119840, [103]); (119841, [104]); 
   (119842, [105]); (119843, [106]); (119844, [107]); (119845, [108]); (119846, [109]); (119847, [110]); 
   (119848, [111]); (119849, [112]); (119850, [113]); (119851, [114]); (119852, [115]); (119853, [116]); 
   (119854, [117]); (119855, [118]); (119856, [119]); (119857, [120]); (119858, [121]); (119859, [122]); 
   (119860, [65]); (119861, [66]); (119862, [67]); (119863, [68]); (119864, [69]); (119865, [70]); (119866, [71]); 
   (119867, [72]); (119868, [73]); (119869, [74]); (119870, [75]); (119871, [76]); (119872, [77]); (119873, [78]); 
   (119874, [79]); (119875, [80]); (119876, [81]); (119877, [82]); (119878, [83]); (119879, [84]); (119880, [85]); 
   (119881, [86]); (119882, [87]); (119883, [88]); (119884, [89]); (119885, [90]); (119886, [97]); (119887, [98]); 
   (119888, [99]); (119889, [100]); (119890, [101]); (119891, [102]); (119892, [103]); (119894, [105]); 
   (119895, [106]); (119896, [107]); (119897, [108]); (119898, [109]); (119899, [110]); (119900, [111]); 
   (119901, [112]); (119902, [113]); (119903, [114]); (119904, [115]); (119905, [116]); (119906, [117]); 
   (119907, [118]); (119908, [119]); (119909, [120]); (119910, [121]); (119911, [122]); (119912, [65]); 
   (119913, [66]); (119914, [67]); (119915, [68]); (119916, [69]); (119917, [70]); (119918, [71]); (119919, [72]); 
   (119920, [73]); (119921, [74]); (119922, [75]); (119923, [76]); (119924, [77]); (119925, [78]); (119926, [79]); 
   (119927, [80]); (119928, [81]); (119929, [82]); (119930, [83]); (119931, [84]); (119932, [85]); (119933, [86]); 
   (119934, [87]); (119935, [88]); (119936, [89]); (119937, [90]); (119938, [97]); (119939, [98]); (119940, [99]); 
   (119941, [100]); (119942, [101]); (119943, [102]); (119944, [103]); (119945, [104]); (119946, [105]); 
   (119947, [106]); (119948, [107]); (119949, [108]); (119950, [109]); (119951, [110]); (119952, [111]); 
   (119953, [112]); (119954, [113]); (119955, [114]); (119956, [115]); (119957, [116]); (119958, [117]); 
   (119959, [118]); (119960, [119]); (119961, [120]); (119962, [121]); (119963, [122]); (119964, [65]); 
   (119966, [67]); (119967, [68]); (119970, [71]); (119973, [74]); (119974, [75]); (119977, [78]); (119978, [79]); 
   (119979, [80]); (119980, [81]); (119982, [83]); (119983, [84]); (119984, [85]); (119985, [86]); (119986, [87]); 
   (119987, [88]); (119988, [89]); (119989, [90]); (119990, [97]); (119991, [98]); (119992, [99]); 
   (119993, [100]); (119995, [102]); (119997, [104]); (119998, [105]); (119999, [106]); (120000, [107]); 
   (120001, [108]); (120002, [109]); (120003, [110]); (120005, [112]); (120006, [113]); (120007, [114]); 
   (120008, [115]); (120009, [116]); (120010, [117]); (120011, [118]); (120012, [119]); (120013, [120]); 
   (120014, [121]); (120015, [122]); (120016, [65]); (120017, [66]); (120018, [67]); (120019, [68]); 
   (120020, [69]); (120021, [70]); (120022, [71]); (120023, [72]); (120024, [73]); (120025, [74]); (120026, [75]); 
   (120027, [76]); (120028, [77]); (120029, [78]); (120030, [79]); (120031, [80]); (120032, [81]); (120033, [82]); 
   (120034, [83]); (120035, [84]); (120036, [85]); (120037, [86]); (120038, [87]); (120039, [88]); (120040, [89]); 
   (120041, [90]); (120042, [97]); (120043, [98]); (120044, [99]); (120045, [100]); (120046, [101]); 
   (120047, [102]); (120048, [103]); (120049, [104]); (120050, [105]); (120051, [106]); (120052, [107]); 
   (120053, [108]); (120054, [109]); (120055, [110]); (120056, [111]); (120057, [112]); (120058, [113]); 
   (120059, [114]); (120060, [115]); (120061, [116]); (120062, [117]); (120063, [118]); (120064, [119]); 
   (120065, [120]); (120066, [121]); (120067, [122]); (120068, [65]); (120069, [66]); (120071, [68]); 
   (120072, [69]); (120073, [70]); (120074, [71]); (120077, [74]); (120078, [75]); (120079, [76]); (120080, [77]); 
   (120081, [78]); (120082, [79]); (120083, [80]); (120084, [81]); (120086, [83]); (120087, [84]); (120088, [85]); 
   (120089, [86]); (120090, [87]); (120091, [88]); (120092, [89]); (120094, [97]); (120095, [98]); (120096, [99]); 
   (120097, [100]); (120098, [101]); (120099, [102]); (120100, [103]); (120101, [104]); (120102, [105]); 
   (120103, [106]); (120104, [107]); (120105, [108]); (120106, [109]); (120107, [110]); (120108, [111]); 
   (120109, [112]); (120110, [113]); (120111, [114]); (120112, [115]); (120113, [116]); (120114, [117]); 
   (120115, [118]); (120116, [119]); (120117, [120]); (120118, [121]); (120119, [122]); (120120, [65]); 
   (120121, [66]); (120123, [68]); (120124, [69]); (120125, [70]); (120126, [71]); (120128, [73]); (120129, [74]); 
   (120130, [75]); (120131, [76]); (120132, [77]); (120134, [79]); (120138, [83]); (120139, [84]); (120140, [85]); 
   (120141, [86]); (120142, [87]); (120143, [88]); (120144, [89]); (120146, [97]); (120147, [98]); (120148, [99]); 
   (120149, [100]); (120150, [101]); (120151, [102]); (120152, [103]); (120153, [104]); (120154, [105]); 
   (120155, [106]); (120156, [107]); (120157, [108]); (120158, [109]); (120159, [110]); (120160, [111]); 
   (120161, [112]); (120162, [113]); (120163, [114]); (120164, [115]); (120165, [116]); (120166, [117]); 
   (120167, [118]); (120168, [119]); (120169, [120]); (120170, [121]); (120171, [122]); (120172, [65]); 
   (120173, [66]); (120174, [67]); (120175, [68]); (120176, [69]); (120177, [70]); (120178, [71]); (120179, [72]); 
   (120180, [73]); (120181, [74]); (120182, [75]); (120183, [76]); (120184, [77]); (120185, [78]); (120186, [79]); 
   (120187, [80]); (120188, [81]); (120189, [82]); (120190, [83]); (120191, [84]); (120192, [85]); (120193, [86]); 
   (120194, [87]); (120195, [88]); (120196, [89]); (120197, [90]); (120198, [97]); (120199, [98]); (120200, [99]); 
   (120201, [100]); (120202, [101]); (120203, [102]); (120204, [103]); (120205, [104]); (120206, [105]); 
   (120207, [106]); (120208, [107]); (120209, [108]); (120210, [109]); (120211, [110]); (120212, [111]); 
   (120213, [112]); (120214, [113]); (120215, [114]); (120216, [115]); (120217, [116]); (120218, [117]); 
   (120219, [118]); (120220, [119]); (120221, [120]); (120222, [121]); (120223, [122]); (120224, [65]); 
   (120225, [66]); (120226, [67]); (120227, [68]); (120228, [69]); (120229, [70]); (120230, [71]); (120231, [72]); 
   (120232, [73]); (120233, [74]); (120234, [75]); (120235, [76]); (120236, [77]); (120237, [78]); (120238, [79]); 
   (120239, [80]); (120240, [81]); (120241, [82]); (120242, [83]); (120243, [84]); (120244, [85]); (120245, [86]); 
   (120246, [87]); (120247, [88]); (120248, [89]); (120249, [90]); (120250, [97]); (120251, [98]); (120252, [99]); 
   (120253, [100]); (120254, [101]); (120255, [102]); (120256, [103]); (120257, [104]); (120258, [105]); 
   (120259, [106]); (120260, [107]); (120261, [108]); (120262, [109]); (120263, [110]); (120264, [111]); 
   (120265, [112]); (120266, [113]); (120267, [114]); (120268, [115]); (120269, [116]); (120270, [117]); 
   (120271, [118]); (120272, [119]); (120273, [120]); (120274, [121]); (120275, [122]); (120276, [65]); 
   (120277, [66]); (120278, [67]); (120279, [68]); (120280, [69]); (120281, [70]); (120282, [71]); (120283, [72]); 
   (120284, [73]); (120285, [74]); (120286, [75]); (120287, [76]); (120288, [77]); (120289, [78]); (120290, [79]); 
   (120291, [80]); (120292, [81]); (120293, [82]); (120294, [83]); (120295, [84]); (120296, [85]); (120297, [86]); 
   (120298, [87]); (120299, [88]); (120300, [89]); (120301, [90]); (120302, [97]); (120303, [98]); (120304, [99]); 
   (120305, [100]); (120306, [101]); (120307, [102]); (120308, [103]); (120309, [104]); (120310, [105]); 
   (120311, [106]); (120312, [107]); (120313, [108]); (120314, [109]); (120315, [110]); (120316, [111]); 
   (120317, [112]); (120318, [113]); (120319, [114]); (120320, [115]); (120321, [116]); (120322, [117]); 
   (120323, [118]); (120324, [119]); (120325, [120]); (120326, [121]); (120327, [122]); (120328, [65]); 
   (120329, [66]); (120330, [67]); (120331, [68]); (120332, [69]); (120333, [70]); (120334, [71]); (120335, [72]); 
   (120336, [73]); (120337, [74]); (120338, [75]); (120339, [76]); (120340, [77]); (120341, [78]); (120342, [79]); 
   (120343, [80]); (120344, [81]); (120345, [82]); (120346, [83]); (120347, [84]); (120348, [85]); (120349, [86]); 
   (120350, [87]); (120351, [88]); (120352, [89]); (120353, [90]); (120354, [97]); (120355, [98]); (120356, [99]); 
   (120357, [100]); (120358, [101]); (120359, [102]); (120360, [103]); (120361, [104]); (120362, [105]); 
   (120363, [106]); (120364, [107]); (120365, [108]); (120366, [109]); (120367, [110]); (120368, [111]); 
   (120369, [112]); (120370, [113]); (120371, [114]); (120372, [115]); (120373, [116]); (120374, [117]); 
   (120375, [118]); (120376, [119]); (120377, [120]); (120378, [121]); (120379, [122]); (120380, [65]); 
   (120381, [66]); (120382, [67]); (120383, [68]); (120384, [69]); (120385, [70]); (120386, [71]); (120387, [72]); 
   (120388, [73]); (120389, [74]); (120390, [75]); (120391, [76]); (120392, [77]); (120393, [78]); (120394, [79]); 
   (120395, [80]); (120396, [81]); (120397, [82]); (120398, [83]); (120399, [84]); (120400, [85]); (120401, [86]); 
   (120402, [87]); (120403, [88]); (120404, [89]); (120405, [90]); (120406, [97]); (120407, [98]); (120408, [99]); 
   (120409, [100]); (120410, [101]); (120411, [102]); (120412, [103]); (120413, [104]); (120414, [105]); 
   (120415, [106]); (120416, [107]); (120417, [108]); (120418, [109]); (120419, [110]); (120420, [111]); 
   (120421, [112]); (120422, [113]); (120423, [114]); (120424, [115]); (120425, [116]); (120426, [117]); 
   (120427, [118]); (120428, [119]); (120429, [120]); (120430, [121]); (120431, [122]); (120432, [65]); 
   (120433, [66]); (120434, [67]); (120435, [68]); (120436, [69]); (120437, [70]); (120438, [71]); (120439, [72]); 
   (120440, [73]); (120441, [74]); (120442, [75]); (120443, [76]); (120444, [77]); (120445, [78]); (120446, [79]); 
   (120447, [80]); (120448, [81]); (120449, [82]); (120450, [83]); (120451, [84]); (120452, [85]); (120453, [86]); 
   (120454, [87]); (120455, [88]); (120456, [89]); (120457, [90]); (120458, [97]); (120459, [98]); (120460, [99]); 
   (120461, [100]); (120462, [101]); (120463, [102]); (120464, [103]); (120465, [104]); (120466, [105]); 
   (120467, [106]); (120468, [107]); (120469, [108]); (120470, [109]); (120471, [110]); (120472, [111]); 
   (120473, [112]); (120474, [113]); (120475, [114]); (120476, [115]); (120477, [116]); (120478, [117]); 
   (120479, [118]); (120480, [119]); (120481, [120]); (120482, [121]); (120483, [122]); (120484, [305]); 
   (120485, [567]); (120488, [913]); (120489, [914]); (120490, [915]); (120491, [916]); (120492, [917]); 
   (120493, [918]); (120494, [919]); (120495, [920]); (120496, [921]); (120497, [922]); (120498, [923]); 
   (120499, [924]); (120500, [925]); (120501, [926]); (120502, [927]); (120503, [928]); (120504, [929]); 
   (120505, [920]); (120506, [931]); (120507, [932]); (120508, [933]); (120509, [934]); (120510, [935]); 
   (120511, [936]); (120512, [937]); (120513, [8711]); (120514, [945]); (120515, [946]); (120516, [947]); 
   (120517, [948]); (120518, [949]); (120519, [950]); (120520, [951]); (120521, [952]); (120522, [953]); 
   (120523, [954]); (120524, [955]); (120525, [956]); (120526, [957]); (120527, [958]); (120528, [959]); 
   (120529, [960]); (120530, [961]); (120531, [962]); (120532, [963]); (120533, [964]); (120534, [965]); 
   (120535, [966]); (120536, [967]); (120537, [968]); (120538, [969]); (120539, [8706]); (120540, [949]); 
   (120541, [952]); (120542, [954]); (120543, [966]); (120544, [961]); (120545, [960]); (120546, [913]); 
   (120547, [914]); (120548, [915]); (120549, [916]); (120550, [917]); (120551, [918]); (120552, [919]); 
   (120553, [920]); (120554, [921]); (120555, [922]); (120556, [923]); (120557, [924]); (120558, [925]); 
   (120559, [926]); (120560, [927]); (120561, [928]); (120562, [929]); (120563, [920]); (120564, [931]); 
   (120565, [932]); (120566, [933]); (120567, [934]); (120568, [935]); (120569, [936]); (120570, [937]); 
   (120571, [8711]); (120572, [945]); (120573, [946]); (120574, [947]); (120575, [948]); (120576, [949]); 
   (120577, [950]); (120578, [951]); (120579, [952]); (120580, [953]); (120581, [954]); (120582, [955]); 
   (120583, [956]); (120584, [957]); (120585, [958]); (120586, [959]); (120587, [960]); (120588, [961]); 
   (120589, [962]); (120590, [963]); (120591, [964]); (120592, [965]); (120593, [966]); (120594, [967]); 
   (120595, [968]); (120596, [969]); (120597, [8706]); (120598, [949]); (120599, [952]); (120600, [954]); 
   (120601, [966]); (120602, [961]); (120603, [960]); (120604, [913]); (120605, [914]); (120606, [915]); 
   (120607, [916]); (120608, [917]); (120609, [918]); (120610, [919]); (120611, [920]); (120612, [921]); 
   (120613, [922]); (120614, [923]); (120615, [924]); (120616, [925]); (120617, [926]); (120618, [927]); 
   (120619, [928]); (120620, [929]); (120621, [920]); (120622, [931]); (120623, [932]); (120624, [933]); 
   (120625, [934]); (120626, [935]); (120627, [936]); (120628, [937]); (120629, [8711]); (120630, [945]); 
   (120631, [946]); (120632, [947]); (120633, [948]); (120634, [949]); (120635, [950]); (120636, [951]); 
   (120637, [952]); (120638, [953]); (120639, [954]); (120640, [955]); (120641, [956]); (120642, [957]); 
   (120643, [958]); (120644, [959]); (120645, [960]); (120646, [961]); (120647, [962]); (120648, [963]); 
   (120649, [964]); (120650, [965]); (120651, [966]); (120652, [967]); (120653, [968]); (120654, [969]); 
   (120655, [8706]); (120656, [949]); (120657, [952]); (120658, [954]); (120659, [966]); (120660, [961]); 
   (120661, [960]); (120662, [913]); (120663, [914]); (120664, [915]); (120665, [916]); (120666, [917]); 
   (120667, [918]); (120668, [919]); (120669, [920]); (120670, [921]); (120671, [922]); (120672, [923]); 
   (120673, [924]); (120674, [925]); (120675, [926]); (120676, [927]); (120677, [928]); (120678, [929]); 
   (120679, [920]); (120680, [931]); (120681, [932]); (120682, [933]); (120683, [934]); (120684, [935]); 
   (120685, [936]); (120686, [937]); (120687, [8711]); (120688, [945]); (120689, [946]); (120690, [947]); 
   (120691, [948]); (120692, [949]); (120693, [950]); (120694, [951]); (120695, [952]); (120696, [953]); 
   (120697, [954]); (120698, [955]); (120699, [956]); (120700, [957]); (120701, [958]); (120702, [959]); 
   (120703, [960]); (120704, [961]); (120705, [962]); (120706, [963]); (120707, [964]); (120708, [965]); 
   (120709, [966]); (120710, [967]); (120711, [968]); (120712, [969]); (120713, [8706]); (120714, [949]); 
   (120715, [952]); (120716, [954]); (120717, [966]); (120718, [961]); (120719, [960]); (120720, [913]); 
   (120721, [914]); (120722, [915]); (120723, [916]); (120724, [917]); (120725, [918]); (120726, [919]); 
   (120727, [920]); (120728, [921]); (120729, [922]); (120730, [923]); (120731, [924]); (120732, [925]); 
   (120733, [926]); (120734, [927]); (120735, [928]); (120736, [929]); (120737, [920]); (120738, [931]); 
   (120739, [932]); (120740, [933]); (120741, [934]); (120742, [935]); (120743, [936]); (120744, [937]); 
   (120745, [8711]); (120746, [945]); (120747, [946]); (120748, [947]); (120749, [948]); (120750, [949]); 
   (120751, [950]); (120752, [951]); (120753, [952]); (120754, [953]); (120755, [954]); (120756, [955]); 
   (120757, [956]); (120758, [957]); (120759, [958]); (120760, [959]); (120761, [960]); (120762, [961]); 
   (120763, [962]); (120764, [963]); (120765, [964]); (120766, [965]); (120767, [966]); (120768, [967]); 
   (120769, [968]); (120770, [969]); (120771, [8706]); (120772, [949]); (120773, [952]); (120774, [954]); 
   (120775, [966]); (120776, [961]); (120777, [960]); (120778, [988]); (120779, [989]); (120782, [48]); 
   (120783, [49]); (120784, [50]); (120785, [51]); (120786, [52]); (120787, [53]); (120788, [54]); (120789, [55]); 
   (120790, [56]); (120791, [57]); (120792, [48]); (120793, [49]); (120794, [50]); (120795, [51]); (120796, [52]); 
   (120797, [53]); (120798, [54]); (120799, [55]); (120800, [56]); (120801, [57]); (120802, [48]); (120803, [49]); 
   (120804, [50]); (120805, [51]); (120806, [52]); (120807, [53]); (120808, [54]); (120809, [55]); (120810, [56]); 
   (120811, [57]); (120812, [48]); (120813, [49]); (120814, [50]); (120815, [51]); (120816, [52]); (120817, [53]); 
   (120818, [54]); (120819, [55]); (120820, [56]); (120821, [57]); (120822, [48]); (120823, [49]); (120824, [50]); 
   (120825, [51]); (120826, [52]); (120827, [53]); (120828, [54]); (120829, [55]); (120830, [56]); (120831, [57]); 
   (126464, [1575]); (126465, [1576]); (126466, [1580]); (126467, [1583]); (126469, [1608]); (126470, [1586]); 
   (126471, [1581]); (126472, [1591]); (126473, [1610]); (126474, [1603]); (126475, [1604]); (126476, [1605]); 
   (126477, [1606]); (126478, [1587]); (126479, [1593]); (126480, [1601]); (126481, [1589]); (126482, [1602]); 
   (126483, [1585]); (126484, [1588]); (126485, [1578]); (126486, [1579]); (126487, [1582]); (126488, [1584]); 
   (126489, [1590]); (126490, [1592]); (126491, [1594]); (126492, [1646]); (126493, [1722]); (126494, [1697]); 
   (126495, [1647]); (126497, [1576]); (126498, [1580]); (126500, [1607]); (126503, [1581]); (126505, [1610]); 
   (126506, [1603]); (126507, [1604]); (126508, [1605]); (126509, [1606]); (126510, [1587]); (126511, [1593]); 
   (126512, [1601]); (126513, [1589]); (126514, [1602]); (126516, [1588]); (126517, [1578]); (126518, [1579]); 
   (126519, [1582]); (126521, [1590]); (126523, [1594]); (126530, [1580]); (126535, [1581]); (126537, [1610]); 
   (126539, [1604]); (126541, [1606]); (126542, [1587]); (126543, [1593]); (126545, [1589]); (126546, [1602]); 
   (126548, [1588]); (126551, [1582]); (126553, [1590]); (126555, [1594]); (126557, [1722]); (126559, [1647]); 
   (126561, [1576]); (126562, [1580]); (126564, [1607]); (126567, [1581]); (126568, [1591]); (126569, [1610]); 
   (126570, [1603]); (126572, [1605]); (126573, [1606]); (126574, [1587]); (126575, [1593]); (126576, [1601]); 
   (126577, [1589]); (126578, [1602]); (126580, [1588]); (126581, [1578]); (126582, [1579]); (126583, [1582]); 
   (126585, [1590]); (126586, [1592]); (126587, [1594]); (126588, [1646]); (126590, [1697]); (126592, [1575]); 
   (126593, [1576]); (126594, [1580]); (126595, [1583]); (126596, [1607]); (126597, [1608]); (126598, [1586]); 
   (126599, [1581]); (126600, [1591]); (126601, [1610]); (126603, [1604]); (126604, [1605]); (126605, [1606]); 
   (126606, [1587]); (126607, [1593]); (126608, [1601]); (126609, [1589]); (126610, [1602]); (126611, [1585]); 
   (126612, [1588]); (126613, [1578]); (126614, [1579]); (126615, [1582]); (126616, [1584]); (126617, [1590]); 
   (126618, [1592]); (126619, [1594]); (126625, [1576]); (126626, [1580]); (126627, [1583]); (126629, [1608]); 
   (126630, [1586]); (126631, [1581]); (126632, [1591]); (126633, [1610]); (126635, [1604]); (126636, [1605]); 
   (126637, [1606]); (126638, [1587]); (126639, [1593]); (126640, [1601]); (126641, [1589]); (126642, [1602]); 
   (126643, [1585]); (126644, [1588]); (126645, [1578]); (126646, [1579]); (126647, [1582]); (126648, [1584]); 
   (126649, [1590]); (126650, [1592]); (126651, [1594]); (127232, [48;46]); (127233, [48;44]); (127234, [49;44]); 
   (127235, [50;44]); (127236, [51;44]); (127237, [52;44]); (127238, [53;44]); (127239, [54;44]); 
   (127240, [55;44]); (127241, [56;44]); (127242, [57;44]); (127248, [40;65;41]); (127249, [40;66;41]); 
   (127250, [40;67;41]); (127251, [40;68;41]); (127252, [40;69;41]); (127253, [40;70;41]); (127254, [40;71;41]); 
   (127255, [40;72;41]); (127256, [40;73;41]); (127257, [40;74;41]); (127258, [40;75;41]); (127259, [40;76;41]); 
   (127260, [40;77;41]); (127261, [40;78;41]); (127262, [40;79;41]); (127263, [40;80;41]); (127264, [40;81;41]); 
   (127265, [40;82;41]); (127266, [40;83;41]); (127267, [40;84;41]); (127268, [40;85;41]); (127269, [40;86;41]); 
   (127270, [40;87;41]); (127271, [40;88;41]); (127272, [40;89;41]); (127273, [40;90;41]); 
   (127274, [12308;83;12309]); (127275, [67]); (127276, [82]); (127277, [67;68]); (127278, [87;90]); 
   (127280, [65]); (127281, [66]); (127282, [67]); (127283, [68]); (127284, [69]); (127285, [70]); (127286, [71]); 
   (127287, [72]); (127288, [73]); (127289, [74]); (127290, [75]); (127291, [76]); (127292, [77]); (127293, [78]); 
   (127294, [79]); (127295, [80]); (127296, [81]); (127297, [82]); (127298, [83]); (127299, [84]); (127300, [85]); 
   (127301, [86]); (127302, [87]); (127303, [88]); (127304, [89]); (127305, [90]); (127306, [72;86]); 
   (127307, [77;86]); (127308, [83;68]); (127309, [83;83]); (127310, [80;80;86]); (127311, [87;67]); 
   (127338, [77;67]); (127339, [77;68]); (127340, [77;82]); (127376, [68;74]); (127488, [12411;12363]); 
   (127489, [12467;12467]); (127490, [12469]); (127504, [25163]); (127505, [23383]); (127506, [21452]); 
   (127507, [12486;12441]); (127508, [20108]); (127509, [22810]); (127510, [35299]); (127511, [22825]); 
   (127512, [20132]); (127513, [26144]); (127514, [28961]); (127515, [26009]); (127516, [21069]); 
   (127517, [24460]); (127518, [20877]); (127519, [26032]); (127520, [21021]); (127521, [32066]); 
   (127522, [29983]); (127523, [36009]); (127524, [22768]); (127525, [21561]); (127526, [28436]); 
   (127527, [25237]); (127528, [25429]); (127529, [19968]); (127530, [19977]); (127531, [36938]); 
   (127532, [24038]); (127533, [20013]); (127534, [21491]); (127535, [25351]); (127536, [36208]); 
   (127537, [25171]); (127538, [31105]); (127539, [31354]); (127540, [21512]); (127541, [28288]); 
   (127542, [26377]); (127543, [26376]); (127544, [30003]); (127545, [21106]); (127546, [21942]); 
   (127547, [37197]); (127552, [12308;26412;12309]); (127553, [12308;19977;12309]); (127554, [12308;20108;12309]); 
   (127555, [12308;23433;12309]); (127556, [12308;28857;12309]); (127557, [12308;25171;12309]); 
   (127558, [12308;30423;12309]); (127559, [12308;21213;12309]); (127560, [12308;25943;12309]); (127568, [24471]); 
   (127569, [21487]); (130032, [48]); (130033, [49]); (130034, [50]); (130035, [51]); (130036, [52]); 
   (130037, [53]); (130038, [54]); (130039, [55]); (130040, [56]); (130041, [57])].
