(** Tables for the proof that [pseudo_inv] inverts the covariance matrix: the
    matrix, its symmetries and the certificates.  Nothing here is trusted: every
    table is checked where it is used. *)
From Coq Require Export ZArith List.
Import ListNotations.
Open Scope Z_scope.
(** 10! times the covariance per window *)
Definition cov_table : list (list Z) :=
[[28672;(-1568);(-1568);(-1568);(-1568);(-1568);(-1768);3272;(-1778);(-1548);(-1148);(-1818);(-1048);(-1048);292;(-1818);(-1778);(-1548);(-1678);(-1678);(-1508);(-1008);(-1508);(-1008);(-598);(-828);9262;(-818);(-868);(-198);(-1078);3962;3552;3262;(-1488);(-1778);(-1328);782;(-968);(-1258);(-1468);(-1988);(-518);(-1018);(-1598);(-1888);(-928);(-1718);(-1728);(-1498);(-1768);2502;442;442;5642;1372;242;(-1178);2182;992;(-898);(-898);1212;(-158);(-1038);(-68);(-1558);(-1058);1052;(-818);(-1868);(-898);(-1358);(-1358);(-918);(-58);(-918);(-58);922;62;(-1058);(-1528);242;(-1088);(-1018);(-158);8432;5482;(-1598);5132;(-1528);(-1528);(-858);(-1508);(-1668);5782;(-1168);(-1168);(-1168);(-1168);(-1168);(-1168);(-188);(-188);(-868);(-1338);(-868);(-1338);(-1268);(-1268);2282;192;(-1408);282;(-1268);(-1268);(-598);(-1248);(-1408);11082];
[(-1568);28672;(-1568);(-1568);(-1568);(-1568);3272;(-1768);(-1688);(-1638);(-1868);(-1098);(-1768);(-1768);(-1868);342;(-968);(-918);(-1498);(-1498);(-1328);(-1368);(-1328);(-1368);(-688);(-738);(-818);9262;(-148);(-918);3962;(-1078);(-1488);(-1778);3552;3262;832;(-1378);(-1688);(-1978);(-838);(-1178);(-878);(-838);(-1418);(-1708);(-1288);(-1538);522;572;2552;(-1818);(-1718);(-1718);(-118);4252;2312;2512;22;272;(-1618);(-1618);(-228);(-158);(-1758);(-788);(-658);(-698);692;802;(-968);2;(-908);(-908);(-738);(-958);(-738);(-958);22;242;(-608);(-1078);(-658);(-908);4202;3982;1052;2062;3892;542;(-1258);(-1258);(-588);(-1238);3642;1012;(-1168);(-1168);(-1168);(-1168);(-1168);(-1168);(-188);(-188);(-868);(-1338);(-868);(-1338);(-1268);(-1268);842;1632;(-1408);282;(-1268);(-1268);(-598);(-1248);8672;1002];
[(-1568);(-1568);28672;(-1568);(-1568);(-1568);(-1768);(-1768);(-1598);(-1728);3172;(-1098);(-1768);(-1768);(-1868);(-378);(-878);(-288);(-1228);(-1228);(-1328);(-1638);(-1328);(-1638);(-1318);(-1188);(-1358);(-1358);(-688);8622;(-1078);(-1078);(-1218);(-1508);(-1218);(-1508);112;3662;3622;3332;62;(-818);(-1148);(-838);(-878);(-1168);(-1288);(-1268);(-108);1202;392;(-1818);(-1718);(-1718);(-658);1552;2402;802;(-518);(-808);(-1618);(-1618);222;112;(-1758);652;62;472;2312;1792;(-698);1712;4402;(-638);(-1008);(-1498);4032;3542;(-1058);(-568);(-158);(-448);(-1018);(-818);(-1108);(-1598);242;622;(-878);2252;4322;(-718);(-318);(-428);(-858);1552;(-1168);(-1168);(-1168);(-1168);(-1168);(-1168);(-728);(-728);(-688);(-978);(-688);(-978);(-1268);(-1268);572;462;(-1408);1722;8812;(-1268);(-868);(-978);(-1408);1002];
[(-1568);(-1568);(-1568);28672;(-1568);(-1568);(-1768);(-1768);(-1598);(-1728);(-1868);3942;(-1768);(-1768);(-1868);(-378);(-158);(-1008);(-1228);(-1228);(-1328);(-1638);(-1328);(-1638);(-1588);(-1458);(-1628);(-1628);9122;(-1728);(-1348);(-1348);(-1218);(-968);(-1218);(-968);4882;(-1648);(-1418);(-1168);4382;5482;(-1418);(-1108);(-878);(-628);(-1288);(-728);2052;482;1112;(-1098);(-998);(-998);(-1738);472;62;2062;(-1418);(-988);(-178);(-178);(-1488);(-1058);402;(-1508);1502;472;(-838);622;2902;992;(-638);4402;4032;3542;(-1008);(-1498);(-1418);(-928);(-338);92;(-1198);(-278);332;(-158);(-1468);(-548);2002;(-628);(-718);4322;(-588);(-158);1302;(-608);(-1168);(-1168);(-1168);(-1168);(-1168);(-1168);(-1088);(-1088);(-868);(-438);(-868);(-438);172;172;(-1138);(-708);1472;(-1158);(-1268);8812;(-1138);(-708);752;(-1158)];
[(-1568);(-1568);(-1568);(-1568);28672;(-1568);(-1768);(-1768);3262;(-1548);(-1148);(-1818);(-1048);(-328);(-428);(-1818);(-1778);(-1548);(-1678);(-1678);(-1508);(-1008);(-1508);(-1008);(-1138);8712;(-1358);(-1358);(-1408);(-738);(-1078);(-1078);(-1218);(-1508);(-1218);(-1508);(-1328);62;22;(-988);(-1198);(-1718);(-518);4022;3712;3422;(-658);(-1448);(-1008);(-58);392;2502;442;2602;782;(-1328);(-1018);(-1538);1642;(-88);542;1982;942;112;(-318);(-788);(-838);382;(-658);(-1268);(-1148);(-1618);(-1358);(-1358);(-918);(-58);(-918);(-58);382;(-478);(-878);3872;5462;4312;422;2722;242;(-728);(-158);(-1348);(-1528);(-1528);(-1128);3802;492;(-1418);(-1168);(-1168);(-1168);(-1168);(-1168);(-1168);(-728);(-728);(-688);(-978);(-688);(-978);172;1612;(-868);(-978);32;(-1158);(-1268);(-1268);(-868);9102;752;(-1158)];
[(-1568);(-1568);(-1568);(-1568);(-1568);28672;(-1768);(-1768);(-1688);3402;(-1148);(-1818);(-328);(-1048);(-428);(-1818);(-1688);(-1638);(-1498);(-1498);(-1328);(-1368);(-1328);(-1368);8582;(-1548);(-1628);(-1628);(-1678);(-1008);(-1348);(-1348);(-1218);(-968);(-1218);(-968);(-1598);(-208);(-698);272;(-1288);(-1088);3892;(-1108);(-1148);(-898);4022;4312;522;(-148);(-1048);1062;3322;1162;422;(-1688);(-1288);(-908);22;1892;1262;(-178);(-768);382;1122;652;62;(-698);(-1288);(-818);(-968);(-1438);(-908);(-908);(-738);(-958);(-738);(-958);4162;4382;4432;(-178);(-658);(-8);2042;382;(-928);(-278);292;(-898);(-1258);(-1258);3912;(-698);762;(-1148);(-1168);(-1168);(-1168);(-1168);(-1168);(-1168);(-1088);(-1088);(-868);(-438);(-868);(-438);1612;172;(-1138);(-708);32;(-1158);(-1268);(-1268);8942;(-708);752;(-1158)];
[(-1768);3272;(-1768);(-1768);(-1768);(-1768);28272;(-1968);(-1708);(-2018);(-2068);3742;(-1968);(-1968);(-2068);(-1298);(-268);(-578);(-1068);3972;3332;3022;(-1708);(-2018);(-1778);(-1468);(-1728);(-1728);3982;(-1828);(-1378);(-1378);(-1348);(-1408);(-1348);(-1408);9172;(-1678);(-1548);(-1608);4882;5132;(-1628);(-1318);(-648);(-708);(-1598);(-1348);602;292;(-428);(-1198);(-1098);(-1098);(-1588);(-818);112;542;(-1278);(-1158);(-838);(-838);(-1078);(-688);(-898);(-868);2102;1072;832;2252;1962;1992;(-918);(-918);(-1558);(-1868);(-1558);(-1868);(-1538);(-1228);(-378);(-258);(-1328);(-898);662;352;(-1328);(-628);1242;(-168);242;242;722;1112;4502;932;(-1268);8812;(-1268);(-1268);(-1268);(-1268);(-938);(-938);(-728);(-608);(-728);(-608);952;952;(-728);(-338);892;(-518);(-1208);(-1208);(-728);(-338);3052;(-518)];
[3272;(-1768);(-1768);(-1768);(-1768);(-1768);(-1968);28272;(-1708);(-2018);2972;(-1298);(-1968);(-1968);(-2068);(-1298);(-988);142;3972;(-1068);(-1708);(-2018);3332;3022;(-1508);(-1198);(-1458);(-1458);(-788);3482;(-1288);(-1288);(-1438);(-1678);(-1438);(-1678);(-818);8492;3402;3162;472;(-898);(-1538);(-1228);(-738);(-978);(-1688);(-1618);(-838);292;(-1148);(-1918);(-1818);(-1818);(-328);442;1552;2;(-558);(-978);(-1558);(-1558);182;(-508);(-1618);(-148);662;2512;4252;1712;(-198);1272;(-918);(-918);(-1558);(-1868);(-1558);(-1868);(-998);(-688);(-378);(-798);(-1328);(-1438);(-1498);(-1808);1372;992;(-918);1992;242;242;1262;572;182;5252;8812;(-1268);(-1268);(-1268);(-1268);(-1268);(-398);(-398);(-728);(-1148);(-728);(-1148);(-1208);(-1208);1972;1282;(-1268);1642;(-1208);(-1208);(-188);(-878);(-1268);3802];
[(-1778);(-1688);(-1598);(-1598);3262;(-1688);(-1708);(-1708);28792;(-1758);3232;(-1038);3062;(-1888);(-1898);(-1128);4042;5262;(-1078);(-988);(-1538);(-1848);(-1718);(-1938);(-2008);(-1698);(-1958);(-1958);(-1288);2982;(-1618);(-1618);(-1518);(-848);(-798);(-848);(-428);3842;9082;3992;1112;(-68);(-1868);(-1558);(-818);(-148);(-1048);(-788);(-708);692;(-478);(-1248);(-1688);(-1418);(-1918);(-1148);392;(-788);(-1718);(-1768);(-1078);(-538);(-1518);(-1568);(-618);(-1568);1142;3532;2552;652;802;(-148);(-788);(-518);(-888);(-1198);(-1428);(-1468);(-1868);(-1558);(-818);1292;392;652;(-1018);(-788);(-1768);(-1508);82;(-868);722;1262;282;4552;1182;232;(-1138);(-868);(-598);(-598);8942;(-868);(-1268);(-1268);(-1168);942;992;942;(-728);(-188);(-1168);(-1218);(-268);(-1218);(-728);(-188);(-1168);3102;(-268);(-1218)];
[(-1548);(-1638);(-1728);(-1728);(-1548);3402;(-2018);(-2018);(-1758);28172;2922;(-1348);(-1748);3202;3012;3782;(-48);(-448);(-848);(-938);(-1668);(-1978);(-1488);(-1888);(-1398);(-1088);(-1348);(-1348);(-678);3592;(-1048);(-1048);(-848);(-1218);(-1568);(-1218);(-1298);2972;3272;8662;(-378);282;(-1298);(-988);(-148);(-518);(-1818);(-1158);442;(-138);(-1128);(-1898);(-1258);(-1528);(-2068);(-1298);(-378);282;(-1768);(-1418);(-688);(-1228);(-1568);(-1218);(-668);(-1218);2252;682;342;1722;2192;1642;(-358);(-628);(-1538);(-1848);(-998);(-1578);142;452;1292;(-518);(-1818);(-1158);(-628);(-1478);(-1818);(-1158);32;(-518);1112;572;4552;582;1132;582;(-708);(-978);(-1248);(-1248);(-708);9102;742;742;942;(-868);(-1218);(-868);(-338);(-878);(-1218);(-868);(-318);(-868);(-338);(-878);3102;(-868);(-318);(-868)];
[(-1148);(-1868);3172;(-1868);(-1148);(-1148);(-2068);2972;3232;2922;28072;3642;(-1348);(-1348);(-1448);(-678);1072;(-678);(-448);(-1168);(-1808);(-2118);(-1088);(-1398);(-1918);(-1608);(-1868);(-1868);3842;(-1968);(-1528);(-1528);(-1428);(-1478);(-1428);(-1478);3982;(-1828);(-1628);(-1678);9122;5782;(-1778);(-1468);(-728);(-778);(-1678);(-1418);462;(-1288);(-1288);(-2058);(-1958);(-1958);(-1558);(-788);(-688);1012;(-1358);(-1408);(-1618);(-1618);(-618);(-668);(-1518);232;602;(-1148);(-148);1552;3502;5252;1102;(-1058);(-1698);(-2008);462;152;(-1508);(-1198);(-458);(-508);(-1408);(-1148);(-1558);(-1868);(-868);(-608);(-818);932;4502;182;1182;1132;282;2032;752;(-1408);8672;(-1408);752;752;(-908);(-908);(-808);(-858);(-808);(-858);(-1268);(-1268);(-268);(-318);(-1168);582;3052;(-1268);(-268);(-318);(-1168);582];
[(-1818);(-1098);(-1098);3942;(-1818);(-1818);3742;(-1298);(-1038);(-1348);3642;39692;(-2018);(-2018);(-2118);(-1348);402;(-1348);(-1118);(-398);(-1038);(-1348);(-1758);(-2068);(-2118);(-1808);(-2068);(-2068);3642;(-2168);(-1768);(-1768);(-1568);(-1218);(-1568);(-1218);3742;(-2068);(-1768);(-1418);3942;11082;(-2018);(-1708);(-868);(-518);(-1818);(-1158);712;(-1038);(-1038);(-1808);(-1708);(-1708);(-2068);(-1298);(-1098);1002;(-1768);(-1418);(-868);(-868);(-1568);(-1218);232;(-1218);1352;(-398);(-1098);1002;5252;3802;(-808);1352;712;402;(-1448);(-1758);(-2018);(-1708);(-868);(-518);(-1818);(-1158);(-808);(-1118);(-1818);(-1158);932;(-518);932;5252;232;582;2032;582;(-1158);1002;1002;11082;(-1158);(-1158);(-1418);(-1418);(-1218);(-868);(-1218);(-868);(-518);(-518);(-1218);(-868);582;(-868);(-518);3802;(-1218);(-868);582;(-868)];
[(-1048);(-1768);(-1768);(-1768);(-1048);(-328);(-1968);(-1968);3062;(-1748);(-1348);(-2018);29712;1632;812;142;(-1258);(-308);(-1158);(-1878);(-1708);(-1208);(-988);232;(-1238);3572;(-1458);(-1458);(-1508);(-838);(-1288);(-1288);(-1438);3362;(-1438);(-1678);(-1538);(-868);522;(-1158);(-1418);(-1888);(-728);8852;3492;8292;4162;3422;(-1828);(-1598);(-1868);(-1198);(-1098);342;(-328);(-998);(-1058);(-1708);882;(-978);602;2762;3782;932;(-898);(-148);(-1498);(-998);22;(-1168);(-1728);(-978);(-18);(-1458);(-1018);(-158);422;2722;712;(-148);(-918);(-1338);382;(-898);(-958);(-98);922;(-628);(-1458);(-708);692;(-1468);(-448);(-1138);(-1528);(-778);172;(-1268);(-1268);(-1268);172;1612;(-398);(-398);(-728);8932;(-728);(-1148);(-1208);(-1208);(-188);(-878);(-1268);(-518);952;(-1208);(-188);(-878);(-1268);(-518)];
[(-1048);(-1768);(-1768);(-1768);(-328);(-1048);(-1968);(-1968);(-1888);3202;(-1348);(-2018);1632;31152;(-628);(-1298);272;(-398);(-978);(-1698);(-1528);(-1568);(-88);(-848);3442;(-1648);(-1728);(-1728);(-1778);(-1108);(-1378);(-1378);3692;(-1408);(-1348);(-1408);(-1628);(-958);(-108);(-168);(-1418);(-1528);13942;3902;3762;(-1338);3892;3872;(-1738);(-1688);(-1868);(-1198);(-378);(-378);(-868);(-1538);(-1148);(-1078);162;282;1322;602;1082;2192;542;1292;(-1318);(-1358);(-878);(-448);(-1548);(-798);432;(-1008);(-838);(-1058);2042;382;(-728);(-508);(-468);(-348);(-518);(-178);(-778);(-998);(-518);92;(-1008);(-258);962;(-1198);(-718);(-328);(-1258);(-508);172;(-1268);(-1268);(-1268);1612;172;(-938);(-938);9352;(-608);(-728);(-608);(-1208);(-1208);(-728);(-338);(-1268);(-518);952;(-1208);(-728);(-338);(-1268);(-518)];
[292;(-1868);(-1868);(-1868);(-428);(-428);(-2068);(-2068);(-1898);3012;(-1448);(-2118);812;(-628);29512;(-1398);(-1178);(-1308);632;(-1528);(-1628);(-1938);(-188);(-498);8252;3342;3172;(-1868);(-1918);(-1248);(-1528);3512;(-1428);(-1478);(-1428);(-1478);(-1778);(-1108);(-908);482;(-1588);(-1508);3442;(-1288);(-1088);(-1138);8582;3802;(-1788);(-1918);(-2008);(-1338);202;(-1238);(-838);(-1508);(-1318);(-1238);(-638);752;542;(-898);102;1492;2802;4552;(-1378);(-1688);(-688);(-428);(-1178);572;2002;(-878);(-1248);(-1738);192;(-298);(-1238);(-748);(-278);(-328);(-1138);(-698);(-1108);(-1598);(-598);(-158);(-638);1112;1442;(-718);282;232;(-618);1132;1472;(-1408);(-1408);(-1408);32;32;(-908);9172;(-808);(-858);(-808);(-858);(-1268);(-1268);(-268);(-318);(-1168);582;892;(-1268);(-268);(-318);(-1168);582];
[(-1818);342;(-378);(-378);(-1818);(-1818);(-1298);(-1298);(-1128);3782;(-678);(-1348);142;(-1298);(-1398);28172;(-1848);(-1978);(-1478);682;(-138);(-448);(-1578);(-1888);3012;(-1898);(-2068);2972;2922;3592;3272;(-1768);(-1568);(-1218);(-1568);(-1218);(-2018);(-1348);(-1048);742;(-1728);(-1248);3202;(-1528);(-1228);(-878);3402;9102;(-1538);(-1668);(-1758);(-1088);452;(-988);(-1348);(-2018);(-1728);(-1248);(-1048);742;1292;(-148);(-848);942;4552;3102;(-628);(-938);(-1638);(-978);572;(-878);(-628);2252;442;(-48);(-998);(-1488);(-1748);(-1258);(-688);(-338);(-1548);(-708);(-358);(-848);(-1548);(-708);1112;(-338);32;2192;(-668);(-318);1132;(-318);(-1158);1722;282;282;(-1158);(-1158);8662;(-1418);(-1218);(-868);(-1218);(-868);(-518);(-518);(-1218);(-868);582;(-868);(-518);1642;(-1218);(-868);582;(-868)];
[(-1778);(-968);(-878);(-158);(-1778);(-1688);(-268);(-988);4042;(-48);1072;402;(-1258);272;(-1178);(-1848);28252;(-1668);(-1888);(-1078);(-818);402;(-1718);(-1128);(-1738);3072;(-1958);(-1958);(-2008);(-1338);(-1618);(-1618);(-1518);(-1568);(-1518);3472;(-1868);(-1198);442;3992;3542;3262;(-1058);3482;8452;3362;(-958);(-1508);(-1698);(-1198);(-1198);(-528);(-968);742;(-1198);(-1868);(-1498);(-1778);442;(-1048);1082;3782;2802;592;102;(-848);(-1018);22;(-958);(-1508);(-728);(-1678);(-1328);382;1092;3392;(-888);242;(-158);(-1018);(-1358);(-1408);(-58);(-968);(-478);922;(-58);(-968);(-458);(-1408);(-988);1712;(-1428);(-1478);(-528);(-1478);(-1138);572;842;2282;(-1138);(-868);(-1268);(-1268);(-1168);(-1218);(-1168);8862;(-728);(-188);(-1168);(-1218);(-268);(-1218);(-728);1972;(-1168);(-1218);(-268);(-1218)];
[(-1548);(-918);(-288);(-1008);(-1548);(-1638);(-578);142;5262;(-448);(-678);(-1348);(-308);(-398);(-1308);(-1978);(-1668);28532;(-1478);(-848);(-48);(-808);(-1308);(-1438);(-1938);3052;(-2068);(-2068);(-2118);(-1448);(-1768);(-1768);(-1568);(-1218);3472;(-1218);3022;3692;4712;22;(-1638);(-1338);(-1568);3512;3542;8932;(-1368);(-978);(-1178);(-1398);(-1848);(-1178);182;(-88);(-1348);(-2018);(-1638);(-1338);(-328);22;2192;932;592;1662;1492;942;(-448);(-1028);(-1368);(-978);(-598);(-1148);(-448);722;2062;402;(-278);(-768);(-1208);(-988);(-958);(-608);(-1008);(-438);92;(-668);(-1008);(-438);(-58);(-608);(-328);1292;(-1208);(-858);(-308);(-858);(-708);462;1632;192;(-708);(-978);(-1418);(-1418);(-1218);(-868);8862;(-868);(-338);(-878);(-1218);(-868);(-318);(-868);(-338);1282;(-1218);(-868);(-318);(-868)];
[(-1678);(-1498);(-1228);(-1228);(-1678);(-1498);(-1068);3972;(-1078);(-848);(-448);(-1118);(-1158);(-978);632;(-1478);(-1888);(-1478);28452;(-1608);(-1168);(-668);(-1618);(-938);(-1598);(-1828);3222;(-1818);(-1868);(-1198);(-1558);8522;3422;3992;(-178);(-1048);352;2462;342;(-528);(-158);(-1258);(-998);(-1498);(-1728);(-1158);382;(-988);(-1648);(-1058);(-788);3482;522;882;2462;(-1808);(-1598);(-1978);342;192;(-568);(-28);(-898);(-1048);(-538);3992;(-1228);(-188);3982;3332;(-1368);3162;(-1278);(-918);62;922;(-838);382;(-98);(-958);(-1458);(-168);2722;272;(-688);712;(-158);(-1168);(-1098);(-1608);(-1198);(-658);(-1528);482;(-1168);(-1678);(-1088);(-728);(-188);(-188);(-1088);(-728);(-1208);(-1208);(-1268);22;1612;22;(-938);(-398);(-1268);(-1418);(-908);8662;(-938);(-398);(-1268);742;(-908);(-1418)];
[(-1678);(-1498);(-1228);(-1228);(-1678);(-1498);3972;(-1068);(-988);(-938);(-1168);(-398);(-1878);(-1698);(-1528);682;(-1078);(-848);(-1608);28812;(-988);(-1028);(-1438);(-1298);(-1688);(-1738);(-1818);3222;(-1148);(-1918);8522;(-1558);(-1618);(-1048);4142;4712;1072;(-1138);(-378);192;472;992;(-1358);(-1318);(-1548);(-978);(-698);(-88);602;1012;3532;(-838);(-1638);(-1278);(-1858);2512;472;272;(-1818);(-1968);(-1288);(-748);(-1618);(-1768);3782;(-1768);4712;5212;(-698);(-808);4572;(-978);(-828);(-468);242;22;(-658);(-518);(-998);(-778);(-1008);282;382;1892;(-508);(-188);(-1058);(-988);(-648);(-1158);(-928);(-388);(-1258);752;(-898);(-1408);(-1088);(-728);(-188);(-188);(-1088);(-728);(-1208);(-1208);(-1268);22;172;1462;(-938);(-398);(-1268);(-1418);9172;(-1418);(-938);(-398);(-1268);742;(-908);(-1418)];
[(-1508);(-1328);(-1328);(-1328);(-1508);(-1328);3332;(-1708);(-1538);(-1668);(-1808);(-1038);(-1708);(-1528);(-1628);(-138);(-818);(-48);(-1168);(-988);29152;(-1398);(-1268);(-1398);(-1918);(-1788);(-1958);3082;(-1288);(-2058);3422;(-1618);(-1518);592;10002;4912;292;(-1198);(-998);(-1048);482;(-158);(-1688);(-1378);(-1178);932;(-148);112;5232;6722;692;(-1518);3622;(-1238);(-1918);292;1202;(-158);(-1718);(-1768);3962;(-1078);(-1518);(-1568);(-1158);(-1568);602;1012;572;112;(-98);(-508);(-338);(-158);(-708);(-1198);(-708);(-1018);(-1598);(-1108);(-638);2192;(-58);382;(-568);(-1058);(-1498);(-1058);(-278);(-688);(-178);(-178);(-618);1492;(-258);(-668);(-868);(-688);(-868);(-868);(-868);(-688);(-1268);(-1268);(-1168);1662;272;222;9352;(-728);(-1168);(-1218);(-808);(-1218);(-728);(-728);(-1168);942;(-808);(-1218)];
[(-1008);(-1368);(-1638);(-1638);(-1008);(-1368);3022;(-2018);(-1848);(-1978);(-2118);(-1348);(-1208);(-1568);(-1938);(-448);402;(-808);(-668);(-1028);(-1398);28532;(-768);(-1438);(-1308);(-1178);(-1348);3692;(-678);(-1448);4712;(-328);592;(-1218);3472;8862;(-578);(-2068);(-1768);(-1418);(-1008);192;(-398);(-88);932;(-878);(-1638);(-978);2062;(-48);5262;3052;(-988);3512;(-2068);142;(-288);1632;(-1768);(-1418);(-958);3542;(-1568);(-1218);(-1208);(-1218);722;(-848);(-918);462;1292;1282;92;(-448);(-1178);(-1668);(-278);(-1308);(-308);182;2192;(-338);(-1548);(-708);(-448);(-1478);(-1548);(-708);(-328);(-338);(-58);(-598);1492;(-318);(-308);(-318);(-438);(-978);(-1338);(-1338);(-438);(-978);22;22;1662;(-868);(-1218);(-868);(-608);8932;(-1218);(-868);(-858);(-868);(-608);(-1148);942;(-868);(-858);(-868)];
[(-1508);(-1328);(-1328);(-1328);(-1508);(-1328);(-1708);3332;(-1718);(-1488);(-1088);(-1758);(-988);(-88);(-188);(-1578);(-1718);(-1308);(-1618);(-1438);(-1268);(-768);28792;(-768);(-298);(-1248);3802;(-518);152;822;(-178);4142;9282;3472;(-1518);(-1568);(-1868);(-478);(-278);(-1048);(-1498);(-1778);382;(-838);(-908);(-1678);(-958);(-1508);(-1428);(-1018);(-1468);642;22;1642;242;(-1868);3542;3262;1162;4712;362;1082;642;4912;(-438);(-848);(-1018);(-518);(-958);(-1508);(-1268);(-1678);(-1058);(-878);(-618);242;(-618);422;2722;422;82;(-1408);(-58);(-968);(-478);382;(-58);(-968);(-998);(-1408);(-988);(-988);732;(-1478);(-1068);(-1478);(-868);(-688);(-868);(-868);(-868);(-688);1612;172;272;(-1218);(-1168);(-1218);(-728);(-728);(-1168);8862;(-808);(-1218);(-728);(-728);992;(-1218);(-808);(-1218)];
[(-1008);(-1368);(-1638);(-1638);(-1008);(-1368);(-2018);3022;(-1938);(-1888);(-1398);(-2068);232;(-848);(-498);(-1888);(-1128);(-1438);(-938);(-1298);(-1398);(-1438);(-768);29072;(-498);172;5132;(-628);(-1398);(-728);(-1048);4712;4192;8862;(-1568);(-1218);(-2018);(-628);(-1048);22;(-1638);(-1338);(-848);(-88);(-778);(-1148);(-1368);(-978);(-908);(-1398);(-1938);172;1892;(-88);5132;3022;(-1638);(-1338);4712;1462;482;(-778);4192;222;952;942;(-718);(-1298);(-1368);(-978);(-1138);(-1148);(-178);(-718);(-908);(-1128);(-8);(-768);232;1892;482;(-608);(-1008);(-438);(-178);(-938);(-1008);(-438);(-598);(-608);(-598);(-1138);952;(-858);(-848);(-858);(-438);(-978);(-1338);(-1338);(-438);(-978);22;1462;222;(-868);(-1218);(-868);(-608);(-1148);8862;(-868);(-858);(-868);(-608);(-1148);942;(-868);(-858);(-868)];
[(-598);(-688);(-1318);(-1588);(-1138);8582;(-1778);(-1508);(-2008);(-1398);(-1918);(-2118);(-1238);3442;8252;3012;(-1738);(-1938);(-1598);(-1688);(-1918);(-1308);(-298);(-498);29512;(-1338);(-838);(-1108);(-1448);(-1248);(-908);(-638);102;(-268);(-1428);(-808);(-2068);(-1868);(-1528);(-908);(-1868);(-1408);(-628);(-1238);(-898);(-1268);(-428);32;(-1248);(-1628);(-1898);3342;(-748);(-1288);3172;(-2068);(-1868);(-1408);3512;9172;(-278);(-1088);(-1428);(-808);282;(-268);(-878);(-1528);(-1868);(-1408);(-718);(-1268);(-1108);(-1378);(-1788);(-1178);192;(-188);812;202;542;(-1268);(-428);32;2002;632;292;1472;1442;892;(-638);(-1178);2802;(-1168);(-618);(-1168);(-158);(-428);(-1238);(-1508);(-698);3802;482;752;1492;(-318);(-1478);(-858);(-328);(-1138);(-1478);(-858);232;(-318);1112;572;4552;582;1132;582];
[(-828);(-738);(-1188);(-1458);8712;(-1548);(-1468);(-1198);(-1698);(-1088);(-1608);(-1808);3572;(-1648);3342;(-1898);3072;3052;(-1828);(-1738);(-1788);(-1178);(-1248);172;(-1338);28292;(-1448);(-1718);(-2058);(-1858);(-1478);(-1208);(-568);102;(-658);(-438);(-1198);(-998);(-758);(-538);(-1098);(-1038);(-1198);(-1808);(-1568);(-898);1062;(-318);(-1678);(-1518);(-1248);3992;(-1178);(-1178);3322;(-1918);(-1818);(-1758);8602;3782;(-668);(-398);(-1378);(-1158);332;(-618);(-1268);(-838);(-1818);(-1758);(-668);(-1618);(-1538);(-1268);(-1138);(-528);(-958);642;(-1198);(-1808);(-1568);542;2502;1122;892;3482;2502;402;52;(-898);(-1028);(-488);(-1468);2802;(-568);(-1518);(-588);(-318);(-588);(-858);3912;(-1128);(-1528);(-1258);(-618);1492;732;952;(-718);(-448);(-1428);(-1208);282;(-668);722;1262;282;4552;1182;232];
[9262;(-818);(-1358);(-1628);(-1358);(-1628);(-1728);(-1458);(-1958);(-1348);(-1868);(-2068);(-1458);(-1728);3172;(-2068);(-1958);(-2068);3222;(-1818);(-1958);(-1348);3802;5132;(-838);(-1448);29292;(-1218);(-1558);(-1358);(-1148);(-878);(-488);(-728);(-1298);(-1268);(-1588);(-1388);(-1398);(-1368);(-1738);(-1868);(-868);(-1478);(-1488);(-1728);422;(-1148);(-1808);(-1918);(-1918);3322;(-1308);(-1578);9952;(-328);(-658);(-968);4722;4572;(-1148);(-1418);322;(-98);(-668);802;(-1748);(-1858);(-118);(-698);(-1668);(-198);(-1668);(-1668);(-1808);(-1198);(-1088);242;(-328);(-938);(-1128);(-1548);782;(-968);412;2462;5642;2902;(-948);1962;(-1508);(-1508);(-488);(-1178);(-1568);3502;4322;(-718);(-1258);(-1528);(-1258);(-1528);(-658);(-388);(-178);(-598);(-988);(-1138);(-1198);(-1468);1712;1292;(-718);2192;242;242;1262;572;182;5252];
[(-818);9262;(-1358);(-1628);(-1358);(-1628);(-1728);(-1458);(-1958);(-1348);(-1868);(-2068);(-1458);(-1728);(-1868);2972;(-1958);(-2068);(-1818);3222;3082;3692;(-518);(-628);(-1108);(-1718);(-1218);28752;(-1828);(-1628);(-1238);(-968);(-398);(-458);(-1208);(-998);(-1678);(-1478);(-1308);(-1098);(-1648);(-1598);(-958);(-1568);(-1398);(-1458);(-208);(-158);(-1088);(-1198);3842;(-998);(-588);(-858);(-1388);8492;3662;3892;(-1038);(-648);(-428);(-698);(-938);(-278);52;82;(-1028);(-1138);(-1378);(-878);(-948);(-918);(-1668);(-1668);(-1808);(-1198);(-368);(-478);(-868);(-1478);(-1128);(-1008);62;292;3292;2462;782;2002;2652;1242;(-1508);(-1508);(-1028);(-638);2752;(-818);(-718);4322;(-1258);(-1528);(-1258);(-1528);(-1198);(-928);(-178);(-58);(-988);(-598);962;692;(-988);(-328);1442;32;242;242;722;1112;4502;932];
[(-868);(-148);(-688);9122;(-1408);(-1678);3982;(-788);(-1288);(-678);3842;3642;(-1508);(-1778);(-1918);2922;(-2008);(-2118);(-1868);(-1148);(-1288);(-678);152;(-1398);(-1448);(-2058);(-1558);(-1828);28072;(-1968);(-1628);(-1358);(-618);(-268);(-1428);(-808);(-2068);(-1868);(-1528);(-908);(-1868);(-1408);(-1348);(-1958);(-1618);(-1268);(-1148);752;(-1698);(-1808);3232;(-1608);(-1198);(-1468);(-1868);2972;3172;8672;(-1528);(-908);(-458);(-728);(-1428);(-808);1182;(-268);(-1058);(-1168);(-1868);(-1408);182;(-1268);(-1558);602;462;1072;462;(-1088);(-1348);(-1958);(-1618);(-1268);(-1148);752;1102;(-448);(-1148);752;4502;3052;(-818);3502;(-1518);(-1168);282;(-1168);(-608);1552;1012;5782;(-1148);(-1418);(-1678);(-1408);(-668);(-318);(-1478);(-858);(-508);(-778);(-1478);(-858);1132;(-318);932;5252;232;582;2032;582];
[(-198);(-918);8622;(-1728);(-738);(-1008);(-1828);3482;2982;3592;(-1968);(-2168);(-838);(-1108);(-1248);3592;(-1338);(-1448);(-1198);(-1918);(-2058);(-1448);822;(-728);(-1248);(-1858);(-1358);(-1628);(-1968);28472;(-1388);(-1118);(-478);(-528);(-1288);(-1068);(-1828);(-1628);(-1388);(-1168);(-1728);(-1668);(-1108);(-1718);(-1478);(-1528);(-1008);492;(-1948);(-2058);2982;(-1858);(-1448);(-1718);(-1358);3482;8622;3642;(-1118);(-898);(-1208);(-1478);(-478);(-258);(-568);1182;(-1808);(-1918);(-918);(-858);(-1568);182;352;(-1808);(-1948);(-1338);2372;822;(-838);(-1448);(-1208);(-1258);(-738);762;352;(-1198);(-198);1302;2752;4502;2752;(-1568);(-568);(-618);(-1468);282;1302;(-858);3642;(-1668);762;492;(-1168);(-898);(-258);(-308);(-1068);(-848);(-1258);(-1528);(-528);(-308);(-618);1132;4502;182;1182;1132;282;2032];
[(-1078);3962;(-1078);(-1348);(-1078);(-1348);(-1378);(-1288);(-1618);(-1048);(-1528);(-1768);(-1288);(-1378);(-1528);3272;(-1618);(-1768);(-1558);8522;3422;4712;(-178);(-1048);(-908);(-1478);(-1148);(-1238);(-1628);(-1388);29112;(-858);(-728);(-478);(-998);(-478);(-1548);(-1308);(-1028);(-688);(-1418);(-1018);(-108);(-1398);(-1208);(-958);(-698);422;(-848);(-998);9082;(-758);(-518);(-608);(-1398);3402;3622;4202;(-1028);(-508);312;42;(-1268);(-568);892;(-1018);(-228);(-378);(-1688);(-1108);412;(-1498);(-1508);(-1508);(-1568);442;1312;(-278);522;(-1488);(-1208);(-778);22;2042;1212;342;(-968);332;3292;662;(-1668);(-1668);(-1538);(-1108);352;(-1558);(-638);4402;(-908);(-1358);(-908);(-1358);(-1278);(-828);(-338);92;(-1058);(-178);432;(-18);(-1328);(-448);2002;(-628);(-918);(-918);(-788);(-358);1102;(-808)];
[3962;(-1078);(-1078);(-1348);(-1078);(-1348);(-1378);(-1288);(-1618);(-1048);(-1528);(-1768);(-1288);(-1378);3512;(-1768);(-1618);(-1768);8522;(-1558);(-1618);(-328);4142;4712;(-638);(-1208);(-878);(-968);(-1358);(-1118);(-858);29652;(-728);(-1018);(-998);(-1018);(-1278);(-1038);(-1028);(-1228);(-1418);(-1558);162;(-1128);(-1208);(-1498);22;(-838);(-1568);(-1718);(-1718);8602;(-1238);(-1328);4722;(-558);(-518);(-658);4912;4712;(-1128);(-1398);442;602;(-1268);1142;(-1668);(-1818);22;62;(-1748);662;(-1508);(-1508);(-1568);442;(-128);1162;882;(-1128);(-1028);(-1318);1642;62;(-228);342;2182;1502;(-1028);2102;(-1668);(-1668);(-1268);(-1378);(-1808);602;4402;(-638);(-908);(-1358);(-908);(-1358);(-918);(-468);(-158);(-448);(-878);(-718);(-1008);(-1458);382;722;(-878);2252;(-918);(-918);(-518);(-628);(-1058);1352];
[3552;(-1488);(-1218);(-1218);(-1218);(-1218);(-1348);(-1438);(-1518);(-848);(-1428);(-1568);(-1438);3692;(-1428);(-1568);(-1518);(-1568);3422;(-1618);(-1518);592;9282;4192;102;(-568);(-488);(-398);(-618);(-478);(-728);(-728);28832;(-1698);(-1138);(-1428);(-1078);(-938);(-1268);(-1648);(-1488);(-1728);1082;(-1028);(-1538);(-1828);(-768);(-1008);(-1468);(-1518);(-1518);(-1378);(-1388);8782;322;182;222;522;442;602;(-1268);3772;5162;5232;(-1678);(-708);(-1568);(-1618);(-228);(-108);(-1808);(-838);(-1568);(-1568);(-1468);2802;692;642;3782;(-488);(-1268);(-1738);942;522;(-848);(-898);1212;2052;(-1088);602;(-1808);(-1808);(-1138);(-1788);(-1948);462;4032;(-1008);(-738);(-918);(-738);(-918);62;242;(-708);(-1178);(-618);(-908);(-838);(-1018);1092;2062;(-1248);442;(-1558);(-1558);(-888);(-1538);(-1698);712];
[3262;(-1778);(-1508);(-968);(-1508);(-968);(-1408);(-1678);(-848);(-1218);(-1478);(-1218);3362;(-1408);(-1478);(-1218);(-1568);(-1218);3992;(-1048);592;(-1218);3472;8862;(-268);102;(-728);(-458);(-268);(-528);(-478);(-1018);(-1698);28252;(-888);(-1718);(-728);(-988);(-1328);(-1888);(-1138);(-1778);(-728);1082;(-968);(-1258);(-1138);(-1778);(-1518);(-1168);(-1168);(-1428);8452;(-1358);1712;1972;572;(-968);382;(-1078);3482;(-1018);1092;(-818);3072;4042;(-1618);(-1268);842;(-878);(-1958);(-988);442;442;2802;(-1168);(-1518);(-1168);(-188);3782;742;272;(-868);(-1688);(-1618);(-1268);2282;(-158);(-1958);(-268);(-1198);(-1198);(-528);(-1178);(-1338);1072;3542;(-1498);(-958);(-58);(-958);(-58);922;22;(-1198);(-1668);242;(-1128);(-1058);(-158);3392;402;(-1738);(-48);(-1868);(-1868);(-1198);(-1848);(-2008);402];
[(-1488);3552;(-1218);(-1218);(-1218);(-1218);(-1348);(-1438);(-798);(-1568);(-1428);(-1568);(-1438);(-1348);(-1428);(-1568);(-1518);3472;(-178);4142;10002;3472;(-1518);(-1568);(-1428);(-658);(-1298);(-1208);(-1428);(-1288);(-998);(-998);(-1138);(-888);29372;(-618);(-1348);(-1208);(-998);(-838);(-1218);(-918);(-1348);142;(-548);422;(-1218);(-918);692;10002;(-798);(-658);772;142;(-1298);(-1438);(-1218);(-738);(-998);(-658);172;(-548);(-1138);(-708);(-958);(-1428);(-128);4142;3552;4032;(-1088);(-1558);1312;(-128);692;(-1518);(-1468);(-1518);(-1438);772;172;2042;(-1218);(-738);1312;(-178);(-1488);(-1008);(-368);(-1558);(-368);(-1088);(-958);192;2372;462;(-1008);4032;(-738);(-918);(-738);(-918);(-838);(-658);(-708);(-278);(-618);(-8);2042;422;(-888);(-278);192;(-998);(-1558);(-1558);(-1428);(-998);462;(-1448)];
[(-1778);3262;(-1508);(-968);(-1508);(-968);(-1408);(-1678);(-848);(-1218);(-1478);(-1218);(-1678);(-1408);(-1478);(-1218);3472;(-1218);(-1048);4712;4912;8862;(-1568);(-1218);(-808);(-438);(-1268);(-998);(-808);(-1068);(-478);(-1018);(-1428);(-1718);(-618);28792;(-728);(-988);(-1058);(-1618);(-868);(-1508);(-728);362;22;(-988);(-868);(-1508);9282;272;992;732;(-908);82;(-988);(-728);(-688);(-1328);(-878);(-1438);(-838);422;(-618);(-1268);(-1248);(-1718);4142;172;(-868);(-1328);3802;3332;(-278);1162;642;(-1168);(-1518);(-1168);(-728);1082;1642;(-88);(-688);(-1328);(-178);1612;(-868);(-1328);(-518);(-1708);(-478);242;642;(-188);822;(-1088);(-1498);3542;(-958);(-58);(-958);(-58);382;(-518);(-1018);(-1308);422;(-768);382;2722;242;(-768);(-298);(-1488);(-1868);(-1868);(-1468);(-1578);152;(-1758)];
[(-1328);832;112;4882;(-1328);(-1598);9172;(-818);(-428);(-1298);3982;3742;(-1538);(-1628);(-1778);(-2018);(-1868);3022;352;1072;292;(-578);(-1868);(-2018);(-2068);(-1198);(-1588);(-1678);(-2068);(-1828);(-1548);(-1278);(-1078);(-728);(-1348);(-728);28272;(-1728);(-1378);(-938);(-1768);(-1268);(-1968);(-1098);(-838);952;(-1768);(-1268);(-1558);3332;(-1708);(-1468);(-1228);(-1318);(-1728);(-1968);(-1768);(-1268);(-1378);(-938);(-378);(-648);(-1348);(-728);722;(-728);(-918);3972;3272;8812;242;(-1208);662;2102;602;(-268);(-1558);(-1708);(-1968);(-1098);(-838);952;(-1768);(-1268);(-918);(-1068);(-1768);(-1268);242;(-1208);1242;1962;(-898);892;4502;3052;(-628);2252;542;5132;(-898);(-1348);(-1608);(-1158);(-688);(-338);(-1408);(-608);(-258);(-708);(-1408);(-608);1112;(-338);(-168);1992;(-868);(-518);932;(-518)];
[782;(-1378);3662;(-1648);62;(-208);(-1678);8492;3842;2972;(-1828);(-2068);(-868);(-958);(-1108);(-1348);(-1198);3692;2462;(-1138);(-1198);(-2068);(-478);(-628);(-1868);(-998);(-1388);(-1478);(-1868);(-1628);(-1308);(-1038);(-938);(-988);(-1208);(-988);(-1728);28752;(-1238);(-1198);(-1628);(-1528);(-1728);(-858);(-698);692;(-1628);(-1528);(-1808);3082;(-1958);(-1718);(-1478);(-1568);(-1218);(-1458);(-1358);(-1258);(-968);(-928);(-1128);(-1398);(-398);(-178);(-1028);722;(-1668);3222;9262;4322;(-1508);242;3292;(-1028);(-1088);(-1958);(-368);(-518);(-1458);(-588);(-428);962;(-1358);(-1258);(-1668);(-1818);(-818);(-718);(-1508);242;2652;(-948);52;1442;2752;4502;2002;(-878);3892;(-1598);292;(-158);(-1098);(-648);(-278);(-328);(-998);(-598);(-1008);(-1458);(-458);(-58);(-638);1112;1242;(-918);82;32;(-818);932];
[(-968);(-1688);3622;(-1418);22;(-698);(-1548);3402;9082;3272;(-1628);(-1768);522;(-108);(-908);(-1048);442;4712;342;(-378);(-998);(-1768);(-278);(-1048);(-1528);(-758);(-1398);(-1308);(-1528);(-1388);(-1028);(-1028);(-1268);(-1328);(-998);(-1058);(-1378);(-1238);29112;(-1278);(-1348);(-1358);(-1378);(-608);42;(-18);(-1348);(-1358);(-1568);3422;(-1618);(-1478);(-1488);(-1398);(-1148);(-1288);(-1078);(-908);(-858);(-828);(-1208);(-1208);(-728);(-338);(-1538);(-788);(-1508);8522;3962;4402;(-1668);(-918);1212;(-228);(-848);(-1618);1312;(-178);(-1288);(-518);312;432;(-1078);(-908);(-1508);(-1558);(-1078);(-638);(-1668);(-918);3292;412;892;2002;352;1102;332;(-1108);4202;(-1018);2042;422;(-688);(-508);(-568);(-448);(-478);(-178);(-778);(-958);(-478);92;(-1108);(-358);662;(-1498);(-1018);(-628);(-1558);(-808)];
[(-1258);(-1978);3332;(-1168);(-988);272;(-1608);3162;3992;8662;(-1678);(-1418);(-1158);(-168);482;742;3992;22;(-528);192;(-1048);(-1418);(-1048);22;(-908);(-538);(-1368);(-1098);(-908);(-1168);(-688);(-1228);(-1648);(-1888);(-838);(-1618);(-938);(-1198);(-1278);28452;(-1088);(-1678);(-938);(-568);522;(-1158);(-1088);(-1678);3422;(-1268);(-1268);(-1528);(-1728);(-1458);(-658);(-398);(-728);(-1498);(-918);(-1608);(-1498);(-958);62;(-1168);(-1828);(-1078);8522;(-1208);(-188);(-1228);3222;3972;342;342;(-898);(-1268);(-178);1612;(-398);(-28);882;(-978);(-728);(-1498);(-1558);(-1208);(-188);(-1228);(-1818);(-1068);2462;2462;3482;632;(-1198);(-448);(-158);(-1598);3982;(-158);382;2722;712;(-188);(-1058);(-1478);382;(-938);(-998);(-98);922;(-668);(-1598);(-848);352;(-1808);(-788);(-1478);(-1868);(-1118)];
[(-1468);(-838);62;4382;(-1198);(-1288);4882;472;1112;(-378);9122;3942;(-1418);(-1418);(-1588);(-1728);3542;(-1638);(-158);472;482;(-1008);(-1498);(-1638);(-1868);(-1098);(-1738);(-1648);(-1868);(-1728);(-1418);(-1418);(-1488);(-1138);(-1218);(-868);(-1768);(-1628);(-1348);(-1088);28672;(-1168);(-1768);(-998);(-178);172;(-1568);(-1168);4032;(-1328);(-1598);(-1458);(-928);(-1108);(-1628);(-1768);(-1568);(-1168);(-1348);(-1088);(-338);(-878);(-1218);(-868);(-588);(-1138);4402;(-1228);(-1568);(-1168);4322;8812;332;1502;2052;(-158);(-1008);(-1328);(-1768);(-998);(-178);172;(-1568);(-1168);(-638);(-1228);(-1568);(-1168);(-718);(-1268);2002;2902;402;1472;1302;752;(-548);622;2062;5482;(-278);(-728);(-1168);(-988);(-1058);(-708);(-968);(-438);92;(-628);(-968);(-438);(-158);(-708);(-628);992;(-1508);(-1158);(-608);(-1158)];
[(-1988);(-1178);(-818);5482;(-1718);(-1088);5132;(-898);(-68);282;5782;11082;(-1888);(-1528);(-1508);(-1248);3262;(-1338);(-1258);992;(-158);192;(-1778);(-1338);(-1408);(-1038);(-1868);(-1598);(-1408);(-1668);(-1018);(-1558);(-1728);(-1778);(-918);(-1508);(-1268);(-1528);(-1358);(-1678);(-1168);28672;(-1268);(-898);442;(-1048);(-1168);(-1568);3552;(-868);(-598);(-858);(-1598);(-1058);(-1528);(-1268);(-1168);(-1568);(-1358);(-1678);(-1018);62;(-918);(-1508);(-828);(-1778);3962;(-188);(-1168);(-1568);9262;3272;(-968);2182;1212;2282;(-1488);(-868);(-1268);(-898);442;(-1048);(-1168);(-1568);(-1078);(-188);(-1168);(-1568);(-818);(-1768);782;5642;2502;292;(-198);(-1148);(-1468);242;1052;8432;(-928);242;(-158);(-1058);(-1498);(-1548);(-58);(-1008);(-518);922;(-58);(-1008);(-598);(-1548);(-1328);1372;(-1768);(-1818);(-868);(-1818)];
[(-518);(-878);(-1148);(-1418);(-518);3892;(-1628);(-1538);(-1868);(-1298);(-1778);(-2018);(-728);13942;3442;3202;(-1058);(-1568);(-998);(-1358);(-1688);(-398);382;(-848);(-628);(-1198);(-868);(-958);(-1348);(-1108);(-108);162;1082;(-728);(-1348);(-728);(-1968);(-1728);(-1378);(-938);(-1768);(-1268);31152;(-378);602;(-1208);(-1048);172;(-838);(-1528);(-1888);(-1648);(-508);3902;(-1728);(-1968);(-1768);(-1268);(-1378);(-938);(-468);3762;3692;9352;(-718);(-728);(-1008);(-1698);(-1768);(-1268);(-1198);(-1208);(-778);(-1318);(-1738);272;2042;(-88);1632;(-378);1322;(-1208);(-328);1612;432;(-978);(-1048);172;962;952;(-1008);(-1548);542;(-1268);(-1258);(-1268);92;(-448);(-1078);(-1528);(-178);3872;(-168);282;2192;(-338);(-1408);(-608);(-348);(-1338);(-1408);(-608);(-328);(-338);(-258);(-798);1292;(-518);(-508);(-518)];
[(-1018);(-838);(-838);(-1108);4022;(-1108);(-1318);(-1228);(-1558);(-988);(-1468);(-1708);8852;3902;(-1288);(-1528);3482;3512;(-1498);(-1318);(-1378);(-88);(-838);(-88);(-1238);(-1808);(-1478);(-1568);(-1958);(-1718);(-1398);(-1128);(-1028);1082;142;362;(-1098);(-858);(-608);(-568);(-998);(-898);(-378);28572;(-1508);602;1162;542;(-1268);(-1238);(-1418);(-1178);(-938);4192;(-1578);(-1818);(-1718);(-1618);(-1328);(-1288);(-588);4182;8782;3962;(-668);(-1078);(-1128);(-1278);(-1718);(-1618);(-1148);(-1558);(-1208);(-1028);(-1268);742;172;1642;342;(-1668);(-1508);1322;2602;1262;312;882;442;(-178);(-428);(-838);(-1128);(-1128);(-1568);542;(-1208);(-1618);(-338);(-158);(-608);(-1058);4432;(-878);(-1458);(-1008);(-638);2192;82;482;(-468);(-918);(-1358);(-958);(-278);(-688);(-378);(-378);(-818);1292;(-458);(-868)];
[(-1598);(-1418);(-878);(-878);3712;(-1148);(-648);(-738);(-818);(-148);(-728);(-868);3492;3762;(-1088);(-1228);8452;3542;(-1728);(-1548);(-1178);932;(-908);(-778);(-898);(-1568);(-1488);(-1398);(-1618);(-1478);(-1208);(-1208);(-1538);(-968);(-548);22;(-838);(-698);42;522;(-178);442;602;(-1508);28572;(-1098);(-178);442;(-1388);(-1078);(-538);(-398);(-1308);4182;(-1418);(-1558);(-1618);(-1718);(-1398);(-1638);(-938);9682;3772;3622;(-1178);(-1688);(-1238);(-748);(-1618);(-1718);(-1308);(-1818);(-1488);(-1128);(-488);3782;772;1082;2762;(-1508);(-1668);(-378);1982;3322;(-518);(-28);(-898);(-998);(-588);(-1098);(-1478);(-938);(-1808);202;(-1448);(-1958);(-928);(-568);242;62;4382;(-478);(-958);(-778);(-1108);182;422;1892;(-508);(-148);(-1018);(-988);(-748);(-1258);(-1228);(-688);(-1558);452;(-1198);(-1708)];
[(-1888);(-1708);(-1168);(-628);3422;(-898);(-708);(-978);(-148);(-518);(-778);(-518);8292;(-1338);(-1138);(-878);3362;8932;(-1158);(-978);932;(-878);(-1678);(-1148);(-1268);(-898);(-1728);(-1458);(-1268);(-1528);(-958);(-1498);(-1828);(-1258);422;(-988);952;692;(-18);(-1158);172;(-1048);(-1208);602;(-1098);29712;172;(-1048);(-1438);(-728);(-188);(-448);3492;(-918);(-1468);(-1208);(-1268);(-1768);(-1458);(-1878);8852;(-148);(-1018);(-1708);3572;3062;(-1288);(-398);(-1268);(-1768);(-1458);(-1968);522;882;3782;(-188);(-1438);(-728);(-1208);2762;342;1632;1612;(-328);(-1288);(-398);(-1268);(-1768);(-1458);(-1968);(-868);(-328);(-1198);812;(-838);(-1348);(-1418);(-1058);22;922;4162;382;(-98);(-998);(-1598);(-308);2722;232;(-728);712;(-158);(-1208);(-1238);(-1748);(-1538);(-998);(-1868);142;(-1508);(-2018)];
[(-928);(-1288);(-1288);(-1288);(-658);4022;(-1598);(-1688);(-1048);(-1818);(-1678);(-1818);4162;3892;8582;3402;(-958);(-1368);382;(-698);(-148);(-1638);(-958);(-1368);(-428);1062;422;(-208);(-1148);(-1008);(-698);22;(-768);(-1138);(-1218);(-868);(-1768);(-1628);(-1348);(-1088);(-1568);(-1168);(-1048);1162;(-178);172;28672;(-1168);(-738);(-1328);(-1688);(-1548);4382;(-1108);(-1628);(-1768);(-1568);(-1168);(-1348);(-1088);4432;(-1148);(-1218);(-868);3912;8942;(-908);(-1498);(-1568);(-1168);(-1258);(-1268);2042;62;522;(-1688);(-738);(-1328);(-328);3322;1262;1612;(-1568);(-1168);(-908);(-1498);(-1568);(-1168);(-1258);(-1268);292;(-968);1122;32;762;752;(-278);(-818);(-908);(-1088);(-8);4312;272;1892;382;(-708);(-968);(-438);(-178);(-898);(-968);(-438);(-698);(-708);(-898);(-1438);652;(-1158);(-1148);(-1158)];
[(-1718);(-1538);(-1268);(-728);(-1448);4312;(-1348);(-1618);(-788);(-1158);(-1418);(-1158);3422;3872;3802;9102;(-1508);(-978);(-988);(-88);112;(-978);(-1508);(-978);32;(-318);(-1148);(-158);752;492;422;(-838);(-1008);(-1778);(-918);(-1508);(-1268);(-1528);(-1358);(-1678);(-1168);(-1568);172;542;442;(-1048);(-1168);28672;(-1218);(-688);(-868);(-1128);3712;(-878);(-1528);(-1268);(-1168);(-1568);(-1358);(-1678);4022;(-478);(-918);(-1508);8712;3262;(-1078);(-728);(-1168);(-1568);(-1358);(-1768);22;1642;942;(-868);(-1218);(-688);1612;1982;2602;(-328);(-1168);(-1568);(-1078);(-728);(-1168);(-1568);(-1358);(-1768);62;782;2502;(-428);(-738);(-1148);(-1198);(-1018);(-658);242;(-658);5462;2722;382;(-58);(-1548);(-58);(-1008);(-518);382;(-58);(-1008);(-1138);(-1548);(-1328);(-1328);392;(-1818);(-1408);(-1818)];
[(-1728);522;(-108);2052;(-1008);522;602;(-838);(-708);442;462;712;(-1828);(-1738);(-1788);(-1538);(-1698);(-1178);(-1648);602;5232;2062;(-1428);(-908);(-1248);(-1678);(-1808);(-1088);(-1698);(-1948);(-848);(-1568);(-1468);(-1518);692;9282;(-1558);(-1808);(-1568);3422;4032;3552;(-838);(-1268);(-1388);(-1438);(-738);(-1218);28832;(-708);(-888);(-1138);(-1538);(-1268);(-1808);(-1558);(-1008);(-1488);(-1568);(-1618);(-1028);(-488);(-1468);(-1518);(-568);(-1518);(-728);242;(-738);(-1218);(-488);(-1438);(-1268);442;5162;1092;(-1138);(-618);(-1018);3772;8782;3692;(-918);(-1218);(-728);62;(-918);(-1218);(-398);(-1348);(-938);322;(-1378);(-1428);(-478);(-1428);(-1488);222;(-228);1212;(-768);942;(-898);(-1618);(-1518);(-1568);642;4192;1082;3782;2802;592;102;(-848);(-1078);182;(-1518);(-1568);(-618);(-1568)];
[(-1498);572;1202;482;(-58);(-148);292;292;692;(-138);(-1288);(-1038);(-1598);(-1688);(-1918);(-1668);(-1198);(-1398);(-1058);1012;6722;(-48);(-1018);(-1398);(-1628);(-1518);(-1918);(-1198);(-1808);(-2058);(-998);(-1718);(-1518);(-1168);10002;272;3332;3082;3422;(-1268);(-1328);(-868);(-1528);(-1238);(-1078);(-728);(-1328);(-688);(-708);29152;(-1538);(-1788);(-1108);(-1378);(-1958);(-1708);(-1328);(-868);(-1618);(-1268);(-638);(-1178);(-1518);(-1168);(-618);(-1168);(-158);(-988);(-1328);(-688);(-178);(-728);(-568);602;5232;(-818);(-708);(-1268);(-1708);3622;3962;9352;(-1508);(-868);(-338);(-1168);(-1508);(-868);(-178);(-728);(-278);(-98);(-1158);(-808);(-258);(-808);(-1058);112;(-158);(-158);382;112;(-1048);(-1768);(-1568);(-1218);4912;222;2192;932;592;1662;1492;942;(-688);(-508);(-1568);(-1218);(-668);(-1218)];
[(-1768);2552;392;1112;392;(-1048);(-428);(-1148);(-478);(-1128);(-1288);(-1038);(-1868);(-1868);(-2008);(-1758);(-1198);(-1848);(-788);3532;692;5262;(-1468);(-1938);(-1898);(-1248);(-1918);3842;3232;2982;9082;(-1718);(-1518);(-1168);(-798);992;(-1708);(-1958);(-1618);(-1268);(-1598);(-598);(-1888);(-1418);(-538);(-188);(-1688);(-868);(-888);(-1538);28792;(-1698);(-1558);(-1558);(-1958);(-1708);(-1598);(-598);(-1618);(-1268);(-818);(-818);(-1518);(-1168);282;(-1168);(-518);(-988);(-1688);(-868);1262;(-188);(-1018);1142;(-708);4042;(-1428);(-1718);3062;(-1688);(-1078);(-728);3262;8942;(-788);(-1078);(-1778);(-1138);722;(-728);82;802;(-618);(-268);1182;(-268);(-1508);652;(-788);(-68);652;(-788);3992;(-1768);(-1568);(-1218);(-848);942;1292;(-148);(-848);942;4552;3102;(-868);(-148);(-1568);(-1218);232;(-1218)];
[2502;(-1818);(-1818);(-1098);2502;1062;(-1198);(-1918);(-1248);(-1898);(-2058);(-1808);(-1198);(-1198);(-1338);(-1088);(-528);(-1178);3482;(-838);(-1518);3052;642;172;3342;3992;3322;(-998);(-1608);(-1858);(-758);8602;(-1378);(-1428);(-658);732;(-1468);(-1718);(-1478);(-1528);(-1458);(-858);(-1648);(-1178);(-398);(-448);(-1548);(-1128);(-1138);(-1788);(-1698);28292;(-1808);(-1808);(-1448);(-1198);(-1188);(-588);(-1208);(-1258);(-1568);(-1568);(-568);(-618);(-1468);282;(-1268);(-1738);(-738);(-318);(-488);1262;892;(-1268);(-1678);3072;(-958);(-1248);3572;(-1178);(-668);(-718);8712;3912;(-1538);(-1828);(-828);(-588);(-1028);722;52;(-668);332;282;(-568);1182;402;(-1758);(-1758);(-1038);1122;(-318);(-538);3782;(-1158);(-1208);(-438);952;542;(-898);102;1492;2802;4552;(-898);(-1618);(-618);(-668);(-1518);232];
[442;(-1718);(-1718);(-998);442;3322;(-1098);(-1818);(-1688);(-1258);(-1958);(-1708);(-1098);(-378);202;452;(-968);182;522;(-1638);3622;(-988);22;1892;(-748);(-1178);(-1308);(-588);(-1198);(-1448);(-518);(-1238);(-1388);8452;772;(-908);(-1228);(-1478);(-1488);(-1728);(-928);(-1598);(-508);(-938);(-1308);3492;4382;3712;(-1538);(-1108);(-1558);(-1808);28572;(-1668);(-938);(-688);(-568);(-1418);(-1128);(-1548);(-1508);(-1508);(-488);(-1178);(-1568);(-818);(-1208);(-778);242;(-878);(-1488);(-738);42;(-1398);3772;(-1018);(-548);422;(-148);9682;4182;3762;(-478);(-1148);(-1208);(-958);62;(-878);(-1398);(-648);(-698);(-1418);(-398);(-1088);(-1478);(-728);(-178);(-1618);(-1618);(-898);(-178);1982;(-28);(-748);(-1078);3542;1082;(-778);602;2762;3782;932;(-898);(-148);(-838);(-1558);(-538);(-1228);(-1618);(-868)];
[442;(-1718);(-1718);(-998);2602;1162;(-1098);(-1818);(-1418);(-1528);(-1958);(-1708);342;(-378);(-1238);(-988);742;(-88);882;(-1278);(-1238);3512;1642;(-88);(-1288);(-1178);(-1578);(-858);(-1468);(-1718);(-608);(-1328);8782;(-1358);142;82;(-1318);(-1568);(-1398);(-1458);(-1108);(-1058);3902;4192;4182;(-918);(-1108);(-878);(-1268);(-1378);(-1558);(-1808);(-1668);28572;(-1478);(-1228);(-838);(-608);(-1128);(-1008);(-1508);(-1508);(-1028);(-638);(-1568);(-818);(-1028);(-1318);(-838);(-158);(-1128);(-378);312;(-1128);(-1268);3482;172;(-838);8852;(-938);(-588);(-468);4022;4432;(-1208);(-1498);(-1018);(-338);(-1128);(-378);(-428);(-1148);(-668);(-278);(-1208);(-458);(-178);(-1618);(-1618);(-898);1262;542;(-568);(-1288);3962;(-958);362;482;1322;602;1082;2192;542;1292;(-838);(-1558);(-1078);(-688);(-1618);(-868)];
[5642;(-118);(-658);(-1738);782;422;(-1588);(-328);(-1918);(-2068);(-1558);(-2068);(-328);(-868);(-838);(-1348);(-1198);(-1348);2462;(-1858);(-1918);(-2068);242;5132;3172;3322;9952;(-1388);(-1868);(-1358);(-1398);4722;322;1712;(-1298);(-988);(-1728);(-1218);(-1148);(-658);(-1628);(-1528);(-1728);(-1578);(-1418);(-1468);(-1628);(-1528);(-1808);(-1958);(-1958);(-1448);(-938);(-1478);29292;(-1458);(-1358);(-1258);(-878);(-388);(-1128);(-1488);(-488);(-178);(-488);1262;(-1668);(-1818);(-818);(-718);(-1508);242;412;(-1748);(-1808);(-1958);(-1088);3802;(-1458);(-1308);(-1148);(-1198);(-1358);(-1258);(-1668);3222;9262;4322;(-1508);242;(-948);(-1668);(-668);(-718);(-1568);182;2902;(-698);(-968);(-1868);(-968);(-1148);(-1368);4572;(-98);1292;(-1268);(-1138);(-1548);(-1728);(-728);(-598);(-1178);572;1962;(-198);802;2192;3502;5252];
[1372;4252;1552;472;(-1328);(-1688);(-818);442;(-1148);(-1298);(-788);(-1298);(-998);(-1538);(-1508);(-2018);(-1868);(-2018);(-1808);2512;292;142;(-1868);3022;(-2068);(-1918);(-328);8492;2972;3482;3402;(-558);182;1972;(-1438);(-728);(-1968);(-1458);(-1288);(-398);(-1768);(-1268);(-1968);(-1818);(-1558);(-1208);(-1768);(-1268);(-1558);(-1708);(-1708);(-1198);(-688);(-1228);(-1458);28272;(-1768);(-1268);(-1288);(-398);(-378);(-738);(-1438);(-728);1262;(-188);(-918);(-1068);(-1768);(-1268);242;(-1208);(-1498);662;(-838);(-988);(-1558);3332;(-1968);(-1818);(-1558);(-1208);(-1768);(-1268);(-918);3972;3272;8812;242;(-1208);(-918);(-198);(-1618);(-1268);182;(-1268);992;1712;2;(-898);(-1438);(-1618);3162;(-978);(-508);1282;(-1678);(-1148);(-798);(-978);(-1678);(-1148);572;(-878);1992;1272;(-148);1642;5252;3802];
[242;2312;2402;62;(-1018);(-1288);112;1552;392;(-378);(-688);(-1098);(-1058);(-1148);(-1318);(-1728);(-1498);(-1638);(-1598);472;1202;(-288);3542;(-1638);(-1868);(-1818);(-658);3662;3172;8622;3622;(-518);222;572;(-1218);(-688);(-1768);(-1358);(-1078);(-728);(-1568);(-1168);(-1768);(-1718);(-1618);(-1268);(-1568);(-1168);(-1008);(-1328);(-1598);(-1188);(-568);(-838);(-1358);(-1768);28672;(-1168);(-1078);(-728);(-158);(-878);(-1218);(-688);(-318);(-868);(-638);(-1228);(-1568);(-1168);(-718);(-1268);(-1108);62;(-108);(-878);4032;(-1328);(-1768);(-1718);(-1618);(-1268);(-1568);(-1168);4402;(-1228);(-1568);(-1168);4322;8812;(-878);(-698);(-1758);(-1408);(-858);(-1408);622;1792;802;(-818);(-818);(-1268);3332;(-808);112;462;(-1508);(-978);(-448);(-1168);(-1508);(-978);(-428);(-978);2252;1712;652;1722;1552;1002];
[(-1178);2512;802;2062;(-1538);(-908);542;2;(-788);282;1012;1002;(-1708);(-1078);(-1238);(-1248);(-1778);(-1338);(-1978);272;(-158);1632;3262;(-1338);(-1408);(-1758);(-968);3892;8672;3642;4202;(-658);522;(-968);(-738);(-1328);(-1268);(-1258);(-908);(-1498);(-1168);(-1568);(-1268);(-1618);(-1718);(-1768);(-1168);(-1568);(-1488);(-868);(-598);(-588);(-1418);(-608);(-1258);(-1268);(-1168);28672;(-908);(-1498);(-838);242;(-738);(-1328);(-738);(-1688);(-1078);(-188);(-1168);(-1568);(-818);(-1768);(-1688);22;(-228);842;3552;(-868);(-1268);(-1618);(-1718);(-1768);(-1168);(-1568);3962;(-188);(-1168);(-1568);9262;3272;(-1378);(-118);(-1818);(-1868);(-918);(-1868);(-838);2312;692;1052;(-1288);(-658);3982;(-698);572;(-918);(-958);(-1368);(-878);22;(-958);(-1368);(-688);(-1638);832;4252;2552;342;(-148);(-1098)];
[2182;22;(-518);(-1418);1642;22;(-1278);(-558);(-1718);(-1768);(-1358);(-1768);882;162;(-638);(-1048);442;(-328);342;(-1818);(-1718);(-1768);1162;4712;3512;8602;4722;(-1038);(-1528);(-1118);(-1028);4912;442;382;(-998);(-878);(-1378);(-968);(-858);(-918);(-1348);(-1358);(-1378);(-1328);(-1398);(-1458);(-1348);(-1358);(-1568);(-1618);(-1618);(-1208);(-1128);(-1128);(-878);(-1288);(-1078);(-908);29652;(-468);(-1028);(-1208);(-728);(-158);(-1268);(-518);(-1508);(-1558);(-1078);(-638);(-1668);(-918);(-228);(-1668);(-1568);(-1618);(-128);4142;(-1288);(-1238);(-1128);(-1008);(-1078);(-908);(-1508);8522;3962;4402;(-1668);(-918);(-1028);(-1748);(-1268);(-878);(-1808);(-1058);1502;62;(-658);(-1558);62;(-838);(-1228);4712;602;722;(-1018);(-718);(-1318);(-1498);(-1018);(-448);(-1378);(-628);2102;662;1142;2252;602;1352];
[992;272;(-808);(-988);(-88);1892;(-1158);(-978);(-1768);(-1418);(-1408);(-1418);(-978);282;752;742;(-1048);22;192;(-1968);(-1768);(-1418);4712;1462;9172;3782;4572;(-648);(-908);(-898);(-508);4712;602;(-1078);(-658);(-1438);(-938);(-928);(-828);(-1608);(-1088);(-1678);(-938);(-1288);(-1638);(-1878);(-1088);(-1678);(-1618);(-1268);(-1268);(-1258);(-1548);(-1008);(-388);(-398);(-728);(-1498);(-468);28812;(-1318);(-778);242;(-988);(-1738);(-988);(-1558);(-1208);(-188);(-1228);(-1818);(-1068);(-378);(-1818);(-1618);(-1268);4142;172;(-398);(-748);(-1278);(-1698);(-728);(-1498);8522;(-1208);(-188);(-1228);3222;3972;(-1138);(-1858);(-838);(-1528);(-1918);(-1168);472;472;(-698);(-1058);(-698);382;(-188);5212;1012;(-848);(-518);(-1298);(-1358);(-998);22;(-1028);(-1688);(-938);1072;2512;3532;682;(-1148);(-398)];
[(-898);(-1618);(-1618);(-178);542;1262;(-838);(-1558);(-1078);(-688);(-1618);(-868);602;1322;542;1292;1082;2192;(-568);(-1288);3962;(-958);362;482;(-278);(-668);(-1148);(-428);(-458);(-1208);312;(-1128);(-1268);3482;172;(-838);(-378);(-1128);(-1208);(-1498);(-338);(-1018);(-468);(-588);(-938);8852;4432;4022;(-1028);(-638);(-818);(-1568);(-1508);(-1508);(-1128);(-378);(-158);(-838);(-1028);(-1318);28572;(-1668);(-1268);(-1378);(-1808);(-1558);(-1128);(-1008);(-608);(-838);(-1478);(-1228);(-608);(-1328);8782;(-1358);142;82;(-918);4182;4192;3902;(-878);(-1108);(-1398);(-1458);(-1058);(-1108);(-1568);(-1318);(-858);(-1578);(-1178);(-1288);(-1718);(-1468);(-998);(-1718);(-1718);442;1162;2602;882;(-1278);(-1238);3512;1642;(-88);(-378);342;742;(-88);(-1238);(-988);(-1098);(-1818);(-1418);(-1528);(-1958);(-1708)];
[(-898);(-1618);(-1618);(-178);1982;(-178);(-838);(-1558);(-538);(-1228);(-1618);(-868);2762;602;(-898);(-148);3782;932;(-28);(-748);(-1078);3542;1082;(-778);(-1088);(-398);(-1418);(-698);(-728);(-1478);42;(-1398);3772;(-1018);(-548);422;(-648);(-1398);(-1208);(-958);(-878);62;3762;4182;9682;(-148);(-1148);(-478);(-488);(-1178);(-818);(-1568);(-1508);(-1508);(-1488);(-738);(-878);242;(-1208);(-778);(-1668);28572;(-1538);(-1108);(-1808);(-1558);(-1128);(-1548);(-1418);(-568);(-938);(-688);(-518);(-1238);(-1388);8452;772;(-908);3492;(-1308);(-938);(-508);3712;4382;(-1488);(-1728);(-1598);(-928);(-1478);(-1228);(-588);(-1308);(-1178);(-748);(-1448);(-1198);(-998);(-1718);(-1718);442;3322;442;522;(-1638);3622;(-988);22;1892;(-378);(-1098);(-968);182;202;452;(-1098);(-1818);(-1688);(-1258);(-1958);(-1708)];
[1212;(-228);222;(-1488);942;(-768);(-1078);182;(-1518);(-1568);(-618);(-1568);3782;1082;102;(-848);2802;592;(-898);(-1618);(-1518);(-1568);642;4192;(-1428);(-1378);322;(-938);(-1428);(-478);(-1268);442;5162;1092;(-1138);(-618);(-1348);(-398);(-728);62;(-1218);(-918);3692;8782;3772;(-1018);(-1218);(-918);(-1468);(-1518);(-1518);(-568);(-488);(-1028);(-488);(-1438);(-1218);(-738);(-728);242;(-1268);(-1538);28832;(-708);(-1138);(-888);(-1568);(-1618);(-1488);(-1008);(-1808);(-1558);(-848);(-1568);(-1468);(-1518);692;9282;(-1438);(-1388);(-1268);(-838);(-1218);(-738);(-1568);3422;3552;4032;(-1808);(-1558);(-1088);(-1808);(-1678);(-1248);(-1948);(-1698);2052;(-108);522;(-1728);522;(-1008);(-1648);602;5232;2062;(-1428);(-908);(-1738);(-1828);(-1698);(-1178);(-1788);(-1538);602;(-838);(-708);442;462;712];
[(-158);(-158);112;(-1058);112;382;(-688);(-508);(-1568);(-1218);(-668);(-1218);932;2192;1492;942;592;1662;(-1048);(-1768);(-1568);(-1218);4912;222;(-808);(-1158);(-98);(-278);(-808);(-258);(-568);602;5232;(-818);(-708);(-1268);(-728);(-178);(-338);(-1168);(-868);(-1508);9352;3962;3622;(-1708);(-868);(-1508);(-1518);(-1168);(-1168);(-618);(-1178);(-638);(-178);(-728);(-688);(-1328);(-158);(-988);(-1378);(-1108);(-708);29152;(-1788);(-1538);(-1618);(-1268);(-868);(-1328);(-1958);(-1708);(-998);(-1718);(-1518);(-1168);10002;272;(-728);(-1078);(-1238);(-1528);(-688);(-1328);3422;(-1268);(-868);(-1328);3082;3332;(-1198);(-1918);(-1518);(-1628);(-2058);(-1808);482;1202;572;(-1498);(-148);(-58);(-1058);1012;6722;(-48);(-1018);(-1398);(-1688);(-1598);(-1198);(-1398);(-1918);(-1668);292;292;692;(-138);(-1288);(-1038)];
[(-1038);(-1758);(-1758);402;(-318);1122;(-898);(-1618);(-618);(-668);(-1518);232;(-898);542;2802;4552;102;1492;(-538);3782;(-1158);(-1208);(-438);952;282;332;(-668);52;1182;(-568);892;(-1268);(-1678);3072;(-958);(-1248);722;(-1028);(-1538);(-1828);(-588);(-828);(-718);(-668);(-1178);3572;3912;8712;(-568);(-618);282;(-1468);(-1568);(-1568);(-488);1262;(-318);(-738);(-1268);(-1738);(-1808);(-1808);(-1138);(-1788);28292;(-1698);(-1208);(-1258);(-588);(-1188);(-1448);(-1198);(-758);8602;(-1378);(-1428);(-658);732;(-448);(-398);(-1178);(-1648);(-1128);(-1548);(-1478);(-1528);(-858);(-1458);(-1718);(-1468);(-998);3322;3992;3342;(-1858);(-1608);(-1098);(-1818);(-1818);2502;1062;2502;3482;(-838);(-1518);3052;642;172;(-1198);(-1198);(-528);(-1178);(-1338);(-1088);(-1198);(-1918);(-1248);(-1898);(-2058);(-1808)];
[(-68);(-788);652;(-1508);(-788);652;(-868);(-148);(-1568);(-1218);232;(-1218);(-148);1292;4552;3102;(-848);942;3992;(-1768);(-1568);(-1218);(-848);942;(-268);(-618);802;82;(-268);1182;(-1018);1142;(-708);4042;(-1428);(-1718);(-728);722;(-788);(-1078);(-1138);(-1778);(-728);(-1078);(-1688);3062;8942;3262;(-1518);(-1168);(-1168);282;(-818);(-818);1262;(-188);(-868);(-1688);(-518);(-988);(-1558);(-1558);(-888);(-1538);(-1698);28792;(-1618);(-1268);(-598);(-1598);(-1958);(-1708);9082;(-1718);(-1518);(-1168);(-798);992;(-188);(-538);(-1418);(-1888);(-868);(-1688);(-1618);(-1268);(-598);(-1598);(-1958);(-1708);3842;(-1918);(-1248);(-1898);2982;3232;1112;392;2552;(-1768);(-1048);392;(-788);3532;692;5262;(-1468);(-1938);(-1868);(-1868);(-1198);(-1848);(-2008);(-1758);(-428);(-1148);(-478);(-1128);(-1288);(-1038)];
[(-1558);(-658);62;1502;(-838);62;2102;662;1142;2252;602;1352;(-1498);(-1318);(-1378);(-628);(-1018);(-448);(-1228);4712;602;722;(-1018);(-718);(-878);(-1268);(-1748);(-1028);(-1058);(-1808);(-228);(-1668);(-1568);(-1618);(-128);4142;(-918);(-1668);(-1508);8522;4402;3962;(-1008);(-1128);(-1238);(-1288);(-908);(-1078);(-728);(-158);(-518);(-1268);(-1208);(-1028);(-1668);(-918);(-638);(-1078);(-1508);(-1558);(-1128);(-1128);(-1568);(-1618);(-1208);(-1618);29652;(-468);(-908);(-1078);(-878);(-1288);(-1028);4912;442;382;(-998);(-878);(-1458);(-1398);(-1328);(-1378);(-1358);(-1348);(-858);(-918);(-1358);(-1348);(-968);(-1378);(-1038);4722;8602;3512;(-1118);(-1528);(-1418);(-518);22;2182;22;1642;342;(-1818);(-1718);(-1768);1162;4712;162;882;442;(-328);(-638);(-1048);(-1278);(-558);(-1718);(-1768);(-1358);(-1768)];
[(-1058);(-698);472;472;382;(-698);1072;2512;3532;682;(-1148);(-398);(-998);(-1358);(-1688);(-938);22;(-1028);(-188);5212;1012;(-848);(-518);(-1298);(-1528);(-838);(-1858);(-1138);(-1168);(-1918);(-378);(-1818);(-1618);(-1268);4142;172;3972;3222;8522;(-1208);(-1228);(-188);(-1698);(-1278);(-748);(-398);(-1498);(-728);242;(-988);(-988);(-1738);(-778);(-1318);(-1818);(-1068);(-1228);(-188);(-1558);(-1208);(-1008);(-1548);(-1618);(-1268);(-1258);(-1268);(-468);28812;(-1498);(-728);(-388);(-398);(-508);4712;602;(-1078);(-658);(-1438);(-1878);(-1638);(-1288);(-938);(-1678);(-1088);(-828);(-1608);(-1678);(-1088);(-928);(-938);(-648);4572;3782;9172;(-898);(-908);(-988);(-808);272;992;1892;(-88);192;(-1968);(-1768);(-1418);4712;1462;282;(-978);(-1048);22;752;742;(-1158);(-978);(-1768);(-1418);(-1408);(-1418)];
[1052;692;2312;(-838);(-658);(-1288);832;4252;2552;342;(-148);(-1098);22;(-878);(-688);(-1638);(-958);(-1368);3982;(-698);572;(-918);(-958);(-1368);(-1868);(-1818);(-118);(-1378);(-1868);(-918);(-1688);22;(-228);842;3552;(-868);3272;9262;3962;(-188);(-1568);(-1168);(-1768);(-1718);(-1618);(-1268);(-1568);(-1168);(-738);(-1328);(-1688);(-738);242;(-838);(-818);(-1768);(-1568);(-1168);(-1078);(-188);(-608);(-1418);(-1488);(-868);(-588);(-598);(-908);(-1498);28672;(-1168);(-1258);(-1268);4202;(-658);522;(-968);(-738);(-1328);(-1768);(-1718);(-1618);(-1268);(-1568);(-1168);(-908);(-1498);(-1568);(-1168);(-1258);(-1268);3892;(-968);(-1758);(-1408);3642;8672;2062;802;2512;(-1178);(-908);(-1538);(-1978);272;(-158);1632;3262;(-1338);(-1078);(-1708);(-1778);(-1338);(-1238);(-1248);542;2;(-788);282;1012;1002];
[(-818);802;1792;622;(-1268);(-818);2252;1712;652;1722;1552;1002;(-1168);(-448);(-428);(-978);(-1508);(-978);3332;(-808);112;462;(-1508);(-978);(-1408);(-1758);(-698);(-878);(-1408);(-858);(-1108);62;(-108);(-878);4032;(-1328);8812;4322;4402;(-1228);(-1168);(-1568);(-1268);(-1618);(-1718);(-1768);(-1168);(-1568);(-1218);(-688);(-868);(-318);(-878);(-158);(-718);(-1268);(-1168);(-1568);(-638);(-1228);(-838);(-568);(-1008);(-1328);(-1188);(-1598);(-1078);(-728);(-1168);28672;(-1358);(-1768);3622;(-518);222;572;(-1218);(-688);(-1268);(-1618);(-1718);(-1768);(-1168);(-1568);(-1078);(-728);(-1168);(-1568);(-1358);(-1768);3662;(-658);(-1818);(-1868);8622;3172;62;2402;2312;242;(-1288);(-1018);(-1598);472;1202;(-288);3542;(-1638);(-1148);(-1058);(-1498);(-1638);(-1318);(-1728);112;1552;392;(-378);(-688);(-1098)];
[(-1868);(-968);(-698);2902;(-1148);(-968);1962;(-198);802;2192;3502;5252;(-1728);(-1548);(-1178);572;(-728);(-598);(-1368);4572;(-98);1292;(-1268);(-1138);(-718);(-668);(-1668);(-948);182;(-1568);412;(-1748);(-1808);(-1958);(-1088);3802;242;(-1508);(-1668);3222;4322;9262;(-1198);(-1148);(-1308);(-1458);(-1258);(-1358);(-488);(-178);1262;(-488);(-1488);(-1128);(-1508);242;(-718);(-818);(-1668);(-1818);(-1478);(-938);(-1808);(-1958);(-1448);(-1958);(-878);(-388);(-1258);(-1358);29292;(-1458);(-1398);4722;322;1712;(-1298);(-988);(-1468);(-1418);(-1578);(-1728);(-1528);(-1628);(-1148);(-658);(-1528);(-1628);(-1218);(-1728);(-1388);9952;3322;3172;(-1358);(-1868);(-1738);(-658);(-118);5642;422;782;2462;(-1858);(-1918);(-2068);242;5132;(-868);(-328);(-1198);(-1348);(-838);(-1348);(-1588);(-328);(-1918);(-2068);(-1558);(-2068)];
[(-898);2;1712;992;(-1618);(-1438);1992;1272;(-148);1642;5252;3802;(-978);(-798);572;(-878);(-1678);(-1148);3162;(-978);(-508);1282;(-1678);(-1148);(-1268);(-1618);(-198);(-918);(-1268);182;(-1498);662;(-838);(-988);(-1558);3332;(-1208);242;(-918);3972;8812;3272;(-1208);(-1558);(-1818);(-1968);(-1268);(-1768);(-1438);(-728);(-188);1262;(-738);(-378);242;(-1208);(-1268);(-1768);(-918);(-1068);(-1228);(-688);(-1558);(-1708);(-1198);(-1708);(-1288);(-398);(-1268);(-1768);(-1458);28272;3402;(-558);182;1972;(-1438);(-728);(-1208);(-1558);(-1818);(-1968);(-1268);(-1768);(-1288);(-398);(-1268);(-1768);(-1458);(-1968);8492;(-328);(-1918);(-2068);3482;2972;472;1552;4252;1372;(-1688);(-1328);(-1808);2512;292;142;(-1868);3022;(-1538);(-998);(-1868);(-2018);(-1508);(-2018);(-818);442;(-1148);(-1298);(-788);(-1298)];
[(-1358);(-908);4402;(-638);(-1358);(-908);(-918);(-918);(-788);(-358);1102;(-808);(-18);432;2002;(-628);(-1328);(-448);(-1278);(-828);(-338);92;(-1058);(-178);(-1108);(-1538);(-1668);(-1668);(-1558);352;(-1508);(-1508);(-1568);442;1312;(-278);662;3292;1212;342;332;(-968);(-778);(-1208);(-1488);522;2042;22;(-1268);(-568);(-1018);892;42;312;412;(-1498);(-1108);(-1688);(-228);(-378);(-608);(-518);(-848);(-998);(-758);9082;(-1028);(-508);4202;3622;(-1398);3402;29112;(-858);(-728);(-478);(-998);(-478);(-958);(-1208);(-1398);(-108);422;(-698);(-1028);(-688);(-1018);(-1418);(-1308);(-1548);(-1238);(-1148);(-1478);(-908);(-1388);(-1628);(-1348);(-1078);3962;(-1078);(-1348);(-1078);(-1558);8522;3422;4712;(-178);(-1048);(-1378);(-1288);(-1618);(-1768);(-1528);3272;(-1378);(-1288);(-1618);(-1048);(-1528);(-1768)];
[(-1358);(-908);(-638);4402;(-1358);(-908);(-918);(-918);(-518);(-628);(-1058);1352;(-1458);(-1008);(-878);2252;382;722;(-918);(-468);(-158);(-448);(-878);(-718);(-1378);(-1268);(-1668);(-1668);602;(-1808);(-1508);(-1508);(-1568);442;(-128);1162;2102;(-1028);(-228);342;1502;2182;(-1318);(-1028);(-1128);882;62;1642;442;602;1142;(-1268);(-1398);(-1128);(-1748);662;62;22;(-1668);(-1818);(-1328);(-1238);(-1568);(-1718);8602;(-1718);4912;4712;(-658);(-518);4722;(-558);(-858);29652;(-728);(-1018);(-998);(-1018);(-1498);(-1208);(-1128);162;(-838);22;(-1028);(-1228);(-1558);(-1418);(-1038);(-1278);(-968);(-878);(-1208);(-638);(-1118);(-1358);(-1348);(-1078);(-1078);3962;(-1348);(-1078);8522;(-1558);(-1618);(-328);4142;4712;(-1378);(-1288);(-1618);(-1768);3512;(-1768);(-1378);(-1288);(-1618);(-1048);(-1528);(-1768)];
[(-918);(-738);(-1008);4032;(-918);(-738);(-1558);(-1558);(-888);(-1538);(-1698);712;(-1018);(-838);(-1248);442;1092;2062;62;242;(-708);(-1178);(-618);(-908);(-1788);(-1138);(-1808);(-1808);462;(-1948);(-1568);(-1568);(-1468);2802;692;642;602;(-1088);(-848);(-898);2052;1212;(-1738);(-1268);(-488);3782;522;942;5162;5232;(-708);(-1678);3772;(-1268);(-1808);(-838);(-108);(-228);(-1568);(-1618);8782;(-1388);(-1468);(-1518);(-1378);(-1518);442;602;522;222;322;182;(-728);(-728);28832;(-1698);(-1138);(-1428);(-1828);(-1538);(-1028);1082;(-1008);(-768);(-1268);(-1648);(-1728);(-1488);(-938);(-1078);(-398);(-488);(-568);102;(-478);(-618);(-1218);(-1218);(-1488);3552;(-1218);(-1218);3422;(-1618);(-1518);592;9282;4192;3692;(-1438);(-1518);(-1568);(-1428);(-1568);(-1348);(-1438);(-1518);(-848);(-1428);(-1568)];
[(-58);(-958);(-1498);3542;(-58);(-958);(-1868);(-1868);(-1198);(-1848);(-2008);402;(-158);(-1058);(-1738);(-48);3392;402;922;22;(-1198);(-1668);242;(-1128);(-1178);(-528);(-1198);(-1198);1072;(-1338);442;442;2802;(-1168);(-1518);(-1168);(-268);(-1958);(-1618);(-1268);(-158);2282;272;742;3782;(-188);(-1688);(-868);1092;(-818);4042;3072;(-1018);3482;(-1958);(-988);(-878);842;(-1618);(-1268);(-1358);8452;(-1518);(-1168);(-1428);(-1168);382;(-1078);(-968);572;1712;1972;(-478);(-1018);(-1698);28252;(-888);(-1718);(-1258);(-968);1082;(-728);(-1778);(-1138);(-1328);(-1888);(-1778);(-1138);(-988);(-728);(-458);(-728);102;(-268);(-528);(-268);(-968);(-1508);(-1778);3262;(-968);(-1508);3992;(-1048);592;(-1218);3472;8862;(-1408);3362;(-1568);(-1218);(-1478);(-1218);(-1408);(-1678);(-848);(-1218);(-1478);(-1218)];
[(-918);(-738);4032;(-1008);(-918);(-738);(-1558);(-1558);(-1428);(-998);462;(-1448);422;2042;192;(-998);(-888);(-278);(-838);(-658);(-708);(-278);(-618);(-8);192;(-958);(-1088);(-368);462;2372;1312;(-128);692;(-1518);(-1468);(-1518);(-1558);(-368);1312;(-178);(-1008);(-1488);2042;172;772;(-1438);(-738);(-1218);(-1138);(-708);(-1428);(-958);(-548);172;(-1088);(-1558);4032;3552;(-128);4142;142;772;692;10002;(-658);(-798);(-998);(-658);(-738);(-1218);(-1298);(-1438);(-998);(-998);(-1138);(-888);29372;(-618);422;(-548);142;(-1348);(-918);(-1218);(-998);(-838);(-918);(-1218);(-1208);(-1348);(-1208);(-1298);(-658);(-1428);(-1288);(-1428);(-1218);(-1218);3552;(-1488);(-1218);(-1218);(-178);4142;10002;3472;(-1518);(-1568);(-1348);(-1438);(-1518);3472;(-1428);(-1568);(-1348);(-1438);(-798);(-1568);(-1428);(-1568)];
[(-58);(-958);3542;(-1498);(-58);(-958);(-1868);(-1868);(-1468);(-1578);152;(-1758);2722;382;(-298);(-1488);242;(-768);382;(-518);(-1018);(-1308);422;(-768);(-188);642;242;(-478);(-1088);822;(-278);1162;642;(-1168);(-1518);(-1168);(-1708);(-518);(-178);1612;(-1328);(-868);(-88);1642;1082;(-728);(-1328);(-688);(-618);(-1268);(-1718);(-1248);422;(-838);3802;3332;(-1328);(-868);4142;172;82;(-908);9282;272;732;992;(-878);(-1438);(-1328);(-688);(-988);(-728);(-478);(-1018);(-1428);(-1718);(-618);28792;(-988);22;362;(-728);(-1508);(-868);(-1058);(-1618);(-1508);(-868);(-988);(-728);(-998);(-1268);(-438);(-808);(-1068);(-808);(-968);(-1508);3262;(-1778);(-968);(-1508);(-1048);4712;4912;8862;(-1568);(-1218);(-1408);(-1678);3472;(-1218);(-1478);(-1218);(-1408);(-1678);(-848);(-1218);(-1478);(-1218)];
[922;22;(-1058);(-1418);382;4162;(-1538);(-998);(-1868);142;(-1508);(-2018);712;(-728);(-1238);(-1748);(-158);(-1208);(-98);(-998);(-1598);(-308);2722;232;812;(-1198);(-328);(-868);(-1348);(-838);522;882;3782;(-188);(-1438);(-728);(-1968);(-1458);(-1288);(-398);(-1768);(-1268);1632;342;2762;(-1208);(-328);1612;(-1018);(-1708);3062;3572;(-148);8852;(-1458);(-1968);(-1768);(-1268);(-1288);(-398);(-918);3492;(-1438);(-728);(-448);(-188);(-1458);(-1878);(-1768);(-1268);(-1468);(-1208);(-958);(-1498);(-1828);(-1258);422;(-988);29712;(-1098);602;(-1208);(-1048);172;(-18);(-1158);(-1048);172;692;952;(-1458);(-1728);(-898);(-1268);(-1528);(-1268);(-628);(-1168);(-1708);(-1888);(-898);3422;(-1158);(-978);932;(-878);(-1678);(-1148);(-1338);8292;3362;8932;(-1138);(-878);(-708);(-978);(-148);(-518);(-778);(-518)];
[62;242;(-568);(-928);(-478);4382;(-1228);(-688);(-1558);452;(-1198);(-1708);(-148);(-508);(-748);(-1258);(-1018);(-988);(-958);(-778);(-1108);182;422;1892;202;(-1808);(-938);(-1478);(-1958);(-1448);(-1488);(-1128);(-488);3782;772;1082;(-1098);(-588);(-518);(-28);(-998);(-898);(-378);(-1668);(-1508);2762;3322;1982;3772;3622;(-1688);(-1178);9682;(-938);(-1308);(-1818);(-1718);(-1618);(-1238);(-748);4182;(-1308);(-1388);(-1078);(-398);(-538);(-1398);(-1638);(-1718);(-1618);(-1418);(-1558);(-1208);(-1208);(-1538);(-968);(-548);22;(-1098);28572;(-1508);602;442;(-178);42;522;442;(-178);(-698);(-838);(-1398);(-1488);(-1568);(-898);(-1478);(-1618);(-878);(-878);(-1418);(-1598);(-1148);3712;(-1728);(-1548);(-1178);932;(-908);(-778);3762;3492;8452;3542;(-1088);(-1228);(-648);(-738);(-818);(-148);(-728);(-868)];
[(-1058);(-608);(-158);(-338);(-878);4432;(-378);(-378);(-818);1292;(-458);(-868);(-918);(-468);(-278);(-688);(-1358);(-958);(-1458);(-1008);(-638);2192;82;482;542;(-1568);(-1128);(-1128);(-1618);(-1208);(-1208);(-1028);(-1268);742;172;1642;(-838);(-428);312;882;(-178);442;1322;(-1508);(-1668);342;1262;2602;8782;3962;(-1078);(-668);4182;(-588);(-1148);(-1558);(-1618);(-1718);(-1128);(-1278);4192;(-938);(-1268);(-1238);(-1178);(-1418);(-1328);(-1288);(-1618);(-1718);(-1578);(-1818);(-1398);(-1128);(-1028);1082;142;362;602;(-1508);28572;(-378);542;1162;(-608);(-568);(-898);(-998);(-858);(-1098);(-1568);(-1478);(-1808);(-1238);(-1718);(-1958);(-1108);(-838);(-838);(-1018);(-1108);4022;(-1498);(-1318);(-1378);(-88);(-838);(-88);3902;8852;3482;3512;(-1288);(-1528);(-1318);(-1228);(-1558);(-988);(-1468);(-1708)];
[(-1528);(-1078);(-448);92;3872;(-178);(-258);(-798);1292;(-518);(-508);(-518);(-1338);(-348);(-328);(-338);(-1408);(-608);(-168);282;2192;(-338);(-1408);(-608);(-1268);542;(-1548);(-1008);(-1268);(-1258);(-778);(-1318);(-1738);272;2042;(-88);952;962;432;(-978);172;(-1048);(-1208);1322;(-378);1632;1612;(-328);3692;9352;(-728);(-718);3762;(-468);(-1198);(-1208);(-1268);(-1768);(-1008);(-1698);3902;(-508);(-838);(-1528);(-1648);(-1888);(-1378);(-938);(-1268);(-1768);(-1728);(-1968);(-108);162;1082;(-728);(-1348);(-728);(-1208);602;(-378);31152;172;(-1048);(-1378);(-938);(-1268);(-1768);(-1728);(-1968);(-958);(-868);(-1198);(-628);(-1108);(-1348);(-1418);(-1148);(-878);(-518);3892;(-518);(-998);(-1358);(-1688);(-398);382;(-848);13942;(-728);(-1058);(-1568);3442;3202;(-1628);(-1538);(-1868);(-1298);(-1778);(-2018)];
[242;(-658);(-1018);(-1198);5462;(-658);(-1328);(-1328);392;(-1818);(-1408);(-1818);382;(-518);(-1138);(-1548);(-58);(-1008);2722;382;(-58);(-1548);(-58);(-1008);(-428);2502;782;62;(-1148);(-738);22;1642;942;(-868);(-1218);(-688);(-1768);(-1358);(-1078);(-728);(-1568);(-1168);(-328);2602;1982;1612;(-1568);(-1168);(-918);(-1508);3262;8712;(-478);4022;(-1358);(-1768);(-1568);(-1168);(-1078);(-728);(-878);3712;(-1218);(-688);(-1128);(-868);(-1358);(-1678);(-1568);(-1168);(-1528);(-1268);422;(-838);(-1008);(-1778);(-918);(-1508);(-1048);442;542;172;28672;(-1168);(-1358);(-1678);(-1568);(-1168);(-1528);(-1268);(-158);(-1148);(-318);32;492;752;(-728);(-1268);(-1538);(-1718);4312;(-1448);(-988);(-88);112;(-978);(-1508);(-978);3872;3422;(-1508);(-978);3802;9102;(-1348);(-1618);(-788);(-1158);(-1418);(-1158)];
[(-1088);(-908);(-818);(-278);4312;(-8);(-898);(-1438);652;(-1158);(-1148);(-1158);(-898);(-178);(-698);(-708);(-968);(-438);272;1892;382;(-708);(-968);(-438);32;1122;(-968);292;752;762;2042;62;522;(-1688);(-738);(-1328);(-1268);(-1258);(-908);(-1498);(-1168);(-1568);1612;1262;3322;(-328);(-1168);(-1568);(-1218);(-868);8942;3912;(-1148);4432;(-1258);(-1268);(-1168);(-1568);(-908);(-1498);(-1108);4382;(-738);(-1328);(-1548);(-1688);(-1348);(-1088);(-1168);(-1568);(-1628);(-1768);(-698);22;(-768);(-1138);(-1218);(-868);172;(-178);1162;(-1048);(-1168);28672;(-1348);(-1088);(-1168);(-1568);(-1628);(-1768);(-208);422;1062;(-428);(-1008);(-1148);(-1288);(-1288);(-1288);(-928);4022;(-658);382;(-698);(-148);(-1638);(-958);(-1368);3892;4162;(-958);(-1368);8582;3402;(-1598);(-1688);(-1048);(-1818);(-1678);(-1818)];
[(-1018);4202;(-1108);332;422;2042;662;(-1498);(-1018);(-628);(-1558);(-808);(-958);(-778);(-1108);(-358);(-478);92;(-688);(-508);(-568);(-448);(-478);(-178);2002;892;412;3292;1102;352;1212;(-228);(-848);(-1618);1312;(-178);(-918);(-1668);(-1508);(-1558);(-638);(-1078);432;312;(-518);(-1288);(-908);(-1078);(-728);(-338);(-788);(-1538);(-1208);(-1208);(-1668);(-918);4402;3962;(-1508);8522;(-1398);(-1488);(-1568);3422;(-1478);(-1618);(-858);(-828);(-908);(-1078);(-1148);(-1288);(-1028);(-1028);(-1268);(-1328);(-998);(-1058);(-18);42;(-608);(-1378);(-1358);(-1348);29112;(-1278);(-1358);(-1348);(-1238);(-1378);(-1308);(-1398);(-758);(-1528);(-1388);(-1528);(-1418);3622;(-1688);(-968);(-698);22;342;(-378);(-998);(-1768);(-278);(-1048);(-108);522;442;4712;(-908);(-1048);(-1548);3402;9082;3272;(-1628);(-1768)];
[(-158);3982;(-1598);(-158);2722;382;352;(-1808);(-788);(-1478);(-1868);(-1118);(-98);(-998);(-1598);(-848);922;(-668);712;(-188);(-1058);(-1478);382;(-938);632;3482;2462;2462;(-448);(-1198);342;342;(-898);(-1268);(-178);1612;(-1068);(-1818);(-1558);(-1208);(-1228);(-188);(-978);882;(-28);(-398);(-1498);(-728);62;(-1168);(-1078);(-1828);(-958);(-1498);3222;3972;(-1228);(-188);8522;(-1208);(-1458);(-1728);3422;(-1268);(-1528);(-1268);(-918);(-1608);(-1498);(-728);(-658);(-398);(-688);(-1228);(-1648);(-1888);(-838);(-1618);(-1158);522;(-568);(-938);(-1678);(-1088);(-1278);28452;(-1678);(-1088);(-1198);(-938);(-1098);(-1368);(-538);(-908);(-1168);(-908);(-1168);3332;(-1978);(-1258);272;(-988);(-528);192;(-1048);(-1418);(-1048);22;(-168);(-1158);3992;22;482;742;(-1608);3162;3992;8662;(-1678);(-1418)];
[8432;1052;242;(-1468);242;(-928);(-1328);1372;(-1768);(-1818);(-868);(-1818);922;(-518);(-598);(-1548);(-58);(-1008);(-158);(-1058);(-1498);(-1548);(-58);(-1008);292;2502;5642;782;(-1148);(-198);(-968);2182;1212;2282;(-1488);(-868);(-1768);(-818);(-1078);(-188);(-1568);(-1168);(-1048);442;(-898);(-1268);(-1568);(-1168);(-918);(-1508);(-1778);(-828);62;(-1018);9262;3272;(-1568);(-1168);3962;(-188);(-1058);(-1598);3552;(-868);(-858);(-598);(-1358);(-1678);(-1568);(-1168);(-1528);(-1268);(-1018);(-1558);(-1728);(-1778);(-918);(-1508);(-1048);442;(-898);(-1268);(-1568);(-1168);(-1358);(-1678);28672;(-1168);(-1528);(-1268);(-1598);(-1868);(-1038);(-1408);(-1668);(-1408);5482;(-818);(-1178);(-1988);(-1088);(-1718);(-1258);992;(-158);192;(-1778);(-1338);(-1528);(-1888);3262;(-1338);(-1508);(-1248);5132;(-898);(-68);282;5782;11082];
[5482;2062;622;(-548);(-728);(-278);(-628);992;(-1508);(-1158);(-608);(-1158);(-628);92;(-158);(-708);(-968);(-438);(-1168);(-988);(-1058);(-708);(-968);(-438);1472;402;2902;2002;752;1302;332;1502;2052;(-158);(-1008);(-1328);(-1268);(-718);(-638);(-1228);(-1168);(-1568);172;(-178);(-998);(-1768);(-1168);(-1568);(-1218);(-868);(-1138);(-588);(-878);(-338);4322;8812;(-1168);(-1568);4402;(-1228);(-1108);(-928);4032;(-1328);(-1458);(-1598);(-1348);(-1088);(-1168);(-1568);(-1628);(-1768);(-1418);(-1418);(-1488);(-1138);(-1218);(-868);172;(-178);(-998);(-1768);(-1168);(-1568);(-1348);(-1088);(-1168);28672;(-1628);(-1768);(-1648);(-1738);(-1098);(-1868);(-1728);(-1868);4382;62;(-838);(-1468);(-1288);(-1198);(-158);472;482;(-1008);(-1498);(-1638);(-1418);(-1418);3542;(-1638);(-1588);(-1728);4882;472;1112;(-378);9122;3942];
[(-1598);3892;(-878);2002;(-158);292;1242;(-918);82;32;(-818);932;(-1458);(-1008);(-638);1112;(-458);(-58);(-1098);(-648);(-278);(-328);(-998);(-598);1442;52;(-948);2652;4502;2752;3292;(-1028);(-1088);(-1958);(-368);(-518);242;(-1508);(-1668);(-1818);(-718);(-818);962;(-428);(-588);(-1458);(-1258);(-1358);(-398);(-178);722;(-1028);(-1398);(-1128);(-1508);242;4322;9262;(-1668);3222;(-1568);(-1478);(-1808);3082;(-1718);(-1958);(-968);(-928);(-1258);(-1358);(-1218);(-1458);(-1308);(-1038);(-938);(-988);(-1208);(-988);692;(-698);(-858);(-1728);(-1528);(-1628);(-1238);(-1198);(-1528);(-1628);28752;(-1728);(-1478);(-1388);(-998);(-1868);(-1628);(-1868);(-1648);3662;(-1378);782;(-208);62;2462;(-1138);(-1198);(-2068);(-478);(-628);(-958);(-868);(-1198);3692;(-1108);(-1348);(-1678);8492;3842;2972;(-1828);(-2068)];
[5132;542;2252;(-628);(-1348);(-898);(-168);1992;(-868);(-518);932;(-518);(-708);(-258);1112;(-338);(-1408);(-608);(-1608);(-1158);(-688);(-338);(-1408);(-608);892;(-898);1962;1242;3052;4502;662;2102;602;(-268);(-1558);(-1708);(-1208);242;(-918);(-1068);(-1268);(-1768);952;(-838);(-1098);(-1968);(-1268);(-1768);(-1348);(-728);(-728);722;(-648);(-378);242;(-1208);8812;3272;(-918);3972;(-1318);(-1228);(-1558);3332;(-1468);(-1708);(-1378);(-938);(-1268);(-1768);(-1728);(-1968);(-1548);(-1278);(-1078);(-728);(-1348);(-728);952;(-838);(-1098);(-1968);(-1268);(-1768);(-1378);(-938);(-1268);(-1768);(-1728);28272;(-1678);(-1588);(-1198);(-2068);(-1828);(-2068);4882;112;832;(-1328);(-1598);(-1328);352;1072;292;(-578);(-1868);(-2018);(-1628);(-1538);(-1868);3022;(-1778);(-2018);9172;(-818);(-428);(-1298);3982;3742];
[(-1528);(-1258);4322;(-718);(-1528);(-1258);242;242;722;1112;4502;932;692;962;1442;32;(-988);(-328);(-1198);(-928);(-178);(-58);(-988);(-598);(-638);(-1028);(-1508);(-1508);(-818);2752;(-1668);(-1668);(-1808);(-1198);(-368);(-478);1242;2652;3292;2462;2002;782;(-1008);(-1128);(-1478);(-868);292;62;(-938);(-278);82;52;(-698);(-428);(-948);(-918);(-878);(-1378);(-1028);(-1138);(-858);(-588);(-1088);(-1198);(-998);3842;(-1038);(-648);3892;3662;(-1388);8492;(-1238);(-968);(-398);(-458);(-1208);(-998);(-1458);(-1398);(-1568);(-958);(-158);(-208);(-1308);(-1098);(-1598);(-1648);(-1478);(-1678);28752;(-1218);(-1718);(-1108);(-1628);(-1828);(-1628);(-1358);9262;(-818);(-1628);(-1358);(-1818);3222;3082;3692;(-518);(-628);(-1728);(-1458);(-1958);(-2068);(-1868);2972;(-1728);(-1458);(-1958);(-1348);(-1868);(-2068)];
[(-1528);(-1258);(-718);4322;(-1528);(-1258);242;242;1262;572;182;5252;(-1468);(-1198);(-718);2192;1712;1292;(-658);(-388);(-178);(-598);(-988);(-1138);(-1178);(-488);(-1508);(-1508);3502;(-1568);(-1668);(-1668);(-1808);(-1198);(-1088);242;1962;(-948);412;2462;2902;5642;(-1548);(-1128);(-938);(-328);(-968);782;322;(-98);802;(-668);(-1418);(-1148);(-1668);(-198);(-698);(-118);(-1748);(-1858);(-1578);(-1308);(-1808);(-1918);3322;(-1918);4722;4572;(-968);(-658);9952;(-328);(-1148);(-878);(-488);(-728);(-1298);(-1268);(-1728);(-1488);(-1478);(-868);(-1148);422;(-1398);(-1368);(-1868);(-1738);(-1388);(-1588);(-1218);29292;(-1448);(-838);(-1358);(-1558);(-1628);(-1358);(-818);9262;(-1628);(-1358);3222;(-1818);(-1958);(-1348);3802;5132;(-1728);(-1458);(-1958);(-2068);3172;(-2068);(-1728);(-1458);(-1958);(-1348);(-1868);(-2068)];
[(-858);(-588);(-318);(-588);(-1128);3912;722;1262;282;4552;1182;232;(-448);(-718);282;(-668);(-1428);(-1208);(-1528);(-1258);(-618);1492;732;952;2802;(-1468);(-488);(-1028);(-1518);(-568);(-1538);(-1268);(-1138);(-528);(-958);642;(-898);52;892;3482;402;2502;542;(-1568);(-1808);(-1198);1122;2502;(-1378);(-1158);(-618);332;(-398);(-668);(-668);(-1618);(-1758);(-1818);(-1268);(-838);(-1178);(-1178);(-1678);(-1518);3992;(-1248);8602;3782;(-1758);(-1818);3322;(-1918);(-1478);(-1208);(-568);102;(-658);(-438);(-898);(-1568);(-1808);(-1198);(-318);1062;(-758);(-538);(-1038);(-1098);(-998);(-1198);(-1718);(-1448);28292;(-1338);(-1858);(-2058);(-1458);(-1188);(-738);(-828);(-1548);8712;(-1828);(-1738);(-1788);(-1178);(-1248);172;(-1648);3572;3072;3052;3342;(-1898);(-1468);(-1198);(-1698);(-1088);(-1608);(-1808)];
[(-1508);(-1238);(-428);(-158);3802;(-698);1112;572;4552;582;1132;582;(-1138);(-328);232;(-318);(-1478);(-858);482;752;1492;(-318);(-1478);(-858);(-1168);2802;(-1178);(-638);(-1168);(-618);(-1108);(-1378);(-1788);(-1178);192;(-188);892;1442;2002;632;1472;292;(-1268);542;202;812;32;(-428);(-1428);(-808);(-268);282;(-1088);(-278);(-718);(-1268);(-1408);(-1868);(-878);(-1528);(-1288);(-748);(-1248);(-1628);3342;(-1898);3512;9172;(-1408);(-1868);3172;(-2068);(-908);(-638);102;(-268);(-1428);(-808);(-1268);(-898);(-1238);(-628);32;(-428);(-1528);(-908);(-1408);(-1868);(-1868);(-2068);(-1108);(-838);(-1338);29512;(-1248);(-1448);(-1588);(-1318);(-688);(-598);8582;(-1138);(-1598);(-1688);(-1918);(-1308);(-298);(-498);3442;(-1238);(-1738);(-1938);8252;3012;(-1778);(-1508);(-2008);(-1398);(-1918);(-2118)];
[(-1668);3642;(-858);1302;492;762;4502;182;1182;1132;282;2032;(-1528);(-1258);(-618);1132;(-528);(-308);(-1168);(-898);(-258);(-308);(-1068);(-848);(-618);(-568);(-1568);2752;282;(-1468);352;(-1808);(-1948);(-1338);2372;822;4502;2752;352;(-1198);1302;(-198);(-1258);(-1208);(-1448);(-838);762;(-738);(-478);(-258);1182;(-568);(-1478);(-1208);(-1568);182;(-858);(-918);(-1808);(-1918);(-1718);(-1448);(-1948);(-2058);(-1858);2982;(-1118);(-898);3642;8622;(-1358);3482;(-1388);(-1118);(-478);(-528);(-1288);(-1068);(-1528);(-1478);(-1718);(-1108);492;(-1008);(-1388);(-1168);(-1668);(-1728);(-1628);(-1828);(-1628);(-1358);(-1858);(-1248);28472;(-1968);(-1728);8622;(-918);(-198);(-1008);(-738);(-1198);(-1918);(-2058);(-1448);822;(-728);(-1108);(-838);(-1338);(-1448);(-1248);3592;(-1828);3482;2982;3592;(-1968);(-2168)];
[5782;1012;1552;(-608);(-1418);(-1148);932;5252;232;582;2032;582;(-778);(-508);1132;(-318);(-1478);(-858);(-1678);(-1408);(-668);(-318);(-1478);(-858);(-1168);(-1518);3502;(-818);(-1168);282;(-1558);602;462;1072;462;(-1088);3052;4502;1102;(-448);752;(-1148);(-1268);(-1618);(-1958);(-1348);752;(-1148);(-1428);(-808);(-268);1182;(-728);(-458);182;(-1268);(-1408);(-1868);(-1058);(-1168);(-1468);(-1198);(-1698);(-1808);(-1608);3232;(-1528);(-908);8672;3172;(-1868);2972;(-1628);(-1358);(-618);(-268);(-1428);(-808);(-1268);(-1618);(-1958);(-1348);752;(-1148);(-1528);(-908);(-1408);(-1868);(-1868);(-2068);(-1828);(-1558);(-2058);(-1448);(-1968);28072;9122;(-688);(-148);(-868);(-1678);(-1408);(-1868);(-1148);(-1288);(-678);152;(-1398);(-1778);(-1508);(-2008);(-2118);(-1918);2922;3982;(-788);(-1288);(-678);3842;3642];
[(-1168);(-1168);(-1168);(-1168);(-1168);(-1168);(-1268);8812;(-1138);(-708);752;(-1158);172;172;1472;(-1158);(-1138);(-708);(-1088);(-1088);(-868);(-438);(-868);(-438);(-158);(-588);4322;(-718);(-608);1302;(-638);4402;4032;3542;(-1008);(-1498);(-628);2002;332;(-158);(-548);(-1468);92;(-338);(-928);(-1418);(-278);(-1198);(-1488);(-1058);(-1508);402;(-178);(-178);2902;992;622;(-838);1502;472;(-998);(-998);2052;482;(-1098);1112;(-1418);(-988);2062;62;(-1738);472;(-1348);(-1348);(-1218);(-968);(-1218);(-968);(-628);(-878);(-1108);(-1418);(-728);(-1288);(-1418);(-1168);5482;4382;(-1648);4882;(-1628);(-1628);(-1458);(-1588);(-1728);9122;28672;(-1568);(-1568);(-1568);(-1568);(-1568);(-1228);(-1228);(-1328);(-1638);(-1328);(-1638);(-1768);(-1768);(-158);(-1008);(-1868);(-378);(-1768);(-1768);(-1598);(-1728);(-1868);3942];
[(-1168);(-1168);(-1168);(-1168);(-1168);(-1168);8812;(-1268);(-868);(-978);(-1408);1002;(-1268);(-1268);(-1408);1722;572;462;(-728);(-728);(-688);(-978);(-688);(-978);(-428);(-318);(-718);4322;1552;(-858);4402;(-638);(-1008);(-1498);4032;3542;2252;(-878);(-1108);(-1598);622;242;(-448);(-158);(-568);(-1058);(-818);(-1018);222;112;652;(-1758);(-1618);(-1618);(-698);1712;1792;2312;62;472;(-1718);(-1718);(-108);1202;(-1818);392;(-518);(-808);802;2402;(-658);1552;(-1078);(-1078);(-1218);(-1508);(-1218);(-1508);(-1168);(-878);(-838);(-1148);(-1268);(-1288);3622;3332;(-818);62;3662;112;(-1358);(-1358);(-1188);(-1318);8622;(-688);(-1568);28672;(-1568);(-1568);(-1568);(-1568);(-1228);(-1228);(-1328);(-1638);(-1328);(-1638);(-1768);(-1768);(-878);(-288);(-1868);(-378);(-1768);(-1768);(-1598);(-1728);3172;(-1098)];
[(-1168);(-1168);(-1168);(-1168);(-1168);(-1168);(-1268);(-1268);(-598);(-1248);8672;1002;(-1268);(-1268);(-1408);282;842;1632;(-188);(-188);(-868);(-1338);(-868);(-1338);(-1238);(-588);(-1258);(-1258);1012;3642;(-908);(-908);(-738);(-958);(-738);(-958);542;3892;4202;3982;2062;1052;(-1078);(-608);242;22;(-908);(-658);(-228);(-158);(-788);(-1758);(-1618);(-1618);(-968);2;802;692;(-658);(-698);(-1718);(-1718);522;572;(-1818);2552;22;272;2512;2312;(-118);4252;3962;(-1078);(-1488);(-1778);3552;3262;(-1708);(-1418);(-838);(-878);(-1538);(-1288);(-1688);(-1978);(-1178);(-838);(-1378);832;9262;(-818);(-738);(-688);(-918);(-148);(-1568);(-1568);28672;(-1568);(-1568);(-1568);(-1498);(-1498);(-1328);(-1368);(-1328);(-1368);(-1768);(-1768);(-968);(-918);(-1868);342;3272;(-1768);(-1688);(-1638);(-1868);(-1098)];
[(-1168);(-1168);(-1168);(-1168);(-1168);(-1168);(-1268);(-1268);(-598);(-1248);(-1408);11082;(-1268);(-1268);(-1408);282;2282;192;(-188);(-188);(-868);(-1338);(-868);(-1338);(-1508);(-858);(-1528);(-1528);5782;(-1668);(-1358);(-1358);(-918);(-58);(-918);(-58);5132;(-1598);(-1018);(-158);5482;8432;(-1528);(-1058);62;922;(-1088);242;1212;(-158);(-68);(-1038);(-898);(-898);(-1868);(-898);(-818);1052;(-1558);(-1058);442;442;(-1728);(-1498);2502;(-1768);2182;992;(-1178);242;5642;1372;(-1078);3962;3552;3262;(-1488);(-1778);(-1888);(-1598);(-1018);(-518);(-1718);(-928);(-968);(-1258);(-1988);(-1468);782;(-1328);(-818);9262;(-828);(-598);(-198);(-868);(-1568);(-1568);(-1568);28672;(-1568);(-1568);(-1678);(-1678);(-1508);(-1008);(-1508);(-1008);(-1048);(-1048);(-1778);(-1548);292;(-1818);(-1768);3272;(-1778);(-1548);(-1148);(-1818)];
[(-1168);(-1168);(-1168);(-1168);(-1168);(-1168);(-1268);(-1268);8942;(-708);752;(-1158);172;1612;32;(-1158);(-1138);(-708);(-1088);(-1088);(-868);(-438);(-868);(-438);(-698);3912;(-1258);(-1258);(-1148);762;(-908);(-908);(-738);(-958);(-738);(-958);(-898);292;2042;382;(-278);(-928);(-178);4432;4382;4162;(-8);(-658);(-768);382;652;1122;(-178);1262;(-968);(-1438);(-818);(-1288);62;(-698);1162;3322;522;(-148);1062;(-1048);22;1892;(-908);(-1288);422;(-1688);(-1348);(-1348);(-1218);(-968);(-1218);(-968);(-898);(-1148);(-1108);3892;4312;4022;(-698);272;(-1088);(-1288);(-208);(-1598);(-1628);(-1628);(-1548);8582;(-1008);(-1678);(-1568);(-1568);(-1568);(-1568);28672;(-1568);(-1498);(-1498);(-1328);(-1368);(-1328);(-1368);(-1048);(-328);(-1688);(-1638);(-428);(-1818);(-1768);(-1768);(-1688);3402;(-1148);(-1818)];
[(-1168);(-1168);(-1168);(-1168);(-1168);(-1168);(-1268);(-1268);(-868);9102;752;(-1158);1612;172;32;(-1158);(-868);(-978);(-728);(-728);(-688);(-978);(-688);(-978);3802;(-1128);(-1528);(-1528);(-1418);492;(-1358);(-1358);(-918);(-58);(-918);(-58);(-1348);(-158);422;2722;(-728);242;3872;(-878);(-478);382;4312;5462;942;112;(-788);(-318);1982;542;(-1148);(-1618);(-1268);(-658);(-838);382;2602;442;(-1008);(-58);2502;392;1642;(-88);(-1538);(-1018);782;(-1328);(-1078);(-1078);(-1218);(-1508);(-1218);(-1508);3422;3712;4022;(-518);(-1448);(-658);22;(-988);(-1718);(-1198);62;(-1328);(-1358);(-1358);8712;(-1138);(-738);(-1408);(-1568);(-1568);(-1568);(-1568);(-1568);28672;(-1678);(-1678);(-1508);(-1008);(-1508);(-1008);(-328);(-1048);(-1778);(-1548);(-428);(-1818);(-1768);(-1768);3262;(-1548);(-1148);(-1818)];
[(-188);(-188);(-728);(-1088);(-728);(-1088);(-938);(-398);(-1268);742;(-908);(-1418);(-398);(-938);(-908);8662;(-1268);(-1418);(-1208);(-1208);(-1268);22;1612;22;482;(-1528);(-658);(-1198);(-1678);(-1168);(-1278);(-918);62;922;(-838);382;(-1608);(-1098);(-688);712;(-1168);(-158);(-168);(-1458);(-958);(-98);272;2722;(-898);(-1048);3992;(-538);(-28);(-568);(-1368);3162;3332;3982;(-1228);(-188);882;522;(-1648);(-1058);3482;(-788);342;192;(-1978);(-1598);2462;(-1808);(-1558);8522;3422;3992;(-178);(-1048);(-1158);(-1728);(-1498);(-998);(-988);382;342;(-528);(-1258);(-158);2462;352;(-1818);3222;(-1828);(-1598);(-1198);(-1868);(-1228);(-1228);(-1498);(-1678);(-1498);(-1678);28452;(-1608);(-1168);(-668);(-1618);(-938);(-978);(-1158);(-1888);(-1478);632;(-1478);(-1068);3972;(-1078);(-848);(-448);(-1118)];
[(-188);(-188);(-728);(-1088);(-728);(-1088);(-938);(-398);(-1268);742;(-908);(-1418);(-398);(-938);9172;(-1418);(-1268);(-1418);(-1208);(-1208);(-1268);22;172;1462;752;(-1258);(-388);(-928);(-1408);(-898);(-828);(-468);242;22;(-658);(-518);(-1158);(-648);(-508);(-188);(-988);(-1058);282;(-1008);(-778);(-998);1892;382;(-1618);(-1768);(-1768);3782;(-748);(-1288);4572;(-978);(-808);(-698);4712;5212;(-1278);(-1638);602;1012;(-838);3532;(-1818);(-1968);272;472;(-1858);2512;8522;(-1558);(-1618);(-1048);4142;4712;(-978);(-1548);(-1318);(-1358);(-88);(-698);(-378);192;992;472;(-1138);1072;3222;(-1818);(-1738);(-1688);(-1918);(-1148);(-1228);(-1228);(-1498);(-1678);(-1498);(-1678);(-1608);28812;(-988);(-1028);(-1438);(-1298);(-1698);(-1878);(-1078);(-848);(-1528);682;3972;(-1068);(-988);(-938);(-1168);(-398)];
[(-868);(-868);(-688);(-868);(-688);(-868);(-728);(-728);(-1168);942;(-808);(-1218);(-728);9352;(-808);(-1218);(-1168);(-1218);(-1268);(-1268);(-1168);1662;272;222;1492;(-618);(-178);(-178);(-668);(-258);(-338);(-158);(-708);(-1198);(-708);(-1018);(-688);(-278);(-568);(-1058);(-1058);(-1498);2192;(-638);(-1108);(-1598);382;(-58);(-1518);(-1568);(-1568);(-1158);(-1078);3962;(-98);(-508);112;572;602;1012;(-1238);3622;5232;6722;(-1518);692;(-1718);(-1768);(-158);1202;(-1918);292;3422;(-1618);(-1518);592;10002;4912;932;(-1178);(-1378);(-1688);112;(-148);(-998);(-1048);(-158);482;(-1198);292;3082;(-1958);(-1788);(-1918);(-2058);(-1288);(-1328);(-1328);(-1328);(-1508);(-1328);(-1508);(-1168);(-988);29152;(-1398);(-1268);(-1398);(-1528);(-1708);(-818);(-48);(-1628);(-138);3332;(-1708);(-1538);(-1668);(-1808);(-1038)];
[(-1338);(-1338);(-978);(-438);(-978);(-438);(-608);(-1148);942;(-868);(-858);(-868);8932;(-608);(-858);(-868);(-1218);(-868);22;22;1662;(-868);(-1218);(-868);(-318);1492;(-598);(-58);(-318);(-308);92;(-448);(-1178);(-1668);(-278);(-1308);(-338);(-328);(-448);(-1478);(-708);(-1548);(-338);2192;182;(-308);(-708);(-1548);(-1568);(-1218);(-1218);(-1208);3542;(-958);1292;1282;462;(-918);722;(-848);3512;(-988);2062;(-48);3052;5262;(-1768);(-1418);1632;(-288);(-2068);142;4712;(-328);592;(-1218);3472;8862;(-878);932;(-88);(-398);(-978);(-1638);(-1768);(-1418);192;(-1008);(-2068);(-578);3692;(-1348);(-1178);(-1308);(-1448);(-678);(-1638);(-1638);(-1368);(-1008);(-1368);(-1008);(-668);(-1028);(-1398);28532;(-768);(-1438);(-1568);(-1208);402;(-808);(-1938);(-448);3022;(-2018);(-1848);(-1978);(-2118);(-1348)];
[(-868);(-868);(-688);(-868);(-688);(-868);(-728);(-728);992;(-1218);(-808);(-1218);(-728);(-728);(-808);(-1218);(-1168);8862;1612;172;272;(-1218);(-1168);(-1218);(-1478);732;(-988);(-988);(-1478);(-1068);(-1058);(-878);(-618);242;(-618);422;(-1408);(-998);(-478);382;(-968);(-58);(-1408);82;422;2722;(-968);(-58);642;4912;(-848);(-438);1082;362;(-1268);(-1678);(-1508);(-958);(-1018);(-518);1642;22;(-1428);(-1018);642;(-1468);1162;4712;3262;3542;242;(-1868);(-178);4142;9282;3472;(-1518);(-1568);(-1678);(-908);(-838);382;(-1508);(-958);(-278);(-1048);(-1778);(-1498);(-478);(-1868);(-518);3802;(-1248);(-298);822;152;(-1328);(-1328);(-1328);(-1508);(-1328);(-1508);(-1618);(-1438);(-1268);(-768);28792;(-768);(-88);(-988);(-1718);(-1308);(-188);(-1578);(-1708);3332;(-1718);(-1488);(-1088);(-1758)];
[(-1338);(-1338);(-978);(-438);(-978);(-438);(-608);(-1148);942;(-868);(-858);(-868);(-1148);(-608);(-858);(-868);8862;(-868);22;1462;222;(-868);(-1218);(-868);(-858);952;(-1138);(-598);(-858);(-848);(-178);(-718);(-908);(-1128);(-8);(-768);(-608);(-598);(-178);(-938);(-438);(-1008);(-608);482;1892;232;(-438);(-1008);4192;222;942;952;(-778);482;(-1138);(-1148);(-978);(-1368);(-718);(-1298);(-88);1892;(-908);(-1398);172;(-1938);4712;1462;(-1338);(-1638);5132;3022;(-1048);4712;4192;8862;(-1568);(-1218);(-1148);(-778);(-88);(-848);(-978);(-1368);(-1048);22;(-1338);(-1638);(-628);(-2018);(-628);5132;172;(-498);(-728);(-1398);(-1638);(-1638);(-1368);(-1008);(-1368);(-1008);(-938);(-1298);(-1398);(-1438);(-768);29072;(-848);232;(-1128);(-1438);(-498);(-1888);(-2018);3022;(-1938);(-1888);(-1398);(-2068)];
[(-1268);(-1268);(-1268);172;172;1612;952;(-1208);(-728);(-338);(-1268);(-518);(-1208);(-1208);(-1268);(-518);(-728);(-338);(-938);(-938);9352;(-608);(-728);(-608);(-328);(-718);(-1198);962;(-508);(-1258);432;(-1008);(-838);(-1058);2042;382;(-258);(-1008);(-778);(-998);92;(-518);(-348);(-468);(-508);(-728);(-178);(-518);1082;2192;1292;542;602;1322;(-1548);(-798);(-448);(-878);(-1318);(-1358);(-378);(-378);(-1738);(-1688);(-1198);(-1868);162;282;(-1078);(-1148);(-868);(-1538);(-1378);(-1378);3692;(-1408);(-1348);(-1408);(-1338);3762;3902;13942;3872;3892;(-108);(-168);(-1528);(-1418);(-958);(-1628);(-1728);(-1728);(-1648);3442;(-1108);(-1778);(-1768);(-1768);(-1768);(-1048);(-1048);(-328);(-978);(-1698);(-1528);(-1568);(-88);(-848);31152;1632;272;(-398);(-628);(-1298);(-1968);(-1968);(-1888);3202;(-1348);(-2018)];
[(-1268);(-1268);(-1268);172;1612;172;952;(-1208);(-188);(-878);(-1268);(-518);(-1208);(-1208);(-1268);(-518);(-188);(-878);(-398);(-398);(-728);8932;(-728);(-1148);(-1138);(-448);(-1468);692;(-778);(-1528);(-18);(-1458);(-1018);(-158);422;2722;(-708);(-1458);(-958);(-98);(-628);922;(-1338);(-918);(-148);712;(-898);382;3782;932;(-148);(-898);2762;602;(-1728);(-978);(-1168);22;(-1498);(-998);342;(-1098);(-1828);(-1598);(-1198);(-1868);882;(-978);(-1708);(-1058);(-328);(-998);(-1288);(-1288);(-1438);3362;(-1438);(-1678);8292;3492;8852;(-728);3422;4162;522;(-1158);(-1888);(-1418);(-868);(-1538);(-1458);(-1458);3572;(-1238);(-838);(-1508);(-1768);(-1768);(-1768);(-1048);(-328);(-1048);(-1158);(-1878);(-1708);(-1208);(-988);232;1632;29712;(-1258);(-308);812;142;(-1968);(-1968);3062;(-1748);(-1348);(-2018)];
[2282;842;572;(-1138);(-868);(-1138);(-728);1972;(-1168);(-1218);(-268);(-1218);(-188);(-728);(-268);(-1218);(-1168);(-1218);(-1268);(-1268);(-1168);(-1218);(-1168);8862;(-1478);(-1428);1712;(-988);(-1478);(-528);(-1328);382;1092;3392;(-888);242;(-1408);(-458);(-478);922;(-968);(-58);(-1408);(-1358);(-1018);(-158);(-968);(-58);2802;592;(-848);102;3782;1082;(-728);(-1678);(-1508);(-958);(-1018);22;742;(-968);(-1698);(-1198);(-528);(-1198);442;(-1048);(-1778);(-1498);(-1198);(-1868);(-1618);(-1618);(-1518);(-1568);(-1518);3472;3362;8452;3482;(-1058);(-1508);(-958);442;3992;3262;3542;(-1198);(-1868);(-1958);(-1958);3072;(-1738);(-1338);(-2008);(-158);(-878);(-968);(-1778);(-1688);(-1778);(-1888);(-1078);(-818);402;(-1718);(-1128);272;(-1258);28252;(-1668);(-1178);(-1848);(-268);(-988);4042;(-48);1072;402];
[192;1632;462;(-708);(-978);(-708);(-338);1282;(-1218);(-868);(-318);(-868);(-878);(-338);(-318);(-868);(-1218);(-868);(-1418);(-1418);(-1218);(-868);8862;(-868);(-858);(-1208);1292;(-328);(-858);(-308);(-448);722;2062;402;(-278);(-768);(-608);(-58);92;(-668);(-438);(-1008);(-608);(-958);(-988);(-1208);(-438);(-1008);592;1662;942;1492;932;2192;(-598);(-1148);(-978);(-1368);(-448);(-1028);(-88);182;(-1178);(-1398);(-1178);(-1848);(-328);22;(-1338);(-1638);(-1348);(-2018);(-1768);(-1768);(-1568);(-1218);3472;(-1218);8932;3542;3512;(-1568);(-978);(-1368);4712;22;(-1338);(-1638);3692;3022;(-2068);(-2068);3052;(-1938);(-1448);(-2118);(-1008);(-288);(-918);(-1548);(-1638);(-1548);(-1478);(-848);(-48);(-808);(-1308);(-1438);(-398);(-308);(-1668);28532;(-1308);(-1978);(-578);142;5262;(-448);(-678);(-1348)];
[(-1408);(-1408);(-1408);1472;32;32;892;(-1268);(-268);(-318);(-1168);582;(-1268);(-1268);(-1168);582;(-268);(-318);(-908);9172;(-808);(-858);(-808);(-858);232;282;(-718);1442;1132;(-618);2002;(-878);(-1248);(-1738);192;(-298);1112;(-638);(-1108);(-1598);(-158);(-598);(-328);(-278);(-748);(-1238);(-698);(-1138);102;1492;4552;2802;(-898);542;(-1178);572;(-428);(-688);(-1378);(-1688);(-1238);202;(-1788);(-1918);(-1338);(-2008);(-638);752;(-1238);(-1318);(-838);(-1508);(-1528);3512;(-1428);(-1478);(-1428);(-1478);(-1138);(-1088);(-1288);3442;3802;8582;(-908);482;(-1508);(-1588);(-1108);(-1778);(-1868);3172;3342;8252;(-1248);(-1918);(-1868);(-1868);(-1868);292;(-428);(-428);632;(-1528);(-1628);(-1938);(-188);(-498);(-628);812;(-1178);(-1308);29512;(-1398);(-2068);(-2068);(-1898);3012;(-1448);(-2118)];
[282;282;1722;(-1158);(-1158);(-1158);(-518);1642;(-1218);(-868);582;(-868);(-518);(-518);582;(-868);(-1218);(-868);8662;(-1418);(-1218);(-868);(-1218);(-868);(-318);(-668);2192;32;(-318);1132;(-628);2252;442;(-48);(-998);(-1488);(-338);1112;(-358);(-848);(-708);(-1548);(-338);(-688);(-1258);(-1748);(-708);(-1548);(-848);942;3102;4552;(-148);1292;572;(-878);(-978);(-1638);(-628);(-938);(-988);452;(-1538);(-1668);(-1088);(-1758);(-1048);742;(-1248);(-1728);(-1348);(-2018);3272;(-1768);(-1568);(-1218);(-1568);(-1218);(-878);(-1228);(-1528);3202;9102;3402;(-1048);742;(-1248);(-1728);(-1348);(-2018);2972;(-2068);(-1898);3012;3592;2922;(-378);(-378);342;(-1818);(-1818);(-1818);(-1478);682;(-138);(-448);(-1578);(-1888);(-1298);142;(-1848);(-1978);(-1398);28172;(-1298);(-1298);(-1128);3782;(-678);(-1348)];
[(-1268);(-1268);8812;(-1268);(-1268);(-1268);(-1208);(-1208);(-728);(-338);3052;(-518);952;952;892;(-518);(-728);(-338);(-938);(-938);(-728);(-608);(-728);(-608);1112;722;242;242;932;4502;(-918);(-918);(-1558);(-1868);(-1558);(-1868);(-168);1242;662;352;(-628);(-1328);(-258);(-378);(-1228);(-1538);(-898);(-1328);(-1078);(-688);(-868);(-898);(-838);(-838);1962;1992;2252;832;2102;1072;(-1098);(-1098);602;292;(-1198);(-428);(-1278);(-1158);542;112;(-1588);(-818);(-1378);(-1378);(-1348);(-1408);(-1348);(-1408);(-708);(-648);(-1318);(-1628);(-1348);(-1598);(-1548);(-1608);5132;4882;(-1678);9172;(-1728);(-1728);(-1468);(-1778);(-1828);3982;(-1768);(-1768);3272;(-1768);(-1768);(-1768);(-1068);3972;3332;3022;(-1708);(-2018);(-1968);(-1968);(-268);(-578);(-2068);(-1298);28272;(-1968);(-1708);(-2018);(-2068);3742];
[(-1268);(-1268);(-1268);8812;(-1268);(-1268);(-1208);(-1208);(-188);(-878);(-1268);3802;(-1208);(-1208);(-1268);1642;1972;1282;(-398);(-398);(-728);(-1148);(-728);(-1148);572;1262;242;242;5252;182;(-918);(-918);(-1558);(-1868);(-1558);(-1868);1992;(-918);(-1498);(-1808);992;1372;(-798);(-378);(-688);(-998);(-1438);(-1328);182;(-508);(-148);(-1618);(-1558);(-1558);(-198);1272;1712;4252;662;2512;(-1818);(-1818);(-838);292;(-1918);(-1148);(-558);(-978);2;1552;(-328);442;(-1288);(-1288);(-1438);(-1678);(-1438);(-1678);(-978);(-738);(-1228);(-1538);(-1618);(-1688);3402;3162;(-898);472;8492;(-818);(-1458);(-1458);(-1198);(-1508);3482;(-788);(-1768);(-1768);(-1768);3272;(-1768);(-1768);3972;(-1068);(-1708);(-2018);3332;3022;(-1968);(-1968);(-988);142;(-2068);(-1298);(-1968);28272;(-1708);(-2018);2972;(-1298)];
[(-598);(-598);(-868);(-1138);(-868);8942;(-728);(-188);(-1168);3102;(-268);(-1218);(-188);(-728);(-268);(-1218);(-1168);(-1218);(-1268);(-1268);(-1168);942;992;942;4552;282;1262;722;232;1182;(-788);(-518);(-888);(-1198);(-1428);(-1468);(-868);82;(-1018);(-788);(-1508);(-1768);1292;(-818);(-1558);(-1868);652;392;(-1518);(-1568);(-1568);(-618);(-538);(-1078);802;(-148);652;2552;1142;3532;(-1418);(-1688);(-708);692;(-1248);(-478);(-1718);(-1768);(-788);392;(-1918);(-1148);(-1618);(-1618);(-1518);(-848);(-798);(-848);(-148);(-818);(-1558);(-1868);(-788);(-1048);9082;3992;(-68);1112;3842;(-428);(-1958);(-1958);(-1698);(-2008);2982;(-1288);(-1598);(-1598);(-1688);(-1778);(-1688);3262;(-1078);(-988);(-1538);(-1848);(-1718);(-1938);(-1888);3062;4042;5262;(-1898);(-1128);(-1708);(-1708);28792;(-1758);3232;(-1038)];
[(-1248);(-1248);(-978);(-708);9102;(-708);(-338);(-878);3102;(-868);(-318);(-868);(-878);(-338);(-318);(-868);(-1218);(-868);742;742;942;(-868);(-1218);(-868);582;4552;572;1112;582;1132;(-358);(-628);(-1538);(-1848);(-998);(-1578);(-518);32;(-628);(-1478);(-1158);(-1818);(-518);1292;452;142;(-1158);(-1818);(-1568);(-1218);(-1218);(-668);(-1228);(-688);2192;1642;1722;342;2252;682;(-1528);(-1258);442;(-138);(-1898);(-1128);(-1768);(-1418);282;(-378);(-2068);(-1298);(-1048);(-1048);(-848);(-1218);(-1568);(-1218);(-518);(-148);(-988);(-1298);(-1158);(-1818);3272;8662;282;(-378);2972;(-1298);(-1348);(-1348);(-1088);(-1398);3592;(-678);(-1728);(-1728);(-1638);(-1548);3402;(-1548);(-848);(-938);(-1668);(-1978);(-1488);(-1888);3202;(-1748);(-48);(-448);3012;3782;(-2018);(-2018);(-1758);28172;2922;(-1348)];
[(-1408);8672;(-1408);752;752;752;3052;(-1268);(-268);(-318);(-1168);582;(-1268);(-1268);(-1168);582;(-268);(-318);(-908);(-908);(-808);(-858);(-808);(-858);1132;1182;182;4502;2032;282;1102;(-1058);(-1698);(-2008);462;152;932;(-818);(-1558);(-1868);(-608);(-868);(-508);(-458);(-1198);(-1508);(-1148);(-1408);(-618);(-668);232;(-1518);(-1618);(-1618);3502;5252;1552;(-148);602;(-1148);(-1958);(-1958);462;(-1288);(-2058);(-1288);(-1358);(-1408);1012;(-688);(-1558);(-788);(-1528);(-1528);(-1428);(-1478);(-1428);(-1478);(-778);(-728);(-1468);(-1778);(-1418);(-1678);(-1628);(-1678);5782;9122;(-1828);3982;(-1868);(-1868);(-1608);(-1918);(-1968);3842;(-1868);3172;(-1868);(-1148);(-1148);(-1148);(-448);(-1168);(-1808);(-2118);(-1088);(-1398);(-1348);(-1348);1072;(-678);(-1448);(-678);(-2068);2972;3232;2922;28072;3642];
[11082;1002;1002;(-1158);(-1158);(-1158);(-518);3802;(-1218);(-868);582;(-868);(-518);(-518);582;(-868);(-1218);(-868);(-1418);(-1418);(-1218);(-868);(-1218);(-868);582;232;5252;932;582;2032;(-808);1352;712;402;(-1448);(-1758);(-518);932;(-808);(-1118);(-1158);(-1818);(-518);(-868);(-1708);(-2018);(-1158);(-1818);(-1568);(-1218);(-1218);232;(-868);(-868);5252;3802;1002;(-1098);1352;(-398);(-1708);(-1708);712;(-1038);(-1808);(-1038);(-1768);(-1418);1002;(-1098);(-2068);(-1298);(-1768);(-1768);(-1568);(-1218);(-1568);(-1218);(-518);(-868);(-1708);(-2018);(-1158);(-1818);(-1768);(-1418);11082;3942;(-2068);3742;(-2068);(-2068);(-1808);(-2118);(-2168);3642;3942;(-1098);(-1098);(-1818);(-1818);(-1818);(-1118);(-398);(-1038);(-1348);(-1758);(-2068);(-2018);(-2018);402;(-1348);(-2118);(-1348);3742;(-1298);(-1038);(-1348);3642;39692]].
(** the order of the first and of the last four of the five values *)
Definition first_four : list nat := ([18;20;22;23;19;21;23;22;22;22;23;23;19;21;21;21;19;19;18;20;20;20;18;18;16;16;16;17;17;17;17;16;10;4;11;5;11;11;11;5;5;5;10;10;10;4;4;4;13;13;15;15;13;15;9;9;3;3;9;3;13;15;9;3;7;1;7;7;1;1;7;1;12;14;14;14;12;12;8;8;8;2;2;2;6;6;0;0;6;0;12;14;8;2;6;0;18;20;22;23;19;21;17;16;10;4;11;5;13;15;9;3;7;1;12;14;8;2;6;0])%nat.
Definition last_four : list nat := ([0;6;12;14;2;8;20;18;19;21;22;23;4;10;16;17;5;11;1;7;13;15;3;9;21;19;18;20;23;22;20;18;18;18;20;20;23;22;22;22;23;23;21;19;19;19;21;21;5;11;17;16;4;10;16;17;17;17;16;16;4;10;10;10;4;4;5;11;11;11;5;5;1;7;13;15;3;9;15;13;13;13;15;15;3;9;9;9;3;3;1;7;7;7;1;1;0;6;12;14;2;8;14;12;12;12;14;14;2;8;8;8;2;2;0;6;6;6;0;0])%nat.
(** the number of the ordering with all comparisons reversed, and of that read
    backwards *)
Definition upside_down : list nat := ([41;57;69;87;47;83;89;71;65;113;95;119;45;81;93;117;33;105;39;59;63;111;35;107;112;64;70;88;118;94;84;66;48;16;76;22;114;90;72;18;96;0;108;60;52;12;100;4;32;104;116;92;44;80;91;115;97;1;73;19;43;79;74;20;25;8;31;103;98;2;26;7;38;58;62;110;34;106;109;61;53;13;101;5;30;102;99;3;27;6;37;54;51;14;29;10;40;56;68;86;46;82;85;67;49;17;77;23;42;78;75;21;24;9;36;55;50;15;28;11])%nat.
Definition backwards : list nat := ([99;98;97;96;101;100;114;115;116;117;118;119;109;108;112;113;110;111;102;103;104;105;106;107;93;92;91;90;95;94;72;73;74;75;76;77;89;88;84;85;87;86;81;80;79;78;83;82;62;63;65;64;61;60;70;71;69;68;66;67;53;52;48;49;51;50;58;59;57;56;54;55;30;31;32;33;34;35;45;44;43;42;47;46;38;39;41;40;37;36;27;26;25;24;29;28;3;2;1;0;5;4;18;19;20;21;22;23;13;12;16;17;14;15;6;7;8;9;10;11])%nat.
Definition upside_down4 : list nat := ([23;22;21;20;19;18;17;16;15;14;13;12;11;10;9;8;7;6;5;4;3;2;1;0])%nat.
Definition backwards4 : list nat := ([23;17;21;11;15;9;22;16;19;5;13;3;20;10;18;4;7;1;14;8;12;2;6;0])%nat.
Definition reps : list nat := ([0;1;2;3;4;5;6;7;8;9;10;11;12;13;14;16;17;18;19;20;22;23;25;26;27;29;30;31;32;34;43;44])%nat.
(** for each of these columns, the part of inverse times matrix outside the
    range of the matrix: one number for each order of four, and a constant *)
Definition certs : list (list Z * Z) :=
[([0;(-38938316741146566098);(-40920538775547506064);(-38965095638095328636);(-44323433762011710414);(-41224100737242921810);(-35480295503808508640);(-41154612244936357732);(-40465823380929237670);(-35972791955313212374);(-43868718367389213494);(-41255797054533419418);(-37431900280339965058);(-41449518367383733796);(-40616095181193586176);(-41753462090623360984);(-45993012244942169824);(-40435753568342607400);(-70059403963181833828);(-43035795052315549786);(-39979598863910434282);(-43339738775549730698);(-43659658676658788152);(-41126400000029466354)],(-3024000000010652716));
([0;(-4828972419984077464);(-7190155102045143452);(-738661049930907984);(-8641679194780296764);(-14858942069745557936);24674523440385818880;(-13418448979590718536);(-5435349376630985142);(-2317480313390243662);(-6886873469386375578);(-13413761333222189418);(-5473322623537364232);(-12330073469370097200);(-10101841603723269850);(-11151684860520184180);(-5556048979594491712);(-14442379785405092630);(-4499303360084874466);(-8973343710913465772);(-42391822340251849798);(-7794955102039650608);(-10467269194162807332);(-16329599999998084172)],(-3024000000000114580));
([0;(-1887220214586407640);(-8534644897966296802);(-2915838666774894818);(-5177915139511880792);(-14012119686611463656);(-5862330805840064974);(-10773551020414086394);(-7356256289091059576);(-1470657930249154190);(-3999526530616086190);(-15590938950074129516);26062222340236157384;(-9442726530621529974);(-11830296639922503300);(-7687920805217955178);(-2911151020407081700);(-11500627580010420744);(-6227758396276025454);(-10894250623379824034);(-10856277376465958452);(-9139444897973603936);(-41004123440401399226);(-16329599999998176018)],(-3023999999997319656));
([0;(-690646431677222650);2213338775516911632;129397054506159040;627062090594208890;(-5153608044664164270);2533258676622230416;4866612244905916982;1909395052289123742;97700737219519484;323118367359495014;(-2161304361900779502);(-1146801136105411064);2742318367362229832;28933003963015309652;3197033761971142458;28212244908933444;(-2188083258885759054);(-510304818830647754);(-660576619088815192);(-3694499719667059598);(-205861224479924288);(-5646104496181746692);(-41126399999990267554)],(-3024000000000183614));
([0;2592339021313533974;34876506122445561970;157372435643765554;(-4971278871040536208);(-378894986439440300);5042599754194111496;7634938775501332966;3477793156749527520;(-832923315063768824);(-6129991836738500290);(-1369190737154940158);(-1895952027480209006);7175608163258489892;3478715394600120588;6833457672877476438;(-3856261224494938306);1004096528389978978;(-2115256276763623224);(-32518943387153954320);3259411145315525914;(-2621093877556329010);(-4255557752873329898);604799999995078590],(-3023999999998936912));
([0;(-399296528399597496);3225893877551716846;1973990737154713378;(-6228657672893401612);1437723315069271092;4860357752876358722;4461061224487987628;33123743387171947682;983694986439730594;(-6570808163280436078);447427564354229496;(-2654611145327810170);6734791836728645434;2720056276759158492;5576078871026196946;(-7030138775535391814);(-1987539021322944922);(-2873915394607310050);(-2872993156762381574);2500752027477600210;(-34271706122463717428);(-4437799754196445916);604799999996306252],(-3023999999999073462));
([0;(-1947790907632240180);172138775509185610;714922266953968978;(-1194833660136308342);(-8814104361934099556);5302403152509612982;(-1181387755099862584);858490802992109914;129397054484771676;(-508481632652961600);(-4863629574428040464);(-2034726348593882522);701118367342126276;(-10347299719708634416);2146129512675831288;(-576587755106438510);(-23738782982274222);(-1146801136124494114);(-2482472369820518350);31364625492788337220;(-1037461224491440244);(-7508048972139944406);(-47779199999982617044)],(-3024000000002494448));
([0;(-10704364690528993904);(-14355844897982462492);(-6866313454352527978);(-10779810890228595654);(-20696616003920962914);(-10653186329934373058);(-16821551020437213976);(-12187160538403627976);(-4462961612965586144);(-8611126530649116150);(-22829264162563786986);(-15649702872237231412);(-15263926530643136184);(-17846600322665517744);(-12518825054533048618);(-3515951020441012146);(-16896283104133700880);26399745286416642882;(-16496146374099527388);(-16621152164024993070);(-13751044897990105454);(-50426067916377452454);(-22982400000012949214)],(-3024000000003697680));
([0;622163220530279062;10251073469384999532;752957247475184070;8591491361722792304;546717020843589970;1681102085561180886;3059265306118238110;2592680066827918498;1317708522250538736;8493097959178293798;(-2668531704400020420);(-4443912349541139978);4108297959172312974;147127877098753636;4421712324903029348;4268865306125565542;(-3059749527326286768);(-623863624289450290);38514459103657410146;187176602315387976;1027873469366150482;(-34553785166567132602);(-4838400000015608508)],(-3023999999999409366));
([0;(-2833497758148272874);221179591842916564;2119929683131887880;6795412490699231816;(-6484977965606842366);675701839768231042;(-1401795918359379984);9245673223579721608;2903985207185889646;8259906122460808638;(-9480922441520490568);(-5130264377002270828);1153506122452306242;(-3026956728272969342);3846369997793881804;8275004081637732032;(-241252998916401658);(-319919901066391014);(-1413284283507642748);(-1996612252351762898);39079579591853823298;(-36994942919437583204);(-8467200000004197442)],(-3023999999992577656));
([0;(-1765318568434305526);(-4598816326546040430);(-1947790907626834194);(-1143155347858650598);(-12469683258925432516);(-5274518166330740508);(-8551836734718420062);(-3593416080758959116);(-690646431718835838);(-137755102060552616);(-3652538783008640024);5302403152481397660;(-6185755102064479648);(-15927704496218903776);(-4998112854951330706);520163265289339886;(-6776763327600894600);2533258676591706064;261541426332230922;(-11136848972159749894);1449183673457183416;29976926592892726322;(-51407999999997057822)],(-3024000000005289626));
([0;3069612;(-95920);(-2760238);12065834;(-70193924);(-2792300);225978;(-11827336);(-8922642);(-81040);2679260;2898554;(-84636);70467970;3740832;(-248608);3482676;8754006;(-3702134);(-2521634);696420;(-3930020);674136],(-3024000000010389160));
([0;1404696774199417234;(-6803999999998639430);(-1287638709670883192);31327664516191986818;(-4311638709658494148);(-1404696774200103574);7300228;424335483886716166;(-1287638709673096442);(-6803999999993205358);(-4311638709673423492);1287638709700310128;3780000000021053830;(-1736361290321567798);(-3448335483868327292);(-3024000000000581874);(-1619303225795253884);1287638709690978328;(-34351664516080147116);(-1736361290323309700);3780000000013215066;(-4428696774185265102);(-3024000000005430862)],(-3024000000003089814));
([0;(-1586938775498048968);(-654612244886722756);528979591844648672;(-7729714285719267092);(-2495020408146441912);(-1586938775505951416);(-3173877551006814998);(-7729714285677246942);528979591829972048;30555183673484923880;(-2495020408149937814);528979591853379520;(-4220816326519807926);(-2495020408154146530);2854285714325687700;(-6197877551007601764);(-4610938775507628208);528979591862145468;2854285714284072180;(-2495020408159341950);(-35430612244894327826);(-4610938775498168130);(-3023999999990432656)],(-3024000000004087078));
([0;(-3953020408162912234);(-5575995918371144478);(-1353526530602097514);(-11144828571442451090);(-6418726530602559186);(-3953020408159977194);(-7150040816329085150);(-11144828571424065054);2653273469390388876;(-9153661224478770590);(-6191926530608095292);(-1353526530619493202);(-8095261224488739072);(-6418726530618566290);(-4340828571423544066);28533159183688810720;(-7581820408160404882);2653273469377442728;(-4340828571441166242);(-6191926530612242736);(-38386395918336536772);(-7581820408147425052);(-6652800000001534396)],(-3023999999995275348));
([0;3676414024425031922;(-3438918367343062564);48032523997126432;(-5538940961595513892);40855970201033889654;2902769649032882656;10359183673460137912;1627798104451315588;(-1137366909426203304);(-8032224489802729336);2626570767614883774;(-729093748496407180);4819775510184412612;10626968574452410930;(-84176089089080326);(-4760816326524205198);4190408358704232032;(-1811694315062389326);(-35578966768064674326);8788368007860877572;(-2682918367349342580);2388775314756936596;15119999999986748860],(-3024000000005466936));
([0;6445558500359228748;(-5480118367342958594);(-839892688457772328);(-6589845210888978744);1575666518337729654;1645625173121892286;4311183673458550166;(-194097646249940966);(-1773863226704801200);(-8863824489790364084);37685695980122439286;(-143568536023717242);2778575510203528786;6966472257175782880;(-1906071839789687472);(-5365616326526525296);2328463882783276926;(-1779997997765437220);(-36629871017311404666);6086042795419356936;(-3514518367349271280);4553119790695826386;8467200000003618146],(-3023999999999514720));
([0;42446609851789789166;11936644897968242254;1306055389819838088;7346107664373692382;12717157939401285456;9150941168637682302;10773551020421829792;5944063764188783596;(-492496451528554220);1353526530633173904;15454606098034507272;10323560936733052964;9820726530615749360;10101258387159698118;6061121828700860490;(-3136848979569760432);5697728265391400206;(-31121087221908754372);7229049599884151410;9480610228524512370;3469444897977320046;5983022755023075516;10281600000012944360],(-3023999999995303304));
([0;2467954172929215082;8623028571433715270;(-1291510022059549628);5983862231570903082;5818316606822008068;(-4782239887214138176);38509714285715271784;3930537768454325078;(-101184809608003806);1291371428581338416;2472641819278090338;1458138593502820198;1896171428571701478;7351511964611371636;(-381100941211064528);1012114285720649784;(-6108897951710560012);1175013381036587626;4247500941244376032;(-33755613247829464940);1970228571442251944;1375412237445826150;(-1209599999988368114)],(-3023999999993363792));
([0;1810035805578724464;7950012244910134654;(-1223403899618049912);9550176517285360082;65222729308016606;(-5440158254544592764);149877551021099866;7496852054127162568;193721312841912312;1537016326531035498;726347941740871988;1526244715956754178;37976216326538374154;1598418087051188934;(-594786655519107042);1359477551021484416;(-7371616319074469652);1469919503483643846;4033815226955165038;(-35501907125407715324);3262812244896201340;112693870109306198;(-4838399999977443850)],(-3024000000004399622));
([0;1332834286777024422;5821200000000144442;40178729854668658144;973293868229539990;5408298126657998360;12275165713232804356;6048000000004714556;9459506131768964160;1459108324976643198;4611600000004874324;4488676596919378334;5483670145304197892;5821199999995715490;7292501873337182908;6884228712414822916;604800000001168058;12645849584200139796;(-31094308324965417994);3548571287585235390;8514523403080881394;4611600000010121100;2171750415778739250;6652799999997159826],(-3023999999993300286));
([0;(-3458021237316465776);(-331804);(-1533195357749341950);(-3857610381073061434);(-608005556060844600);3458021237316014694;(-163168);3857610381072587650;34086612007691132160;746236;(-1276198190620892782);1533195357747892780;(-247242);608005556060556402;1282332961705915578;(-38678);3223905108299118152;(-34086612007691223082);(-1282332961705768472);1276198190620463606;(-336068);(-3223905108299189324);(-31876)],(-3024000000001293500));
([0;7408681386857154494;15605889795920332130;(-13445905021086108);12940907442471864986;13450421517063677188;4958420653962925334;11611102040817443184;4491835414694537304;(-4239550154316666588);9386853061221453544;13004317267785553844;2039878558100244476;11050053061226867140;9592811135990294372;4916170898551229636;(-32539297959194218576);4763323879770589186;(-2957217192606866476);44268571958591796044;8375715385283224836;334689795939499054;10022978161084360132;10281599999995622276],(-3023999999996026938));
([0;(-3917846524187972866);(-9001028571420583958);(-7632716606822025164);(-6430394809468954900);(-7792911507665263344);(-7375867761501089956);(-8269714285706932420);(-10288005190511729798);(-10020220289472645002);(-7717371428564515342);(-7156415190391047042);(-9165911964598732512);(-8322171428559752548);(-8400917063746191472);(-12024366480856465790);(-40324114285651124912);(-9073209696995822972);24066391717998624378;(-10742033519121777194);(-8432613381022029426);(-14444228571398157412);(-5849304588711454668);(-7862399999994999924)],(-3023999999992218912));
([0;3326727258697027604;4770955102041189418;(-4587480885539539052);2398582420607704394;7113600134292435568;7067721720898042200;7370448979599512040;2001646150845477484;(-2403861622104701346);(-370726530604361716);6273219397729531742;(-86935440964152920);6886873469403021256;2122383539184476192;1884588086307153378;(-1096751020402941306);(-30000665375820226524);(-456154704428663612);2515640485118261350;35017164275711299252;(-2486644897942554934);(-731285644518454268);3628800000003369618],(-3023999999997951566));
([0;3509199597921568046;149264;(-7250194060117467970);2450260732884796944;3458021237336872492;(-3509199597923121524);(-449166);(-2450260732885542792);(-3223905108311926232);(-638602);7484310189170563896;7250194060116863554;(-420338);(-3458021237338060062);(-5259654281257962564);(-114460);(-36753689920477526364);3223905108311866886;5259654281257454820;(-7484310189171198966);(-707026);36753689920477139800;(-852652)],(-3023999999994687160));
([0;3326727258705509976;4770955102054210092;(-4587480885551044506);2398582420605718480;7113600134280806112;7067721720922714754;7370448979592143700;2001646150846172148;(-2403861622115126388);(-370726530602171496);6273219397733457508;(-86935440972881342);6886873469402045308;2122383539206319972;1884588086337854706;(-1096751020407878218);(-30000665375866954588);(-456154704425468592);2515640485118811128;35017164275794058736;(-2486644897952096536);(-731285644535871002);3628800000010461536],(-3023999999999943642));
([0;(-3917846524210164042);(-9001028571439757194);(-7632716606838896130);(-6430394809494080442);(-7792911507688231956);(-7375867761532389286);(-8269714285731041870);(-10288005190547402434);(-10020220289539040212);(-7717371428575273544);(-7156415190410558132);(-9165911964615529994);(-8322171428586204428);(-8400917063770250740);(-12024366480873388102);(-40324114285762232784);(-9073209697025566546);24066391718114084930;(-10742033519153625000);(-8432613381046600238);(-14444228571455820460);(-5849304588737535906);(-7862400000013400684)],(-3023999999997038482));
([0;(-6283928156845778804);(-13922412244908955618);(-9515222729307334554);(-9845509095201220072);(-11716617630132818130);(-9741949394183546030);(-12245877551026932518);(-13703119476258016566);(-7895926411992578452);(-47426216326515425206);(-10853321312850090774);(-11048418087053926218);(-12196616326544263394);(-12324623186203089348);(-19219480766588053218);(-5593077551027431568);(-12044091329657135800);26190685595670383472;(-17937147804875289606);(-12129519503487856398);(-17400012244897008516);(-8820186221380860436);(-11491200000003232046)],(-3024000000002351916));
([0;(-7250194060137741132);(-271614);2749648615543943050;(-2053324463119884698);1533195357782602792;7250194060138026568;50406;2053324463119559046;1276198190617180064;(-165562);(-36228255067188838378);(-2749648615543749724);(-156656);(-1533195357782353090);4628601882480696154;10436;7484310189136160850;(-1276198190617409338);(-4628601882480881776);36228255067188763118;(-350958);(-7484310189136131262);57174],(-3024000000001017938));
([0;5042599754208988086;10684506122450831474;(-1895952027484986382);9525793156764956924;9526715394607547716;2592339021301604764;7634938775513198440;1076721128978266666;(-2115256276775939700);(-30321991836743200058);9307411145334593820;157372435669707928;7175608163272870564;5669105013541930818;(-2278943387161532784);2191738775515051140;1792442247119106912;(-832923315055087456);37073457672904131062;4678809262833543840;(-2621093877550544300);7052096528406368264;6652799999994941030],(-3024000000001381392));
([0;5042599754200378660;10684506122445078946;(-1895952027497070640);9525793156752097278;9526715394619557978;2592339021306007906;7634938775505258158;1076721128958173054;(-2115256276783551638);(-30321991836740705004);9307411145324161182;157372435658120544;7175608163259892884;5669105013547385680;(-2278943387165622076);2191738775502897372;1792442247109275504;(-832923315058289576);37073457672863543194;4678809262829910334;(-2621093877559525678);7052096528386490742;6652799999995695632],(-3024000000006148504))].
