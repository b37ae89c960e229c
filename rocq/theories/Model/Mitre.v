(** Generated by tools/gen_mitre.py from src/components/mitre.rs. *)
From Coq Require Import String List.
From Verif Require Import Base.Outcome.
Import ListNotations.
Local Open Scope string_scope.

(** mitre.rs:33-118 [MitreTactics] *)
Inductive tactic :=
| TA0043
| TA0042
| TA0001
| TA0002
| TA0003
| TA0004
| TA0005
| TA0006
| TA0007
| TA0008
| TA0009
| TA0011
| TA0010
| TA0040
| TA0027
| TA0041
| TA0028
| TA0029
| TA0030
| TA0031
| TA0032
| TA0033
| TA0035
| TA0037
| TA0036
| TA0034
| TA0038
| TA0039.
(** Every variant *)
Definition tactic_all : list tactic := [
  TA0043;
  TA0042;
  TA0001;
  TA0002;
  TA0003;
  TA0004;
  TA0005;
  TA0006;
  TA0007;
  TA0008;
  TA0009;
  TA0011;
  TA0010;
  TA0040;
  TA0027;
  TA0041;
  TA0028;
  TA0029;
  TA0030;
  TA0031;
  TA0032;
  TA0033;
  TA0035;
  TA0037;
  TA0036;
  TA0034;
  TA0038;
  TA0039].
(** The name of the variant: what the derived [Debug] and [Serialize] write. *)
Definition tactic_name (x : tactic) : string :=
  match x with
  | TA0043 => "TA0043"
  | TA0042 => "TA0042"
  | TA0001 => "TA0001"
  | TA0002 => "TA0002"
  | TA0003 => "TA0003"
  | TA0004 => "TA0004"
  | TA0005 => "TA0005"
  | TA0006 => "TA0006"
  | TA0007 => "TA0007"
  | TA0008 => "TA0008"
  | TA0009 => "TA0009"
  | TA0011 => "TA0011"
  | TA0010 => "TA0010"
  | TA0040 => "TA0040"
  | TA0027 => "TA0027"
  | TA0041 => "TA0041"
  | TA0028 => "TA0028"
  | TA0029 => "TA0029"
  | TA0030 => "TA0030"
  | TA0031 => "TA0031"
  | TA0032 => "TA0032"
  | TA0033 => "TA0033"
  | TA0035 => "TA0035"
  | TA0037 => "TA0037"
  | TA0036 => "TA0036"
  | TA0034 => "TA0034"
  | TA0038 => "TA0038"
  | TA0039 => "TA0039"
  end.
(** mitre.rs:120-184: the arms of the match, in order *)
Definition tactic_arms : list (string * tactic) := [
  ("TA0043", TA0043);
  ("TA0042", TA0042);
  ("TA0001", TA0001);
  ("TA0002", TA0002);
  ("TA0003", TA0003);
  ("TA0004", TA0004);
  ("TA0005", TA0005);
  ("TA0006", TA0006);
  ("TA0007", TA0007);
  ("TA0008", TA0008);
  ("TA0009", TA0009);
  ("TA0011", TA0011);
  ("TA0010", TA0010);
  ("TA0040", TA0040);
  ("TA0027", TA0027);
  ("TA0041", TA0041);
  ("TA0028", TA0028);
  ("TA0029", TA0029);
  ("TA0030", TA0030);
  ("TA0031", TA0031);
  ("TA0032", TA0032);
  ("TA0033", TA0033);
  ("TA0035", TA0035);
  ("TA0037", TA0037);
  ("TA0036", TA0036);
  ("TA0034", TA0034);
  ("TA0038", TA0038);
  ("TA0039", TA0039);
  ("ta0043", TA0043);
  ("ta0042", TA0042);
  ("ta0001", TA0001);
  ("ta0002", TA0002);
  ("ta0003", TA0003);
  ("ta0004", TA0004);
  ("ta0005", TA0005);
  ("ta0006", TA0006);
  ("ta0007", TA0007);
  ("ta0008", TA0008);
  ("ta0009", TA0009);
  ("ta0011", TA0011);
  ("ta0010", TA0010);
  ("ta0040", TA0040);
  ("ta0027", TA0027);
  ("ta0041", TA0041);
  ("ta0028", TA0028);
  ("ta0029", TA0029);
  ("ta0030", TA0030);
  ("ta0031", TA0031);
  ("ta0032", TA0032);
  ("ta0033", TA0033);
  ("ta0035", TA0035);
  ("ta0037", TA0037);
  ("ta0036", TA0036);
  ("ta0034", TA0034);
  ("ta0038", TA0038);
  ("ta0039", TA0039);
  ("command_and_control", TA0011)].
(** mitre.rs:120-184 [TryFrom<&str>]: the first matching arm *)
Definition tactic_try_from (s : string) : result tactic string :=
  match find (fun a => String.eqb (fst a) s) tactic_arms with
  | Some a => Ok (snd a)
  | None => Err "Invalid Mitre Tactic"
  end.

(** mitre.rs:893-3102 [MitreTechniques] *)
Inductive technique :=
| T1001
| T1001_001
| T1001_002
| T1001_003
| T1003
| T1003_001
| T1003_002
| T1003_003
| T1003_004
| T1003_005
| T1003_006
| T1003_007
| T1003_008
| T1005
| T1006
| T1007
| T1008
| T1010
| T1011
| T1011_001
| T1012
| T1014
| T1016
| T1016_001
| T1018
| T1020
| T1020_001
| T1021
| T1021_001
| T1021_002
| T1021_003
| T1021_004
| T1021_005
| T1021_006
| T1025
| T1027
| T1027_001
| T1027_002
| T1027_003
| T1027_004
| T1027_005
| T1029
| T1030
| T1033
| T1036
| T1036_001
| T1036_002
| T1036_003
| T1036_004
| T1036_005
| T1036_006
| T1037
| T1037_001
| T1037_002
| T1037_003
| T1037_004
| T1037_005
| T1039
| T1040
| T1041
| T1046
| T1047
| T1048
| T1048_001
| T1048_002
| T1048_003
| T1049
| T1052
| T1052_001
| T1053
| T1053_001
| T1053_002
| T1053_003
| T1053_004
| T1053_005
| T1053_006
| T1053_007
| T1055
| T1055_001
| T1055_002
| T1055_003
| T1055_004
| T1055_005
| T1055_008
| T1055_009
| T1055_011
| T1055_012
| T1055_013
| T1055_014
| T1056
| T1056_001
| T1056_002
| T1056_003
| T1056_004
| T1057
| T1059
| T1059_001
| T1059_002
| T1059_003
| T1059_004
| T1059_005
| T1059_006
| T1059_007
| T1059_008
| T1068
| T1069
| T1069_001
| T1069_002
| T1069_003
| T1070
| T1070_001
| T1070_002
| T1070_003
| T1070_004
| T1070_005
| T1070_006
| T1071
| T1071_001
| T1071_002
| T1071_003
| T1071_004
| T1072
| T1074
| T1074_001
| T1074_002
| T1078
| T1078_001
| T1078_002
| T1078_003
| T1078_004
| T1080
| T1082
| T1083
| T1087
| T1087_001
| T1087_002
| T1087_003
| T1087_004
| T1090
| T1090_001
| T1090_002
| T1090_003
| T1090_004
| T1091
| T1092
| T1095
| T1098
| T1098_001
| T1098_002
| T1098_003
| T1098_004
| T1102
| T1102_001
| T1102_002
| T1102_003
| T1104
| T1105
| T1106
| T1110
| T1110_001
| T1110_002
| T1110_003
| T1110_004
| T1111
| T1112
| T1113
| T1114
| T1114_001
| T1114_002
| T1114_003
| T1115
| T1119
| T1120
| T1123
| T1124
| T1125
| T1127
| T1127_001
| T1129
| T1132
| T1132_001
| T1132_002
| T1133
| T1134
| T1134_001
| T1134_002
| T1134_003
| T1134_004
| T1134_005
| T1135
| T1136
| T1136_001
| T1136_002
| T1136_003
| T1137
| T1137_001
| T1137_002
| T1137_003
| T1137_004
| T1137_005
| T1137_006
| T1140
| T1176
| T1185
| T1187
| T1189
| T1190
| T1195
| T1195_001
| T1195_002
| T1195_003
| T1197
| T1199
| T1200
| T1201
| T1202
| T1203
| T1204
| T1204_001
| T1204_002
| T1204_003
| T1205
| T1205_001
| T1207
| T1210
| T1211
| T1212
| T1213
| T1213_001
| T1213_002
| T1216
| T1216_001
| T1217
| T1218
| T1218_001
| T1218_002
| T1218_003
| T1218_004
| T1218_005
| T1218_007
| T1218_008
| T1218_009
| T1218_010
| T1218_011
| T1218_012
| T1219
| T1220
| T1221
| T1222
| T1222_001
| T1222_002
| T1480
| T1480_001
| T1482
| T1484
| T1484_001
| T1484_002
| T1485
| T1486
| T1489
| T1490
| T1491
| T1491_001
| T1491_002
| T1495
| T1496
| T1497
| T1497_001
| T1497_002
| T1497_003
| T1498
| T1498_001
| T1498_002
| T1499
| T1499_001
| T1499_002
| T1499_003
| T1499_004
| T1505
| T1505_001
| T1505_002
| T1505_003
| T1518
| T1518_001
| T1525
| T1526
| T1528
| T1529
| T1530
| T1531
| T1534
| T1535
| T1537
| T1538
| T1539
| T1542
| T1542_001
| T1542_002
| T1542_003
| T1542_004
| T1542_005
| T1543
| T1543_001
| T1543_002
| T1543_003
| T1543_004
| T1546
| T1546_001
| T1546_002
| T1546_003
| T1546_004
| T1546_005
| T1546_006
| T1546_007
| T1546_008
| T1546_009
| T1546_010
| T1546_011
| T1546_012
| T1546_013
| T1546_014
| T1546_015
| T1547
| T1547_001
| T1547_002
| T1547_003
| T1547_004
| T1547_005
| T1547_006
| T1547_007
| T1547_008
| T1547_009
| T1547_010
| T1547_011
| T1547_012
| T1547_013
| T1547_014
| T1548
| T1548_001
| T1548_002
| T1548_003
| T1548_004
| T1550
| T1550_001
| T1550_002
| T1550_003
| T1550_004
| T1552
| T1552_001
| T1552_002
| T1552_003
| T1552_004
| T1552_005
| T1552_006
| T1552_007
| T1553
| T1553_001
| T1553_002
| T1553_003
| T1553_004
| T1553_005
| T1553_006
| T1554
| T1555
| T1555_001
| T1555_002
| T1555_003
| T1555_004
| T1555_005
| T1556
| T1556_001
| T1556_002
| T1556_003
| T1556_004
| T1557
| T1557_001
| T1557_002
| T1558
| T1558_001
| T1558_002
| T1558_003
| T1558_004
| T1559
| T1559_001
| T1559_002
| T1560
| T1560_001
| T1560_002
| T1560_003
| T1561
| T1561_001
| T1561_002
| T1562
| T1562_001
| T1562_002
| T1562_003
| T1562_004
| T1562_006
| T1562_007
| T1562_008
| T1563
| T1563_001
| T1563_002
| T1564
| T1564_001
| T1564_002
| T1564_003
| T1564_004
| T1564_005
| T1564_006
| T1564_007
| T1565
| T1565_001
| T1565_002
| T1565_003
| T1566
| T1566_001
| T1566_002
| T1566_003
| T1567
| T1567_001
| T1567_002
| T1568
| T1568_001
| T1568_002
| T1568_003
| T1569
| T1569_001
| T1569_002
| T1570
| T1571
| T1572
| T1573
| T1573_001
| T1573_002
| T1574
| T1574_001
| T1574_002
| T1574_004
| T1574_005
| T1574_006
| T1574_007
| T1574_008
| T1574_009
| T1574_010
| T1574_011
| T1574_012
| T1578
| T1578_001
| T1578_002
| T1578_003
| T1578_004
| T1580
| T1583
| T1583_001
| T1583_002
| T1583_003
| T1583_004
| T1583_005
| T1583_006
| T1584
| T1584_001
| T1584_002
| T1584_003
| T1584_004
| T1584_005
| T1584_006
| T1585
| T1585_001
| T1585_002
| T1586
| T1586_001
| T1586_002
| T1587
| T1587_001
| T1587_002
| T1587_003
| T1587_004
| T1588
| T1588_001
| T1588_002
| T1588_003
| T1588_004
| T1588_005
| T1588_006
| T1589
| T1589_001
| T1589_002
| T1589_003
| T1590
| T1590_001
| T1590_002
| T1590_003
| T1590_004
| T1590_005
| T1590_006
| T1591
| T1591_001
| T1591_002
| T1591_003
| T1591_004
| T1592
| T1592_001
| T1592_002
| T1592_003
| T1592_004
| T1593
| T1593_001
| T1593_002
| T1594
| T1595
| T1595_001
| T1595_002
| T1596
| T1596_001
| T1596_002
| T1596_003
| T1596_004
| T1596_005
| T1597
| T1597_001
| T1597_002
| T1598
| T1598_001
| T1598_002
| T1598_003
| T1599
| T1599_001
| T1600
| T1600_001
| T1600_002
| T1601
| T1601_001
| T1601_002
| T1602
| T1602_001
| T1602_002
| T1606
| T1606_001
| T1606_002
| T1608
| T1608_001
| T1608_002
| T1608_003
| T1608_004
| T1608_005
| T1609
| T1610
| T1611
| T1612
| T1613
| T1614.
(** Every variant *)
Definition technique_all : list technique := [
  T1001;
  T1001_001;
  T1001_002;
  T1001_003;
  T1003;
  T1003_001;
  T1003_002;
  T1003_003;
  T1003_004;
  T1003_005;
  T1003_006;
  T1003_007;
  T1003_008;
  T1005;
  T1006;
  T1007;
  T1008;
  T1010;
  T1011;
  T1011_001;
  T1012;
  T1014;
  T1016;
  T1016_001;
  T1018;
  T1020;
  T1020_001;
  T1021;
  T1021_001;
  T1021_002;
  T1021_003;
  T1021_004;
  T1021_005;
  T1021_006;
  T1025;
  T1027;
  T1027_001;
  T1027_002;
  T1027_003;
  T1027_004;
  T1027_005;
  T1029;
  T1030;
  T1033;
  T1036;
  T1036_001;
  T1036_002;
  T1036_003;
  T1036_004;
  T1036_005;
  T1036_006;
  T1037;
  T1037_001;
  T1037_002;
  T1037_003;
  T1037_004;
  T1037_005;
  T1039;
  T1040;
  T1041;
  T1046;
  T1047;
  T1048;
  T1048_001;
  T1048_002;
  T1048_003;
  T1049;
  T1052;
  T1052_001;
  T1053;
  T1053_001;
  T1053_002;
  T1053_003;
  T1053_004;
  T1053_005;
  T1053_006;
  T1053_007;
  T1055;
  T1055_001;
  T1055_002;
  T1055_003;
  T1055_004;
  T1055_005;
  T1055_008;
  T1055_009;
  T1055_011;
  T1055_012;
  T1055_013;
  T1055_014;
  T1056;
  T1056_001;
  T1056_002;
  T1056_003;
  T1056_004;
  T1057;
  T1059;
  T1059_001;
  T1059_002;
  T1059_003;
  T1059_004;
  T1059_005;
  T1059_006;
  T1059_007;
  T1059_008;
  T1068;
  T1069;
  T1069_001;
  T1069_002;
  T1069_003;
  T1070;
  T1070_001;
  T1070_002;
  T1070_003;
  T1070_004;
  T1070_005;
  T1070_006;
  T1071;
  T1071_001;
  T1071_002;
  T1071_003;
  T1071_004;
  T1072;
  T1074;
  T1074_001;
  T1074_002;
  T1078;
  T1078_001;
  T1078_002;
  T1078_003;
  T1078_004;
  T1080;
  T1082;
  T1083;
  T1087;
  T1087_001;
  T1087_002;
  T1087_003;
  T1087_004;
  T1090;
  T1090_001;
  T1090_002;
  T1090_003;
  T1090_004;
  T1091;
  T1092;
  T1095;
  T1098;
  T1098_001;
  T1098_002;
  T1098_003;
  T1098_004;
  T1102;
  T1102_001;
  T1102_002;
  T1102_003;
  T1104;
  T1105;
  T1106;
  T1110;
  T1110_001;
  T1110_002;
  T1110_003;
  T1110_004;
  T1111;
  T1112;
  T1113;
  T1114;
  T1114_001;
  T1114_002;
  T1114_003;
  T1115;
  T1119;
  T1120;
  T1123;
  T1124;
  T1125;
  T1127;
  T1127_001;
  T1129;
  T1132;
  T1132_001;
  T1132_002;
  T1133;
  T1134;
  T1134_001;
  T1134_002;
  T1134_003;
  T1134_004;
  T1134_005;
  T1135;
  T1136;
  T1136_001;
  T1136_002;
  T1136_003;
  T1137;
  T1137_001;
  T1137_002;
  T1137_003;
  T1137_004;
  T1137_005;
  T1137_006;
  T1140;
  T1176;
  T1185;
  T1187;
  T1189;
  T1190;
  T1195;
  T1195_001;
  T1195_002;
  T1195_003;
  T1197;
  T1199;
  T1200;
  T1201;
  T1202;
  T1203;
  T1204;
  T1204_001;
  T1204_002;
  T1204_003;
  T1205;
  T1205_001;
  T1207;
  T1210;
  T1211;
  T1212;
  T1213;
  T1213_001;
  T1213_002;
  T1216;
  T1216_001;
  T1217;
  T1218;
  T1218_001;
  T1218_002;
  T1218_003;
  T1218_004;
  T1218_005;
  T1218_007;
  T1218_008;
  T1218_009;
  T1218_010;
  T1218_011;
  T1218_012;
  T1219;
  T1220;
  T1221;
  T1222;
  T1222_001;
  T1222_002;
  T1480;
  T1480_001;
  T1482;
  T1484;
  T1484_001;
  T1484_002;
  T1485;
  T1486;
  T1489;
  T1490;
  T1491;
  T1491_001;
  T1491_002;
  T1495;
  T1496;
  T1497;
  T1497_001;
  T1497_002;
  T1497_003;
  T1498;
  T1498_001;
  T1498_002;
  T1499;
  T1499_001;
  T1499_002;
  T1499_003;
  T1499_004;
  T1505;
  T1505_001;
  T1505_002;
  T1505_003;
  T1518;
  T1518_001;
  T1525;
  T1526;
  T1528;
  T1529;
  T1530;
  T1531;
  T1534;
  T1535;
  T1537;
  T1538;
  T1539;
  T1542;
  T1542_001;
  T1542_002;
  T1542_003;
  T1542_004;
  T1542_005;
  T1543;
  T1543_001;
  T1543_002;
  T1543_003;
  T1543_004;
  T1546;
  T1546_001;
  T1546_002;
  T1546_003;
  T1546_004;
  T1546_005;
  T1546_006;
  T1546_007;
  T1546_008;
  T1546_009;
  T1546_010;
  T1546_011;
  T1546_012;
  T1546_013;
  T1546_014;
  T1546_015;
  T1547;
  T1547_001;
  T1547_002;
  T1547_003;
  T1547_004;
  T1547_005;
  T1547_006;
  T1547_007;
  T1547_008;
  T1547_009;
  T1547_010;
  T1547_011;
  T1547_012;
  T1547_013;
  T1547_014;
  T1548;
  T1548_001;
  T1548_002;
  T1548_003;
  T1548_004;
  T1550;
  T1550_001;
  T1550_002;
  T1550_003;
  T1550_004;
  T1552;
  T1552_001;
  T1552_002;
  T1552_003;
  T1552_004;
  T1552_005;
  T1552_006;
  T1552_007;
  T1553;
  T1553_001;
  T1553_002;
  T1553_003;
  T1553_004;
  T1553_005;
  T1553_006;
  T1554;
  T1555;
  T1555_001;
  T1555_002;
  T1555_003;
  T1555_004;
  T1555_005;
  T1556;
  T1556_001;
  T1556_002;
  T1556_003;
  T1556_004;
  T1557;
  T1557_001;
  T1557_002;
  T1558;
  T1558_001;
  T1558_002;
  T1558_003;
  T1558_004;
  T1559;
  T1559_001;
  T1559_002;
  T1560;
  T1560_001;
  T1560_002;
  T1560_003;
  T1561;
  T1561_001;
  T1561_002;
  T1562;
  T1562_001;
  T1562_002;
  T1562_003;
  T1562_004;
  T1562_006;
  T1562_007;
  T1562_008;
  T1563;
  T1563_001;
  T1563_002;
  T1564;
  T1564_001;
  T1564_002;
  T1564_003;
  T1564_004;
  T1564_005;
  T1564_006;
  T1564_007;
  T1565;
  T1565_001;
  T1565_002;
  T1565_003;
  T1566;
  T1566_001;
  T1566_002;
  T1566_003;
  T1567;
  T1567_001;
  T1567_002;
  T1568;
  T1568_001;
  T1568_002;
  T1568_003;
  T1569;
  T1569_001;
  T1569_002;
  T1570;
  T1571;
  T1572;
  T1573;
  T1573_001;
  T1573_002;
  T1574;
  T1574_001;
  T1574_002;
  T1574_004;
  T1574_005;
  T1574_006;
  T1574_007;
  T1574_008;
  T1574_009;
  T1574_010;
  T1574_011;
  T1574_012;
  T1578;
  T1578_001;
  T1578_002;
  T1578_003;
  T1578_004;
  T1580;
  T1583;
  T1583_001;
  T1583_002;
  T1583_003;
  T1583_004;
  T1583_005;
  T1583_006;
  T1584;
  T1584_001;
  T1584_002;
  T1584_003;
  T1584_004;
  T1584_005;
  T1584_006;
  T1585;
  T1585_001;
  T1585_002;
  T1586;
  T1586_001;
  T1586_002;
  T1587;
  T1587_001;
  T1587_002;
  T1587_003;
  T1587_004;
  T1588;
  T1588_001;
  T1588_002;
  T1588_003;
  T1588_004;
  T1588_005;
  T1588_006;
  T1589;
  T1589_001;
  T1589_002;
  T1589_003;
  T1590;
  T1590_001;
  T1590_002;
  T1590_003;
  T1590_004;
  T1590_005;
  T1590_006;
  T1591;
  T1591_001;
  T1591_002;
  T1591_003;
  T1591_004;
  T1592;
  T1592_001;
  T1592_002;
  T1592_003;
  T1592_004;
  T1593;
  T1593_001;
  T1593_002;
  T1594;
  T1595;
  T1595_001;
  T1595_002;
  T1596;
  T1596_001;
  T1596_002;
  T1596_003;
  T1596_004;
  T1596_005;
  T1597;
  T1597_001;
  T1597_002;
  T1598;
  T1598_001;
  T1598_002;
  T1598_003;
  T1599;
  T1599_001;
  T1600;
  T1600_001;
  T1600_002;
  T1601;
  T1601_001;
  T1601_002;
  T1602;
  T1602_001;
  T1602_002;
  T1606;
  T1606_001;
  T1606_002;
  T1608;
  T1608_001;
  T1608_002;
  T1608_003;
  T1608_004;
  T1608_005;
  T1609;
  T1610;
  T1611;
  T1612;
  T1613;
  T1614].
(** The name of the variant: what the derived [Debug] and [Serialize] write. *)
Definition technique_name (x : technique) : string :=
  match x with
  | T1001 => "T1001"
  | T1001_001 => "T1001_001"
  | T1001_002 => "T1001_002"
  | T1001_003 => "T1001_003"
  | T1003 => "T1003"
  | T1003_001 => "T1003_001"
  | T1003_002 => "T1003_002"
  | T1003_003 => "T1003_003"
  | T1003_004 => "T1003_004"
  | T1003_005 => "T1003_005"
  | T1003_006 => "T1003_006"
  | T1003_007 => "T1003_007"
  | T1003_008 => "T1003_008"
  | T1005 => "T1005"
  | T1006 => "T1006"
  | T1007 => "T1007"
  | T1008 => "T1008"
  | T1010 => "T1010"
  | T1011 => "T1011"
  | T1011_001 => "T1011_001"
  | T1012 => "T1012"
  | T1014 => "T1014"
  | T1016 => "T1016"
  | T1016_001 => "T1016_001"
  | T1018 => "T1018"
  | T1020 => "T1020"
  | T1020_001 => "T1020_001"
  | T1021 => "T1021"
  | T1021_001 => "T1021_001"
  | T1021_002 => "T1021_002"
  | T1021_003 => "T1021_003"
  | T1021_004 => "T1021_004"
  | T1021_005 => "T1021_005"
  | T1021_006 => "T1021_006"
  | T1025 => "T1025"
  | T1027 => "T1027"
  | T1027_001 => "T1027_001"
  | T1027_002 => "T1027_002"
  | T1027_003 => "T1027_003"
  | T1027_004 => "T1027_004"
  | T1027_005 => "T1027_005"
  | T1029 => "T1029"
  | T1030 => "T1030"
  | T1033 => "T1033"
  | T1036 => "T1036"
  | T1036_001 => "T1036_001"
  | T1036_002 => "T1036_002"
  | T1036_003 => "T1036_003"
  | T1036_004 => "T1036_004"
  | T1036_005 => "T1036_005"
  | T1036_006 => "T1036_006"
  | T1037 => "T1037"
  | T1037_001 => "T1037_001"
  | T1037_002 => "T1037_002"
  | T1037_003 => "T1037_003"
  | T1037_004 => "T1037_004"
  | T1037_005 => "T1037_005"
  | T1039 => "T1039"
  | T1040 => "T1040"
  | T1041 => "T1041"
  | T1046 => "T1046"
  | T1047 => "T1047"
  | T1048 => "T1048"
  | T1048_001 => "T1048_001"
  | T1048_002 => "T1048_002"
  | T1048_003 => "T1048_003"
  | T1049 => "T1049"
  | T1052 => "T1052"
  | T1052_001 => "T1052_001"
  | T1053 => "T1053"
  | T1053_001 => "T1053_001"
  | T1053_002 => "T1053_002"
  | T1053_003 => "T1053_003"
  | T1053_004 => "T1053_004"
  | T1053_005 => "T1053_005"
  | T1053_006 => "T1053_006"
  | T1053_007 => "T1053_007"
  | T1055 => "T1055"
  | T1055_001 => "T1055_001"
  | T1055_002 => "T1055_002"
  | T1055_003 => "T1055_003"
  | T1055_004 => "T1055_004"
  | T1055_005 => "T1055_005"
  | T1055_008 => "T1055_008"
  | T1055_009 => "T1055_009"
  | T1055_011 => "T1055_011"
  | T1055_012 => "T1055_012"
  | T1055_013 => "T1055_013"
  | T1055_014 => "T1055_014"
  | T1056 => "T1056"
  | T1056_001 => "T1056_001"
  | T1056_002 => "T1056_002"
  | T1056_003 => "T1056_003"
  | T1056_004 => "T1056_004"
  | T1057 => "T1057"
  | T1059 => "T1059"
  | T1059_001 => "T1059_001"
  | T1059_002 => "T1059_002"
  | T1059_003 => "T1059_003"
  | T1059_004 => "T1059_004"
  | T1059_005 => "T1059_005"
  | T1059_006 => "T1059_006"
  | T1059_007 => "T1059_007"
  | T1059_008 => "T1059_008"
  | T1068 => "T1068"
  | T1069 => "T1069"
  | T1069_001 => "T1069_001"
  | T1069_002 => "T1069_002"
  | T1069_003 => "T1069_003"
  | T1070 => "T1070"
  | T1070_001 => "T1070_001"
  | T1070_002 => "T1070_002"
  | T1070_003 => "T1070_003"
  | T1070_004 => "T1070_004"
  | T1070_005 => "T1070_005"
  | T1070_006 => "T1070_006"
  | T1071 => "T1071"
  | T1071_001 => "T1071_001"
  | T1071_002 => "T1071_002"
  | T1071_003 => "T1071_003"
  | T1071_004 => "T1071_004"
  | T1072 => "T1072"
  | T1074 => "T1074"
  | T1074_001 => "T1074_001"
  | T1074_002 => "T1074_002"
  | T1078 => "T1078"
  | T1078_001 => "T1078_001"
  | T1078_002 => "T1078_002"
  | T1078_003 => "T1078_003"
  | T1078_004 => "T1078_004"
  | T1080 => "T1080"
  | T1082 => "T1082"
  | T1083 => "T1083"
  | T1087 => "T1087"
  | T1087_001 => "T1087_001"
  | T1087_002 => "T1087_002"
  | T1087_003 => "T1087_003"
  | T1087_004 => "T1087_004"
  | T1090 => "T1090"
  | T1090_001 => "T1090_001"
  | T1090_002 => "T1090_002"
  | T1090_003 => "T1090_003"
  | T1090_004 => "T1090_004"
  | T1091 => "T1091"
  | T1092 => "T1092"
  | T1095 => "T1095"
  | T1098 => "T1098"
  | T1098_001 => "T1098_001"
  | T1098_002 => "T1098_002"
  | T1098_003 => "T1098_003"
  | T1098_004 => "T1098_004"
  | T1102 => "T1102"
  | T1102_001 => "T1102_001"
  | T1102_002 => "T1102_002"
  | T1102_003 => "T1102_003"
  | T1104 => "T1104"
  | T1105 => "T1105"
  | T1106 => "T1106"
  | T1110 => "T1110"
  | T1110_001 => "T1110_001"
  | T1110_002 => "T1110_002"
  | T1110_003 => "T1110_003"
  | T1110_004 => "T1110_004"
  | T1111 => "T1111"
  | T1112 => "T1112"
  | T1113 => "T1113"
  | T1114 => "T1114"
  | T1114_001 => "T1114_001"
  | T1114_002 => "T1114_002"
  | T1114_003 => "T1114_003"
  | T1115 => "T1115"
  | T1119 => "T1119"
  | T1120 => "T1120"
  | T1123 => "T1123"
  | T1124 => "T1124"
  | T1125 => "T1125"
  | T1127 => "T1127"
  | T1127_001 => "T1127_001"
  | T1129 => "T1129"
  | T1132 => "T1132"
  | T1132_001 => "T1132_001"
  | T1132_002 => "T1132_002"
  | T1133 => "T1133"
  | T1134 => "T1134"
  | T1134_001 => "T1134_001"
  | T1134_002 => "T1134_002"
  | T1134_003 => "T1134_003"
  | T1134_004 => "T1134_004"
  | T1134_005 => "T1134_005"
  | T1135 => "T1135"
  | T1136 => "T1136"
  | T1136_001 => "T1136_001"
  | T1136_002 => "T1136_002"
  | T1136_003 => "T1136_003"
  | T1137 => "T1137"
  | T1137_001 => "T1137_001"
  | T1137_002 => "T1137_002"
  | T1137_003 => "T1137_003"
  | T1137_004 => "T1137_004"
  | T1137_005 => "T1137_005"
  | T1137_006 => "T1137_006"
  | T1140 => "T1140"
  | T1176 => "T1176"
  | T1185 => "T1185"
  | T1187 => "T1187"
  | T1189 => "T1189"
  | T1190 => "T1190"
  | T1195 => "T1195"
  | T1195_001 => "T1195_001"
  | T1195_002 => "T1195_002"
  | T1195_003 => "T1195_003"
  | T1197 => "T1197"
  | T1199 => "T1199"
  | T1200 => "T1200"
  | T1201 => "T1201"
  | T1202 => "T1202"
  | T1203 => "T1203"
  | T1204 => "T1204"
  | T1204_001 => "T1204_001"
  | T1204_002 => "T1204_002"
  | T1204_003 => "T1204_003"
  | T1205 => "T1205"
  | T1205_001 => "T1205_001"
  | T1207 => "T1207"
  | T1210 => "T1210"
  | T1211 => "T1211"
  | T1212 => "T1212"
  | T1213 => "T1213"
  | T1213_001 => "T1213_001"
  | T1213_002 => "T1213_002"
  | T1216 => "T1216"
  | T1216_001 => "T1216_001"
  | T1217 => "T1217"
  | T1218 => "T1218"
  | T1218_001 => "T1218_001"
  | T1218_002 => "T1218_002"
  | T1218_003 => "T1218_003"
  | T1218_004 => "T1218_004"
  | T1218_005 => "T1218_005"
  | T1218_007 => "T1218_007"
  | T1218_008 => "T1218_008"
  | T1218_009 => "T1218_009"
  | T1218_010 => "T1218_010"
  | T1218_011 => "T1218_011"
  | T1218_012 => "T1218_012"
  | T1219 => "T1219"
  | T1220 => "T1220"
  | T1221 => "T1221"
  | T1222 => "T1222"
  | T1222_001 => "T1222_001"
  | T1222_002 => "T1222_002"
  | T1480 => "T1480"
  | T1480_001 => "T1480_001"
  | T1482 => "T1482"
  | T1484 => "T1484"
  | T1484_001 => "T1484_001"
  | T1484_002 => "T1484_002"
  | T1485 => "T1485"
  | T1486 => "T1486"
  | T1489 => "T1489"
  | T1490 => "T1490"
  | T1491 => "T1491"
  | T1491_001 => "T1491_001"
  | T1491_002 => "T1491_002"
  | T1495 => "T1495"
  | T1496 => "T1496"
  | T1497 => "T1497"
  | T1497_001 => "T1497_001"
  | T1497_002 => "T1497_002"
  | T1497_003 => "T1497_003"
  | T1498 => "T1498"
  | T1498_001 => "T1498_001"
  | T1498_002 => "T1498_002"
  | T1499 => "T1499"
  | T1499_001 => "T1499_001"
  | T1499_002 => "T1499_002"
  | T1499_003 => "T1499_003"
  | T1499_004 => "T1499_004"
  | T1505 => "T1505"
  | T1505_001 => "T1505_001"
  | T1505_002 => "T1505_002"
  | T1505_003 => "T1505_003"
  | T1518 => "T1518"
  | T1518_001 => "T1518_001"
  | T1525 => "T1525"
  | T1526 => "T1526"
  | T1528 => "T1528"
  | T1529 => "T1529"
  | T1530 => "T1530"
  | T1531 => "T1531"
  | T1534 => "T1534"
  | T1535 => "T1535"
  | T1537 => "T1537"
  | T1538 => "T1538"
  | T1539 => "T1539"
  | T1542 => "T1542"
  | T1542_001 => "T1542_001"
  | T1542_002 => "T1542_002"
  | T1542_003 => "T1542_003"
  | T1542_004 => "T1542_004"
  | T1542_005 => "T1542_005"
  | T1543 => "T1543"
  | T1543_001 => "T1543_001"
  | T1543_002 => "T1543_002"
  | T1543_003 => "T1543_003"
  | T1543_004 => "T1543_004"
  | T1546 => "T1546"
  | T1546_001 => "T1546_001"
  | T1546_002 => "T1546_002"
  | T1546_003 => "T1546_003"
  | T1546_004 => "T1546_004"
  | T1546_005 => "T1546_005"
  | T1546_006 => "T1546_006"
  | T1546_007 => "T1546_007"
  | T1546_008 => "T1546_008"
  | T1546_009 => "T1546_009"
  | T1546_010 => "T1546_010"
  | T1546_011 => "T1546_011"
  | T1546_012 => "T1546_012"
  | T1546_013 => "T1546_013"
  | T1546_014 => "T1546_014"
  | T1546_015 => "T1546_015"
  | T1547 => "T1547"
  | T1547_001 => "T1547_001"
  | T1547_002 => "T1547_002"
  | T1547_003 => "T1547_003"
  | T1547_004 => "T1547_004"
  | T1547_005 => "T1547_005"
  | T1547_006 => "T1547_006"
  | T1547_007 => "T1547_007"
  | T1547_008 => "T1547_008"
  | T1547_009 => "T1547_009"
  | T1547_010 => "T1547_010"
  | T1547_011 => "T1547_011"
  | T1547_012 => "T1547_012"
  | T1547_013 => "T1547_013"
  | T1547_014 => "T1547_014"
  | T1548 => "T1548"
  | T1548_001 => "T1548_001"
  | T1548_002 => "T1548_002"
  | T1548_003 => "T1548_003"
  | T1548_004 => "T1548_004"
  | T1550 => "T1550"
  | T1550_001 => "T1550_001"
  | T1550_002 => "T1550_002"
  | T1550_003 => "T1550_003"
  | T1550_004 => "T1550_004"
  | T1552 => "T1552"
  | T1552_001 => "T1552_001"
  | T1552_002 => "T1552_002"
  | T1552_003 => "T1552_003"
  | T1552_004 => "T1552_004"
  | T1552_005 => "T1552_005"
  | T1552_006 => "T1552_006"
  | T1552_007 => "T1552_007"
  | T1553 => "T1553"
  | T1553_001 => "T1553_001"
  | T1553_002 => "T1553_002"
  | T1553_003 => "T1553_003"
  | T1553_004 => "T1553_004"
  | T1553_005 => "T1553_005"
  | T1553_006 => "T1553_006"
  | T1554 => "T1554"
  | T1555 => "T1555"
  | T1555_001 => "T1555_001"
  | T1555_002 => "T1555_002"
  | T1555_003 => "T1555_003"
  | T1555_004 => "T1555_004"
  | T1555_005 => "T1555_005"
  | T1556 => "T1556"
  | T1556_001 => "T1556_001"
  | T1556_002 => "T1556_002"
  | T1556_003 => "T1556_003"
  | T1556_004 => "T1556_004"
  | T1557 => "T1557"
  | T1557_001 => "T1557_001"
  | T1557_002 => "T1557_002"
  | T1558 => "T1558"
  | T1558_001 => "T1558_001"
  | T1558_002 => "T1558_002"
  | T1558_003 => "T1558_003"
  | T1558_004 => "T1558_004"
  | T1559 => "T1559"
  | T1559_001 => "T1559_001"
  | T1559_002 => "T1559_002"
  | T1560 => "T1560"
  | T1560_001 => "T1560_001"
  | T1560_002 => "T1560_002"
  | T1560_003 => "T1560_003"
  | T1561 => "T1561"
  | T1561_001 => "T1561_001"
  | T1561_002 => "T1561_002"
  | T1562 => "T1562"
  | T1562_001 => "T1562_001"
  | T1562_002 => "T1562_002"
  | T1562_003 => "T1562_003"
  | T1562_004 => "T1562_004"
  | T1562_006 => "T1562_006"
  | T1562_007 => "T1562_007"
  | T1562_008 => "T1562_008"
  | T1563 => "T1563"
  | T1563_001 => "T1563_001"
  | T1563_002 => "T1563_002"
  | T1564 => "T1564"
  | T1564_001 => "T1564_001"
  | T1564_002 => "T1564_002"
  | T1564_003 => "T1564_003"
  | T1564_004 => "T1564_004"
  | T1564_005 => "T1564_005"
  | T1564_006 => "T1564_006"
  | T1564_007 => "T1564_007"
  | T1565 => "T1565"
  | T1565_001 => "T1565_001"
  | T1565_002 => "T1565_002"
  | T1565_003 => "T1565_003"
  | T1566 => "T1566"
  | T1566_001 => "T1566_001"
  | T1566_002 => "T1566_002"
  | T1566_003 => "T1566_003"
  | T1567 => "T1567"
  | T1567_001 => "T1567_001"
  | T1567_002 => "T1567_002"
  | T1568 => "T1568"
  | T1568_001 => "T1568_001"
  | T1568_002 => "T1568_002"
  | T1568_003 => "T1568_003"
  | T1569 => "T1569"
  | T1569_001 => "T1569_001"
  | T1569_002 => "T1569_002"
  | T1570 => "T1570"
  | T1571 => "T1571"
  | T1572 => "T1572"
  | T1573 => "T1573"
  | T1573_001 => "T1573_001"
  | T1573_002 => "T1573_002"
  | T1574 => "T1574"
  | T1574_001 => "T1574_001"
  | T1574_002 => "T1574_002"
  | T1574_004 => "T1574_004"
  | T1574_005 => "T1574_005"
  | T1574_006 => "T1574_006"
  | T1574_007 => "T1574_007"
  | T1574_008 => "T1574_008"
  | T1574_009 => "T1574_009"
  | T1574_010 => "T1574_010"
  | T1574_011 => "T1574_011"
  | T1574_012 => "T1574_012"
  | T1578 => "T1578"
  | T1578_001 => "T1578_001"
  | T1578_002 => "T1578_002"
  | T1578_003 => "T1578_003"
  | T1578_004 => "T1578_004"
  | T1580 => "T1580"
  | T1583 => "T1583"
  | T1583_001 => "T1583_001"
  | T1583_002 => "T1583_002"
  | T1583_003 => "T1583_003"
  | T1583_004 => "T1583_004"
  | T1583_005 => "T1583_005"
  | T1583_006 => "T1583_006"
  | T1584 => "T1584"
  | T1584_001 => "T1584_001"
  | T1584_002 => "T1584_002"
  | T1584_003 => "T1584_003"
  | T1584_004 => "T1584_004"
  | T1584_005 => "T1584_005"
  | T1584_006 => "T1584_006"
  | T1585 => "T1585"
  | T1585_001 => "T1585_001"
  | T1585_002 => "T1585_002"
  | T1586 => "T1586"
  | T1586_001 => "T1586_001"
  | T1586_002 => "T1586_002"
  | T1587 => "T1587"
  | T1587_001 => "T1587_001"
  | T1587_002 => "T1587_002"
  | T1587_003 => "T1587_003"
  | T1587_004 => "T1587_004"
  | T1588 => "T1588"
  | T1588_001 => "T1588_001"
  | T1588_002 => "T1588_002"
  | T1588_003 => "T1588_003"
  | T1588_004 => "T1588_004"
  | T1588_005 => "T1588_005"
  | T1588_006 => "T1588_006"
  | T1589 => "T1589"
  | T1589_001 => "T1589_001"
  | T1589_002 => "T1589_002"
  | T1589_003 => "T1589_003"
  | T1590 => "T1590"
  | T1590_001 => "T1590_001"
  | T1590_002 => "T1590_002"
  | T1590_003 => "T1590_003"
  | T1590_004 => "T1590_004"
  | T1590_005 => "T1590_005"
  | T1590_006 => "T1590_006"
  | T1591 => "T1591"
  | T1591_001 => "T1591_001"
  | T1591_002 => "T1591_002"
  | T1591_003 => "T1591_003"
  | T1591_004 => "T1591_004"
  | T1592 => "T1592"
  | T1592_001 => "T1592_001"
  | T1592_002 => "T1592_002"
  | T1592_003 => "T1592_003"
  | T1592_004 => "T1592_004"
  | T1593 => "T1593"
  | T1593_001 => "T1593_001"
  | T1593_002 => "T1593_002"
  | T1594 => "T1594"
  | T1595 => "T1595"
  | T1595_001 => "T1595_001"
  | T1595_002 => "T1595_002"
  | T1596 => "T1596"
  | T1596_001 => "T1596_001"
  | T1596_002 => "T1596_002"
  | T1596_003 => "T1596_003"
  | T1596_004 => "T1596_004"
  | T1596_005 => "T1596_005"
  | T1597 => "T1597"
  | T1597_001 => "T1597_001"
  | T1597_002 => "T1597_002"
  | T1598 => "T1598"
  | T1598_001 => "T1598_001"
  | T1598_002 => "T1598_002"
  | T1598_003 => "T1598_003"
  | T1599 => "T1599"
  | T1599_001 => "T1599_001"
  | T1600 => "T1600"
  | T1600_001 => "T1600_001"
  | T1600_002 => "T1600_002"
  | T1601 => "T1601"
  | T1601_001 => "T1601_001"
  | T1601_002 => "T1601_002"
  | T1602 => "T1602"
  | T1602_001 => "T1602_001"
  | T1602_002 => "T1602_002"
  | T1606 => "T1606"
  | T1606_001 => "T1606_001"
  | T1606_002 => "T1606_002"
  | T1608 => "T1608"
  | T1608_001 => "T1608_001"
  | T1608_002 => "T1608_002"
  | T1608_003 => "T1608_003"
  | T1608_004 => "T1608_004"
  | T1608_005 => "T1608_005"
  | T1609 => "T1609"
  | T1610 => "T1610"
  | T1611 => "T1611"
  | T1612 => "T1612"
  | T1613 => "T1613"
  | T1614 => "T1614"
  end.
(** mitre.rs:3104-4215: the arms of the match, in order *)
Definition technique_arms : list (string * technique) := [
  ("T1001", T1001);
  ("T1001.001", T1001_001);
  ("T1001.002", T1001_002);
  ("T1001.003", T1001_003);
  ("T1003", T1003);
  ("T1003.001", T1003_001);
  ("T1003.002", T1003_002);
  ("T1003.003", T1003_003);
  ("T1003.004", T1003_004);
  ("T1003.005", T1003_005);
  ("T1003.006", T1003_006);
  ("T1003.007", T1003_007);
  ("T1003.008", T1003_008);
  ("T1005", T1005);
  ("T1006", T1006);
  ("T1007", T1007);
  ("T1008", T1008);
  ("T1010", T1010);
  ("T1011", T1011);
  ("T1011.001", T1011_001);
  ("T1012", T1012);
  ("T1014", T1014);
  ("T1016", T1016);
  ("T1016.001", T1016_001);
  ("T1018", T1018);
  ("T1020", T1020);
  ("T1020.001", T1020_001);
  ("T1021", T1021);
  ("T1021.001", T1021_001);
  ("T1021.002", T1021_002);
  ("T1021.003", T1021_003);
  ("T1021.004", T1021_004);
  ("T1021.005", T1021_005);
  ("T1021.006", T1021_006);
  ("T1025", T1025);
  ("T1027", T1027);
  ("T1027.001", T1027_001);
  ("T1027.002", T1027_002);
  ("T1027.003", T1027_003);
  ("T1027.004", T1027_004);
  ("T1027.005", T1027_005);
  ("T1029", T1029);
  ("T1030", T1030);
  ("T1033", T1033);
  ("T1036", T1036);
  ("T1036.001", T1036_001);
  ("T1036.002", T1036_002);
  ("T1036.003", T1036_003);
  ("T1036.004", T1036_004);
  ("T1036.005", T1036_005);
  ("T1036.006", T1036_006);
  ("T1037", T1037);
  ("T1037.001", T1037_001);
  ("T1037.002", T1037_002);
  ("T1037.003", T1037_003);
  ("T1037.004", T1037_004);
  ("T1037.005", T1037_005);
  ("T1039", T1039);
  ("T1040", T1040);
  ("T1041", T1041);
  ("T1046", T1046);
  ("T1047", T1047);
  ("T1048", T1048);
  ("T1048.001", T1048_001);
  ("T1048.002", T1048_002);
  ("T1048.003", T1048_003);
  ("T1049", T1049);
  ("T1052", T1052);
  ("T1052.001", T1052_001);
  ("T1053", T1053);
  ("T1053.001", T1053_001);
  ("T1053.002", T1053_002);
  ("T1053.003", T1053_003);
  ("T1053.004", T1053_004);
  ("T1053.005", T1053_005);
  ("T1053.006", T1053_006);
  ("T1053.007", T1053_007);
  ("T1055", T1055);
  ("T1055.001", T1055_001);
  ("T1055.002", T1055_002);
  ("T1055.003", T1055_003);
  ("T1055.004", T1055_004);
  ("T1055.005", T1055_005);
  ("T1055.008", T1055_008);
  ("T1055.009", T1055_009);
  ("T1055.011", T1055_011);
  ("T1055.012", T1055_012);
  ("T1055.013", T1055_013);
  ("T1055.014", T1055_014);
  ("T1056", T1056);
  ("T1056.001", T1056_001);
  ("T1056.002", T1056_002);
  ("T1056.003", T1056_003);
  ("T1056.004", T1056_004);
  ("T1057", T1057);
  ("T1059", T1059);
  ("T1059.001", T1059_001);
  ("T1059.002", T1059_002);
  ("T1059.003", T1059_003);
  ("T1059.004", T1059_004);
  ("T1059.005", T1059_005);
  ("T1059.006", T1059_006);
  ("T1059.007", T1059_007);
  ("T1059.008", T1059_008);
  ("T1068", T1068);
  ("T1069", T1069);
  ("T1069.001", T1069_001);
  ("T1069.002", T1069_002);
  ("T1069.003", T1069_003);
  ("T1070", T1070);
  ("T1070.001", T1070_001);
  ("T1070.002", T1070_002);
  ("T1070.003", T1070_003);
  ("T1070.004", T1070_004);
  ("T1070.005", T1070_005);
  ("T1070.006", T1070_006);
  ("T1071", T1071);
  ("T1071.001", T1071_001);
  ("T1071.002", T1071_002);
  ("T1071.003", T1071_003);
  ("T1071.004", T1071_004);
  ("T1072", T1072);
  ("T1074", T1074);
  ("T1074.001", T1074_001);
  ("T1074.002", T1074_002);
  ("T1078", T1078);
  ("T1078.001", T1078_001);
  ("T1078.002", T1078_002);
  ("T1078.003", T1078_003);
  ("T1078.004", T1078_004);
  ("T1080", T1080);
  ("T1082", T1082);
  ("T1083", T1083);
  ("T1087", T1087);
  ("T1087.001", T1087_001);
  ("T1087.002", T1087_002);
  ("T1087.003", T1087_003);
  ("T1087.004", T1087_004);
  ("T1090", T1090);
  ("T1090.001", T1090_001);
  ("T1090.002", T1090_002);
  ("T1090.003", T1090_003);
  ("T1090.004", T1090_004);
  ("T1091", T1091);
  ("T1092", T1092);
  ("T1095", T1095);
  ("T1098", T1098);
  ("T1098.001", T1098_001);
  ("T1098.002", T1098_002);
  ("T1098.003", T1098_003);
  ("T1098.004", T1098_004);
  ("T1102", T1102);
  ("T1102.001", T1102_001);
  ("T1102.002", T1102_002);
  ("T1102.003", T1102_003);
  ("T1104", T1104);
  ("T1105", T1105);
  ("T1106", T1106);
  ("T1110", T1110);
  ("T1110.001", T1110_001);
  ("T1110.002", T1110_002);
  ("T1110.003", T1110_003);
  ("T1110.004", T1110_004);
  ("T1111", T1111);
  ("T1112", T1112);
  ("T1113", T1113);
  ("T1114", T1114);
  ("T1114.001", T1114_001);
  ("T1114.002", T1114_002);
  ("T1114.003", T1114_003);
  ("T1115", T1115);
  ("T1119", T1119);
  ("T1120", T1120);
  ("T1123", T1123);
  ("T1124", T1124);
  ("T1125", T1125);
  ("T1127", T1127);
  ("T1127.001", T1127_001);
  ("T1129", T1129);
  ("T1132", T1132);
  ("T1132.001", T1132_001);
  ("T1132.002", T1132_002);
  ("T1133", T1133);
  ("T1134", T1134);
  ("T1134.001", T1134_001);
  ("T1134.002", T1134_002);
  ("T1134.003", T1134_003);
  ("T1134.004", T1134_004);
  ("T1134.005", T1134_005);
  ("T1135", T1135);
  ("T1136", T1136);
  ("T1136.001", T1136_001);
  ("T1136.002", T1136_002);
  ("T1136.003", T1136_003);
  ("T1137", T1137);
  ("T1137.001", T1137_001);
  ("T1137.002", T1137_002);
  ("T1137.003", T1137_003);
  ("T1137.004", T1137_004);
  ("T1137.005", T1137_005);
  ("T1137.006", T1137_006);
  ("T1140", T1140);
  ("T1176", T1176);
  ("T1185", T1185);
  ("T1187", T1187);
  ("T1189", T1189);
  ("T1190", T1190);
  ("T1195", T1195);
  ("T1195.001", T1195_001);
  ("T1195.002", T1195_002);
  ("T1195.003", T1195_003);
  ("T1197", T1197);
  ("T1199", T1199);
  ("T1200", T1200);
  ("T1201", T1201);
  ("T1202", T1202);
  ("T1203", T1203);
  ("T1204", T1204);
  ("T1204.001", T1204_001);
  ("T1204.002", T1204_002);
  ("T1204.003", T1204_003);
  ("T1205", T1205);
  ("T1205.001", T1205_001);
  ("T1207", T1207);
  ("T1210", T1210);
  ("T1211", T1211);
  ("T1212", T1212);
  ("T1213", T1213);
  ("T1213.001", T1213_001);
  ("T1213.002", T1213_002);
  ("T1216", T1216);
  ("T1216.001", T1216_001);
  ("T1217", T1217);
  ("T1218", T1218);
  ("T1218.001", T1218_001);
  ("T1218.002", T1218_002);
  ("T1218.003", T1218_003);
  ("T1218.004", T1218_004);
  ("T1218.005", T1218_005);
  ("T1218.007", T1218_007);
  ("T1218.008", T1218_008);
  ("T1218.009", T1218_009);
  ("T1218.010", T1218_010);
  ("T1218.011", T1218_011);
  ("T1218.012", T1218_012);
  ("T1219", T1219);
  ("T1220", T1220);
  ("T1221", T1221);
  ("T1222", T1222);
  ("T1222.001", T1222_001);
  ("T1222.002", T1222_002);
  ("T1480", T1480);
  ("T1480.001", T1480_001);
  ("T1482", T1482);
  ("T1484", T1484);
  ("T1484.001", T1484_001);
  ("T1484.002", T1484_002);
  ("T1485", T1485);
  ("T1486", T1486);
  ("T1489", T1489);
  ("T1490", T1490);
  ("T1491", T1491);
  ("T1491.001", T1491_001);
  ("T1491.002", T1491_002);
  ("T1495", T1495);
  ("T1496", T1496);
  ("T1497", T1497);
  ("T1497.001", T1497_001);
  ("T1497.002", T1497_002);
  ("T1497.003", T1497_003);
  ("T1498", T1498);
  ("T1498.001", T1498_001);
  ("T1498.002", T1498_002);
  ("T1499", T1499);
  ("T1499.001", T1499_001);
  ("T1499.002", T1499_002);
  ("T1499.003", T1499_003);
  ("T1499.004", T1499_004);
  ("T1505", T1505);
  ("T1505.001", T1505_001);
  ("T1505.002", T1505_002);
  ("T1505.003", T1505_003);
  ("T1518", T1518);
  ("T1518.001", T1518_001);
  ("T1525", T1525);
  ("T1526", T1526);
  ("T1528", T1528);
  ("T1529", T1529);
  ("T1530", T1530);
  ("T1531", T1531);
  ("T1534", T1534);
  ("T1535", T1535);
  ("T1537", T1537);
  ("T1538", T1538);
  ("T1539", T1539);
  ("T1542", T1542);
  ("T1542.001", T1542_001);
  ("T1542.002", T1542_002);
  ("T1542.003", T1542_003);
  ("T1542.004", T1542_004);
  ("T1542.005", T1542_005);
  ("T1543", T1543);
  ("T1543.001", T1543_001);
  ("T1543.002", T1543_002);
  ("T1543.003", T1543_003);
  ("T1543.004", T1543_004);
  ("T1546", T1546);
  ("T1546.001", T1546_001);
  ("T1546.002", T1546_002);
  ("T1546.003", T1546_003);
  ("T1546.004", T1546_004);
  ("T1546.005", T1546_005);
  ("T1546.006", T1546_006);
  ("T1546.007", T1546_007);
  ("T1546.008", T1546_008);
  ("T1546.009", T1546_009);
  ("T1546.010", T1546_010);
  ("T1546.011", T1546_011);
  ("T1546.012", T1546_012);
  ("T1546.013", T1546_013);
  ("T1546.014", T1546_014);
  ("T1546.015", T1546_015);
  ("T1547", T1547);
  ("T1547.001", T1547_001);
  ("T1547.002", T1547_002);
  ("T1547.003", T1547_003);
  ("T1547.004", T1547_004);
  ("T1547.005", T1547_005);
  ("T1547.006", T1547_006);
  ("T1547.007", T1547_007);
  ("T1547.008", T1547_008);
  ("T1547.009", T1547_009);
  ("T1547.010", T1547_010);
  ("T1547.011", T1547_011);
  ("T1547.012", T1547_012);
  ("T1547.013", T1547_013);
  ("T1547.014", T1547_014);
  ("T1548", T1548);
  ("T1548.001", T1548_001);
  ("T1548.002", T1548_002);
  ("T1548.003", T1548_003);
  ("T1548.004", T1548_004);
  ("T1550", T1550);
  ("T1550.001", T1550_001);
  ("T1550.002", T1550_002);
  ("T1550.003", T1550_003);
  ("T1550.004", T1550_004);
  ("T1552", T1552);
  ("T1552.001", T1552_001);
  ("T1552.002", T1552_002);
  ("T1552.003", T1552_003);
  ("T1552.004", T1552_004);
  ("T1552.005", T1552_005);
  ("T1552.006", T1552_006);
  ("T1552.007", T1552_007);
  ("T1553", T1553);
  ("T1553.001", T1553_001);
  ("T1553.002", T1553_002);
  ("T1553.003", T1553_003);
  ("T1553.004", T1553_004);
  ("T1553.005", T1553_005);
  ("T1553.006", T1553_006);
  ("T1554", T1554);
  ("T1555", T1555);
  ("T1555.001", T1555_001);
  ("T1555.002", T1555_002);
  ("T1555.003", T1555_003);
  ("T1555.004", T1555_004);
  ("T1555.005", T1555_005);
  ("T1556", T1556);
  ("T1556.001", T1556_001);
  ("T1556.002", T1556_002);
  ("T1556.003", T1556_003);
  ("T1556.004", T1556_004);
  ("T1557", T1557);
  ("T1557.001", T1557_001);
  ("T1557.002", T1557_002);
  ("T1558", T1558);
  ("T1558.001", T1558_001);
  ("T1558.002", T1558_002);
  ("T1558.003", T1558_003);
  ("T1558.004", T1558_004);
  ("T1559", T1559);
  ("T1559.001", T1559_001);
  ("T1559.002", T1559_002);
  ("T1560", T1560);
  ("T1560.001", T1560_001);
  ("T1560.002", T1560_002);
  ("T1560.003", T1560_003);
  ("T1561", T1561);
  ("T1561.001", T1561_001);
  ("T1561.002", T1561_002);
  ("T1562", T1562);
  ("T1562.001", T1562_001);
  ("T1562.002", T1562_002);
  ("T1562.003", T1562_003);
  ("T1562.004", T1562_004);
  ("T1562.006", T1562_006);
  ("T1562.007", T1562_007);
  ("T1562.008", T1562_008);
  ("T1563", T1563);
  ("T1563.001", T1563_001);
  ("T1563.002", T1563_002);
  ("T1564", T1564);
  ("T1564.001", T1564_001);
  ("T1564.002", T1564_002);
  ("T1564.003", T1564_003);
  ("T1564.004", T1564_004);
  ("T1564.005", T1564_005);
  ("T1564.006", T1564_006);
  ("T1564.007", T1564_007);
  ("T1565", T1565);
  ("T1565.001", T1565_001);
  ("T1565.002", T1565_002);
  ("T1565.003", T1565_003);
  ("T1566", T1566);
  ("T1566.001", T1566_001);
  ("T1566.002", T1566_002);
  ("T1566.003", T1566_003);
  ("T1567", T1567);
  ("T1567.001", T1567_001);
  ("T1567.002", T1567_002);
  ("T1568", T1568);
  ("T1568.001", T1568_001);
  ("T1568.002", T1568_002);
  ("T1568.003", T1568_003);
  ("T1569", T1569);
  ("T1569.001", T1569_001);
  ("T1569.002", T1569_002);
  ("T1570", T1570);
  ("T1571", T1571);
  ("T1572", T1572);
  ("T1573", T1573);
  ("T1573.001", T1573_001);
  ("T1573.002", T1573_002);
  ("T1574", T1574);
  ("T1574.001", T1574_001);
  ("T1574.002", T1574_002);
  ("T1574.004", T1574_004);
  ("T1574.005", T1574_005);
  ("T1574.006", T1574_006);
  ("T1574.007", T1574_007);
  ("T1574.008", T1574_008);
  ("T1574.009", T1574_009);
  ("T1574.010", T1574_010);
  ("T1574.011", T1574_011);
  ("T1574.012", T1574_012);
  ("T1578", T1578);
  ("T1578.001", T1578_001);
  ("T1578.002", T1578_002);
  ("T1578.003", T1578_003);
  ("T1578.004", T1578_004);
  ("T1580", T1580);
  ("T1583", T1583);
  ("T1583.001", T1583_001);
  ("T1583.002", T1583_002);
  ("T1583.003", T1583_003);
  ("T1583.004", T1583_004);
  ("T1583.005", T1583_005);
  ("T1583.006", T1583_006);
  ("T1584", T1584);
  ("T1584.001", T1584_001);
  ("T1584.002", T1584_002);
  ("T1584.003", T1584_003);
  ("T1584.004", T1584_004);
  ("T1584.005", T1584_005);
  ("T1584.006", T1584_006);
  ("T1585", T1585);
  ("T1585.001", T1585_001);
  ("T1585.002", T1585_002);
  ("T1586", T1586);
  ("T1586.001", T1586_001);
  ("T1586.002", T1586_002);
  ("T1587", T1587);
  ("T1587.001", T1587_001);
  ("T1587.002", T1587_002);
  ("T1587.003", T1587_003);
  ("T1587.004", T1587_004);
  ("T1588", T1588);
  ("T1588.001", T1588_001);
  ("T1588.002", T1588_002);
  ("T1588.003", T1588_003);
  ("T1588.004", T1588_004);
  ("T1588.005", T1588_005);
  ("T1588.006", T1588_006);
  ("T1589", T1589);
  ("T1589.001", T1589_001);
  ("T1589.002", T1589_002);
  ("T1589.003", T1589_003);
  ("T1590", T1590);
  ("T1590.001", T1590_001);
  ("T1590.002", T1590_002);
  ("T1590.003", T1590_003);
  ("T1590.004", T1590_004);
  ("T1590.005", T1590_005);
  ("T1590.006", T1590_006);
  ("T1591", T1591);
  ("T1591.001", T1591_001);
  ("T1591.002", T1591_002);
  ("T1591.003", T1591_003);
  ("T1591.004", T1591_004);
  ("T1592", T1592);
  ("T1592.001", T1592_001);
  ("T1592.002", T1592_002);
  ("T1592.003", T1592_003);
  ("T1592.004", T1592_004);
  ("T1593", T1593);
  ("T1593.001", T1593_001);
  ("T1593.002", T1593_002);
  ("T1594", T1594);
  ("T1595", T1595);
  ("T1595.001", T1595_001);
  ("T1595.002", T1595_002);
  ("T1596", T1596);
  ("T1596.001", T1596_001);
  ("T1596.002", T1596_002);
  ("T1596.003", T1596_003);
  ("T1596.004", T1596_004);
  ("T1596.005", T1596_005);
  ("T1597", T1597);
  ("T1597.001", T1597_001);
  ("T1597.002", T1597_002);
  ("T1598", T1598);
  ("T1598.001", T1598_001);
  ("T1598.002", T1598_002);
  ("T1598.003", T1598_003);
  ("T1599", T1599);
  ("T1599.001", T1599_001);
  ("T1600", T1600);
  ("T1600.001", T1600_001);
  ("T1600.002", T1600_002);
  ("T1601", T1601);
  ("T1601.001", T1601_001);
  ("T1601.002", T1601_002);
  ("T1602", T1602);
  ("T1602.001", T1602_001);
  ("T1602.002", T1602_002);
  ("T1606", T1606);
  ("T1606.001", T1606_001);
  ("T1606.002", T1606_002);
  ("T1608", T1608);
  ("T1608.001", T1608_001);
  ("T1608.002", T1608_002);
  ("T1608.003", T1608_003);
  ("T1608.004", T1608_004);
  ("T1608.005", T1608_005);
  ("T1609", T1609);
  ("T1610", T1610);
  ("T1611", T1611);
  ("T1612", T1612);
  ("T1613", T1613);
  ("T1614", T1614);
  ("t1001", T1001);
  ("t1001.001", T1001_001);
  ("t1001.002", T1001_002);
  ("t1001.003", T1001_003);
  ("t1003", T1003);
  ("t1003.001", T1003_001);
  ("t1003.002", T1003_002);
  ("t1003.003", T1003_003);
  ("t1003.004", T1003_004);
  ("t1003.005", T1003_005);
  ("t1003.006", T1003_006);
  ("t1003.007", T1003_007);
  ("t1003.008", T1003_008);
  ("t1005", T1005);
  ("t1006", T1006);
  ("t1007", T1007);
  ("t1008", T1008);
  ("t1010", T1010);
  ("t1011", T1011);
  ("t1011.001", T1011_001);
  ("t1012", T1012);
  ("t1014", T1014);
  ("t1016", T1016);
  ("t1016.001", T1016_001);
  ("t1018", T1018);
  ("t1020", T1020);
  ("t1020.001", T1020_001);
  ("t1021", T1021);
  ("t1021.001", T1021_001);
  ("t1021.002", T1021_002);
  ("t1021.003", T1021_003);
  ("t1021.004", T1021_004);
  ("t1021.005", T1021_005);
  ("t1021.006", T1021_006);
  ("t1025", T1025);
  ("t1027", T1027);
  ("t1027.001", T1027_001);
  ("t1027.002", T1027_002);
  ("t1027.003", T1027_003);
  ("t1027.004", T1027_004);
  ("t1027.005", T1027_005);
  ("t1029", T1029);
  ("t1030", T1030);
  ("t1033", T1033);
  ("t1036", T1036);
  ("t1036.001", T1036_001);
  ("t1036.002", T1036_002);
  ("t1036.003", T1036_003);
  ("t1036.004", T1036_004);
  ("t1036.005", T1036_005);
  ("t1036.006", T1036_006);
  ("t1037", T1037);
  ("t1037.001", T1037_001);
  ("t1037.002", T1037_002);
  ("t1037.003", T1037_003);
  ("t1037.004", T1037_004);
  ("t1037.005", T1037_005);
  ("t1039", T1039);
  ("t1040", T1040);
  ("t1041", T1041);
  ("t1046", T1046);
  ("t1047", T1047);
  ("t1048", T1048);
  ("t1048.001", T1048_001);
  ("t1048.002", T1048_002);
  ("t1048.003", T1048_003);
  ("t1049", T1049);
  ("t1052", T1052);
  ("t1052.001", T1052_001);
  ("t1053", T1053);
  ("t1053.001", T1053_001);
  ("t1053.002", T1053_002);
  ("t1053.003", T1053_003);
  ("t1053.004", T1053_004);
  ("t1053.005", T1053_005);
  ("t1053.006", T1053_006);
  ("t1053.007", T1053_007);
  ("t1055", T1055);
  ("t1055.001", T1055_001);
  ("t1055.002", T1055_002);
  ("t1055.003", T1055_003);
  ("t1055.004", T1055_004);
  ("t1055.005", T1055_005);
  ("t1055.008", T1055_008);
  ("t1055.009", T1055_009);
  ("t1055.011", T1055_011);
  ("t1055.012", T1055_012);
  ("t1055.013", T1055_013);
  ("t1055.014", T1055_014);
  ("t1056", T1056);
  ("t1056.001", T1056_001);
  ("t1056.002", T1056_002);
  ("t1056.003", T1056_003);
  ("t1056.004", T1056_004);
  ("t1057", T1057);
  ("t1059", T1059);
  ("t1059.001", T1059_001);
  ("t1059.002", T1059_002);
  ("t1059.003", T1059_003);
  ("t1059.004", T1059_004);
  ("t1059.005", T1059_005);
  ("t1059.006", T1059_006);
  ("t1059.007", T1059_007);
  ("t1059.008", T1059_008);
  ("t1068", T1068);
  ("t1069", T1069);
  ("t1069.001", T1069_001);
  ("t1069.002", T1069_002);
  ("t1069.003", T1069_003);
  ("t1070", T1070);
  ("t1070.001", T1070_001);
  ("t1070.002", T1070_002);
  ("t1070.003", T1070_003);
  ("t1070.004", T1070_004);
  ("t1070.005", T1070_005);
  ("t1070.006", T1070_006);
  ("t1071", T1071);
  ("t1071.001", T1071_001);
  ("t1071.002", T1071_002);
  ("t1071.003", T1071_003);
  ("t1071.004", T1071_004);
  ("t1072", T1072);
  ("t1074", T1074);
  ("t1074.001", T1074_001);
  ("t1074.002", T1074_002);
  ("t1078", T1078);
  ("t1078.001", T1078_001);
  ("t1078.002", T1078_002);
  ("t1078.003", T1078_003);
  ("t1078.004", T1078_004);
  ("t1080", T1080);
  ("t1082", T1082);
  ("t1083", T1083);
  ("t1087", T1087);
  ("t1087.001", T1087_001);
  ("t1087.002", T1087_002);
  ("t1087.003", T1087_003);
  ("t1087.004", T1087_004);
  ("t1090", T1090);
  ("t1090.001", T1090_001);
  ("t1090.002", T1090_002);
  ("t1090.003", T1090_003);
  ("t1090.004", T1090_004);
  ("t1091", T1091);
  ("t1092", T1092);
  ("t1095", T1095);
  ("t1098", T1098);
  ("t1098.001", T1098_001);
  ("t1098.002", T1098_002);
  ("t1098.003", T1098_003);
  ("t1098.004", T1098_004);
  ("t1102", T1102);
  ("t1102.001", T1102_001);
  ("t1102.002", T1102_002);
  ("t1102.003", T1102_003);
  ("t1104", T1104);
  ("t1105", T1105);
  ("t1106", T1106);
  ("t1110", T1110);
  ("t1110.001", T1110_001);
  ("t1110.002", T1110_002);
  ("t1110.003", T1110_003);
  ("t1110.004", T1110_004);
  ("t1111", T1111);
  ("t1112", T1112);
  ("t1113", T1113);
  ("t1114", T1114);
  ("t1114.001", T1114_001);
  ("t1114.002", T1114_002);
  ("t1114.003", T1114_003);
  ("t1115", T1115);
  ("t1119", T1119);
  ("t1120", T1120);
  ("t1123", T1123);
  ("t1124", T1124);
  ("t1125", T1125);
  ("t1127", T1127);
  ("t1127.001", T1127_001);
  ("t1129", T1129);
  ("t1132", T1132);
  ("t1132.001", T1132_001);
  ("t1132.002", T1132_002);
  ("t1133", T1133);
  ("t1134", T1134);
  ("t1134.001", T1134_001);
  ("t1134.002", T1134_002);
  ("t1134.003", T1134_003);
  ("t1134.004", T1134_004);
  ("t1134.005", T1134_005);
  ("t1135", T1135);
  ("t1136", T1136);
  ("t1136.001", T1136_001);
  ("t1136.002", T1136_002);
  ("t1136.003", T1136_003);
  ("t1137", T1137);
  ("t1137.001", T1137_001);
  ("t1137.002", T1137_002);
  ("t1137.003", T1137_003);
  ("t1137.004", T1137_004);
  ("t1137.005", T1137_005);
  ("t1137.006", T1137_006);
  ("t1140", T1140);
  ("t1176", T1176);
  ("t1185", T1185);
  ("t1187", T1187);
  ("t1189", T1189);
  ("t1190", T1190);
  ("t1195", T1195);
  ("t1195.001", T1195_001);
  ("t1195.002", T1195_002);
  ("t1195.003", T1195_003);
  ("t1197", T1197);
  ("t1199", T1199);
  ("t1200", T1200);
  ("t1201", T1201);
  ("t1202", T1202);
  ("t1203", T1203);
  ("t1204", T1204);
  ("t1204.001", T1204_001);
  ("t1204.002", T1204_002);
  ("t1204.003", T1204_003);
  ("t1205", T1205);
  ("t1205.001", T1205_001);
  ("t1207", T1207);
  ("t1210", T1210);
  ("t1211", T1211);
  ("t1212", T1212);
  ("t1213", T1213);
  ("t1213.001", T1213_001);
  ("t1213.002", T1213_002);
  ("t1216", T1216);
  ("t1216.001", T1216_001);
  ("t1217", T1217);
  ("t1218", T1218);
  ("t1218.001", T1218_001);
  ("t1218.002", T1218_002);
  ("t1218.003", T1218_003);
  ("t1218.004", T1218_004);
  ("t1218.005", T1218_005);
  ("t1218.007", T1218_007);
  ("t1218.008", T1218_008);
  ("t1218.009", T1218_009);
  ("t1218.010", T1218_010);
  ("t1218.011", T1218_011);
  ("t1218.012", T1218_012);
  ("t1219", T1219);
  ("t1220", T1220);
  ("t1221", T1221);
  ("t1222", T1222);
  ("t1222.001", T1222_001);
  ("t1222.002", T1222_002);
  ("t1480", T1480);
  ("t1480.001", T1480_001);
  ("t1482", T1482);
  ("t1484", T1484);
  ("t1484.001", T1484_001);
  ("t1484.002", T1484_002);
  ("t1485", T1485);
  ("t1486", T1486);
  ("t1489", T1489);
  ("t1490", T1490);
  ("t1491", T1491);
  ("t1491.001", T1491_001);
  ("t1491.002", T1491_002);
  ("t1495", T1495);
  ("t1496", T1496);
  ("t1497", T1497);
  ("t1497.001", T1497_001);
  ("t1497.002", T1497_002);
  ("t1497.003", T1497_003);
  ("t1498", T1498);
  ("t1498.001", T1498_001);
  ("t1498.002", T1498_002);
  ("t1499", T1499);
  ("t1499.001", T1499_001);
  ("t1499.002", T1499_002);
  ("t1499.003", T1499_003);
  ("t1499.004", T1499_004);
  ("t1505", T1505);
  ("t1505.001", T1505_001);
  ("t1505.002", T1505_002);
  ("t1505.003", T1505_003);
  ("t1518", T1518);
  ("t1518.001", T1518_001);
  ("t1525", T1525);
  ("t1526", T1526);
  ("t1528", T1528);
  ("t1529", T1529);
  ("t1530", T1530);
  ("t1531", T1531);
  ("t1534", T1534);
  ("t1535", T1535);
  ("t1537", T1537);
  ("t1538", T1538);
  ("t1539", T1539);
  ("t1542", T1542);
  ("t1542.001", T1542_001);
  ("t1542.002", T1542_002);
  ("t1542.003", T1542_003);
  ("t1542.004", T1542_004);
  ("t1542.005", T1542_005);
  ("t1543", T1543);
  ("t1543.001", T1543_001);
  ("t1543.002", T1543_002);
  ("t1543.003", T1543_003);
  ("t1543.004", T1543_004);
  ("t1546", T1546);
  ("t1546.001", T1546_001);
  ("t1546.002", T1546_002);
  ("t1546.003", T1546_003);
  ("t1546.004", T1546_004);
  ("t1546.005", T1546_005);
  ("t1546.006", T1546_006);
  ("t1546.007", T1546_007);
  ("t1546.008", T1546_008);
  ("t1546.009", T1546_009);
  ("t1546.010", T1546_010);
  ("t1546.011", T1546_011);
  ("t1546.012", T1546_012);
  ("t1546.013", T1546_013);
  ("t1546.014", T1546_014);
  ("t1546.015", T1546_015);
  ("t1547", T1547);
  ("t1547.001", T1547_001);
  ("t1547.002", T1547_002);
  ("t1547.003", T1547_003);
  ("t1547.004", T1547_004);
  ("t1547.005", T1547_005);
  ("t1547.006", T1547_006);
  ("t1547.007", T1547_007);
  ("t1547.008", T1547_008);
  ("t1547.009", T1547_009);
  ("t1547.010", T1547_010);
  ("t1547.011", T1547_011);
  ("t1547.012", T1547_012);
  ("t1547.013", T1547_013);
  ("t1547.014", T1547_014);
  ("t1548", T1548);
  ("t1548.001", T1548_001);
  ("t1548.002", T1548_002);
  ("t1548.003", T1548_003);
  ("t1548.004", T1548_004);
  ("t1550", T1550);
  ("t1550.001", T1550_001);
  ("t1550.002", T1550_002);
  ("t1550.003", T1550_003);
  ("t1550.004", T1550_004);
  ("t1552", T1552);
  ("t1552.001", T1552_001);
  ("t1552.002", T1552_002);
  ("t1552.003", T1552_003);
  ("t1552.004", T1552_004);
  ("t1552.005", T1552_005);
  ("t1552.006", T1552_006);
  ("t1552.007", T1552_007);
  ("t1553", T1553);
  ("t1553.001", T1553_001);
  ("t1553.002", T1553_002);
  ("t1553.003", T1553_003);
  ("t1553.004", T1553_004);
  ("t1553.005", T1553_005);
  ("t1553.006", T1553_006);
  ("t1554", T1554);
  ("t1555", T1555);
  ("t1555.001", T1555_001);
  ("t1555.002", T1555_002);
  ("t1555.003", T1555_003);
  ("t1555.004", T1555_004);
  ("t1555.005", T1555_005);
  ("t1556", T1556);
  ("t1556.001", T1556_001);
  ("t1556.002", T1556_002);
  ("t1556.003", T1556_003);
  ("t1556.004", T1556_004);
  ("t1557", T1557);
  ("t1557.001", T1557_001);
  ("t1557.002", T1557_002);
  ("t1558", T1558);
  ("t1558.001", T1558_001);
  ("t1558.002", T1558_002);
  ("t1558.003", T1558_003);
  ("t1558.004", T1558_004);
  ("t1559", T1559);
  ("t1559.001", T1559_001);
  ("t1559.002", T1559_002);
  ("t1560", T1560);
  ("t1560.001", T1560_001);
  ("t1560.002", T1560_002);
  ("t1560.003", T1560_003);
  ("t1561", T1561);
  ("t1561.001", T1561_001);
  ("t1561.002", T1561_002);
  ("t1562", T1562);
  ("t1562.001", T1562_001);
  ("t1562.002", T1562_002);
  ("t1562.003", T1562_003);
  ("t1562.004", T1562_004);
  ("t1562.006", T1562_006);
  ("t1562.007", T1562_007);
  ("t1562.008", T1562_008);
  ("t1563", T1563);
  ("t1563.001", T1563_001);
  ("t1563.002", T1563_002);
  ("t1564", T1564);
  ("t1564.001", T1564_001);
  ("t1564.002", T1564_002);
  ("t1564.003", T1564_003);
  ("t1564.004", T1564_004);
  ("t1564.005", T1564_005);
  ("t1564.006", T1564_006);
  ("t1564.007", T1564_007);
  ("t1565", T1565);
  ("t1565.001", T1565_001);
  ("t1565.002", T1565_002);
  ("t1565.003", T1565_003);
  ("t1566", T1566);
  ("t1566.001", T1566_001);
  ("t1566.002", T1566_002);
  ("t1566.003", T1566_003);
  ("t1567", T1567);
  ("t1567.001", T1567_001);
  ("t1567.002", T1567_002);
  ("t1568", T1568);
  ("t1568.001", T1568_001);
  ("t1568.002", T1568_002);
  ("t1568.003", T1568_003);
  ("t1569", T1569);
  ("t1569.001", T1569_001);
  ("t1569.002", T1569_002);
  ("t1570", T1570);
  ("t1571", T1571);
  ("t1572", T1572);
  ("t1573", T1573);
  ("t1573.001", T1573_001);
  ("t1573.002", T1573_002);
  ("t1574", T1574);
  ("t1574.001", T1574_001);
  ("t1574.002", T1574_002);
  ("t1574.004", T1574_004);
  ("t1574.005", T1574_005);
  ("t1574.006", T1574_006);
  ("t1574.007", T1574_007);
  ("t1574.008", T1574_008);
  ("t1574.009", T1574_009);
  ("t1574.010", T1574_010);
  ("t1574.011", T1574_011);
  ("t1574.012", T1574_012);
  ("t1578", T1578);
  ("t1578.001", T1578_001);
  ("t1578.002", T1578_002);
  ("t1578.003", T1578_003);
  ("t1578.004", T1578_004);
  ("t1580", T1580);
  ("t1583", T1583);
  ("t1583.001", T1583_001);
  ("t1583.002", T1583_002);
  ("t1583.003", T1583_003);
  ("t1583.004", T1583_004);
  ("t1583.005", T1583_005);
  ("t1583.006", T1583_006);
  ("t1584", T1584);
  ("t1584.001", T1584_001);
  ("t1584.002", T1584_002);
  ("t1584.003", T1584_003);
  ("t1584.004", T1584_004);
  ("t1584.005", T1584_005);
  ("t1584.006", T1584_006);
  ("t1585", T1585);
  ("t1585.001", T1585_001);
  ("t1585.002", T1585_002);
  ("t1586", T1586);
  ("t1586.001", T1586_001);
  ("t1586.002", T1586_002);
  ("t1587", T1587);
  ("t1587.001", T1587_001);
  ("t1587.002", T1587_002);
  ("t1587.003", T1587_003);
  ("t1587.004", T1587_004);
  ("t1588", T1588);
  ("t1588.001", T1588_001);
  ("t1588.002", T1588_002);
  ("t1588.003", T1588_003);
  ("t1588.004", T1588_004);
  ("t1588.005", T1588_005);
  ("t1588.006", T1588_006);
  ("t1589", T1589);
  ("t1589.001", T1589_001);
  ("t1589.002", T1589_002);
  ("t1589.003", T1589_003);
  ("t1590", T1590);
  ("t1590.001", T1590_001);
  ("t1590.002", T1590_002);
  ("t1590.003", T1590_003);
  ("t1590.004", T1590_004);
  ("t1590.005", T1590_005);
  ("t1590.006", T1590_006);
  ("t1591", T1591);
  ("t1591.001", T1591_001);
  ("t1591.002", T1591_002);
  ("t1591.003", T1591_003);
  ("t1591.004", T1591_004);
  ("t1592", T1592);
  ("t1592.001", T1592_001);
  ("t1592.002", T1592_002);
  ("t1592.003", T1592_003);
  ("t1592.004", T1592_004);
  ("t1593", T1593);
  ("t1593.001", T1593_001);
  ("t1593.002", T1593_002);
  ("t1594", T1594);
  ("t1595", T1595);
  ("t1595.001", T1595_001);
  ("t1595.002", T1595_002);
  ("t1596", T1596);
  ("t1596.001", T1596_001);
  ("t1596.002", T1596_002);
  ("t1596.003", T1596_003);
  ("t1596.004", T1596_004);
  ("t1596.005", T1596_005);
  ("t1597", T1597);
  ("t1597.001", T1597_001);
  ("t1597.002", T1597_002);
  ("t1598", T1598);
  ("t1598.001", T1598_001);
  ("t1598.002", T1598_002);
  ("t1598.003", T1598_003);
  ("t1599", T1599);
  ("t1599.001", T1599_001);
  ("t1600", T1600);
  ("t1600.001", T1600_001);
  ("t1600.002", T1600_002);
  ("t1601", T1601);
  ("t1601.001", T1601_001);
  ("t1601.002", T1601_002);
  ("t1602", T1602);
  ("t1602.001", T1602_001);
  ("t1602.002", T1602_002);
  ("t1606", T1606);
  ("t1606.001", T1606_001);
  ("t1606.002", T1606_002);
  ("t1608", T1608);
  ("t1608.001", T1608_001);
  ("t1608.002", T1608_002);
  ("t1608.003", T1608_003);
  ("t1608.004", T1608_004);
  ("t1608.005", T1608_005);
  ("t1609", T1609);
  ("t1610", T1610);
  ("t1611", T1611);
  ("t1612", T1612);
  ("t1613", T1613);
  ("t1614", T1614)].
(** mitre.rs:3104-4215 [TryFrom<&str>]: the first matching arm *)
Definition technique_try_from (s : string) : result technique string :=
  match find (fun a => String.eqb (fst a) s) technique_arms with
  | Some a => Ok (snd a)
  | None => Err "Invalid Mitre Technique"
  end.

