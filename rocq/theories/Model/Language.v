(** Generated by tools/gen_datasets.py from src/components/dataset/i18n.rs. *)
From Coq Require Import String NArith List.
From Verif Require Import Base.Ord Base.Str.
Import ListNotations.
Local Open Scope string_scope.
Local Open Scope N_scope.

(** i18n.rs:15-202 *)
Inductive language :=
| L_AA
| L_AB
| L_AE
| L_AF
| L_AK
| L_AM
| L_AN
| L_AR
| L_AS
| L_AV
| L_AY
| L_AZ
| L_BA
| L_BE
| L_BG
| L_BH
| L_BI
| L_BM
| L_BN
| L_BO
| L_BR
| L_BS
| L_CA
| L_CE
| L_CH
| L_CO
| L_CR
| L_CS
| L_CU
| L_CV
| L_CY
| L_DA
| L_DE
| L_DV
| L_DZ
| L_EE
| L_EL
| L_EN
| L_EO
| L_ES
| L_ET
| L_EU
| L_FA
| L_FF
| L_FI
| L_FJ
| L_FO
| L_FR
| L_FY
| L_GA
| L_GD
| L_GL
| L_GN
| L_GU
| L_GV
| L_HA
| L_HE
| L_HI
| L_HO
| L_HR
| L_HT
| L_HU
| L_HY
| L_HZ
| L_IA
| L_ID
| L_IE
| L_IG
| L_II
| L_IK
| L_IO
| L_IS
| L_IT
| L_IU
| L_JA
| L_JV
| L_KA
| L_KG
| L_KI
| L_KJ
| L_KK
| L_KL
| L_KM
| L_KN
| L_KO
| L_KR
| L_KS
| L_KU
| L_KV
| L_KW
| L_KY
| L_LA
| L_LB
| L_LG
| L_LI
| L_LN
| L_LO
| L_LT
| L_LU
| L_LV
| L_MG
| L_MH
| L_MI
| L_MK
| L_ML
| L_MN
| L_MR
| L_MS
| L_MT
| L_MY
| L_NA
| L_NB
| L_ND
| L_NE
| L_NG
| L_NL
| L_NN
| L_NO
| L_NR
| L_NV
| L_NY
| L_OC
| L_OJ
| L_OM
| L_OR
| L_OS
| L_PA
| L_PI
| L_PL
| L_PS
| L_PT
| L_QU
| L_RM
| L_RN
| L_RO
| L_RU
| L_RW
| L_SA
| L_SC
| L_SD
| L_SE
| L_SG
| L_SI
| L_SK
| L_SL
| L_SM
| L_SN
| L_SO
| L_SQ
| L_SR
| L_SS
| L_ST
| L_SU
| L_SV
| L_SW
| L_TA
| L_TE
| L_TG
| L_TH
| L_TI
| L_TK
| L_TL
| L_TN
| L_TO
| L_TR
| L_TS
| L_TT
| L_TW
| L_TY
| L_UG
| L_UK
| L_UR
| L_UZ
| L_VE
| L_VI
| L_VO
| L_WA
| L_WO
| L_XH
| L_YI
| L_YO
| L_ZA
| L_ZH
| L_ZU
| L_Other (s : string).

(** Every variant without a payload, in declaration order *)
Definition languages : list language := [
  L_AA;
  L_AB;
  L_AE;
  L_AF;
  L_AK;
  L_AM;
  L_AN;
  L_AR;
  L_AS;
  L_AV;
  L_AY;
  L_AZ;
  L_BA;
  L_BE;
  L_BG;
  L_BH;
  L_BI;
  L_BM;
  L_BN;
  L_BO;
  L_BR;
  L_BS;
  L_CA;
  L_CE;
  L_CH;
  L_CO;
  L_CR;
  L_CS;
  L_CU;
  L_CV;
  L_CY;
  L_DA;
  L_DE;
  L_DV;
  L_DZ;
  L_EE;
  L_EL;
  L_EN;
  L_EO;
  L_ES;
  L_ET;
  L_EU;
  L_FA;
  L_FF;
  L_FI;
  L_FJ;
  L_FO;
  L_FR;
  L_FY;
  L_GA;
  L_GD;
  L_GL;
  L_GN;
  L_GU;
  L_GV;
  L_HA;
  L_HE;
  L_HI;
  L_HO;
  L_HR;
  L_HT;
  L_HU;
  L_HY;
  L_HZ;
  L_IA;
  L_ID;
  L_IE;
  L_IG;
  L_II;
  L_IK;
  L_IO;
  L_IS;
  L_IT;
  L_IU;
  L_JA;
  L_JV;
  L_KA;
  L_KG;
  L_KI;
  L_KJ;
  L_KK;
  L_KL;
  L_KM;
  L_KN;
  L_KO;
  L_KR;
  L_KS;
  L_KU;
  L_KV;
  L_KW;
  L_KY;
  L_LA;
  L_LB;
  L_LG;
  L_LI;
  L_LN;
  L_LO;
  L_LT;
  L_LU;
  L_LV;
  L_MG;
  L_MH;
  L_MI;
  L_MK;
  L_ML;
  L_MN;
  L_MR;
  L_MS;
  L_MT;
  L_MY;
  L_NA;
  L_NB;
  L_ND;
  L_NE;
  L_NG;
  L_NL;
  L_NN;
  L_NO;
  L_NR;
  L_NV;
  L_NY;
  L_OC;
  L_OJ;
  L_OM;
  L_OR;
  L_OS;
  L_PA;
  L_PI;
  L_PL;
  L_PS;
  L_PT;
  L_QU;
  L_RM;
  L_RN;
  L_RO;
  L_RU;
  L_RW;
  L_SA;
  L_SC;
  L_SD;
  L_SE;
  L_SG;
  L_SI;
  L_SK;
  L_SL;
  L_SM;
  L_SN;
  L_SO;
  L_SQ;
  L_SR;
  L_SS;
  L_ST;
  L_SU;
  L_SV;
  L_SW;
  L_TA;
  L_TE;
  L_TG;
  L_TH;
  L_TI;
  L_TK;
  L_TL;
  L_TN;
  L_TO;
  L_TR;
  L_TS;
  L_TT;
  L_TW;
  L_TY;
  L_UG;
  L_UK;
  L_UR;
  L_UZ;
  L_VE;
  L_VI;
  L_VO;
  L_WA;
  L_WO;
  L_XH;
  L_YI;
  L_YO;
  L_ZA;
  L_ZH;
  L_ZU
].

(** The derived [Debug] form of a variant without a payload: its name *)
Definition lang_name (l : language) : string :=
  match l with
  | L_AA => "AA"
  | L_AB => "AB"
  | L_AE => "AE"
  | L_AF => "AF"
  | L_AK => "AK"
  | L_AM => "AM"
  | L_AN => "AN"
  | L_AR => "AR"
  | L_AS => "AS"
  | L_AV => "AV"
  | L_AY => "AY"
  | L_AZ => "AZ"
  | L_BA => "BA"
  | L_BE => "BE"
  | L_BG => "BG"
  | L_BH => "BH"
  | L_BI => "BI"
  | L_BM => "BM"
  | L_BN => "BN"
  | L_BO => "BO"
  | L_BR => "BR"
  | L_BS => "BS"
  | L_CA => "CA"
  | L_CE => "CE"
  | L_CH => "CH"
  | L_CO => "CO"
  | L_CR => "CR"
  | L_CS => "CS"
  | L_CU => "CU"
  | L_CV => "CV"
  | L_CY => "CY"
  | L_DA => "DA"
  | L_DE => "DE"
  | L_DV => "DV"
  | L_DZ => "DZ"
  | L_EE => "EE"
  | L_EL => "EL"
  | L_EN => "EN"
  | L_EO => "EO"
  | L_ES => "ES"
  | L_ET => "ET"
  | L_EU => "EU"
  | L_FA => "FA"
  | L_FF => "FF"
  | L_FI => "FI"
  | L_FJ => "FJ"
  | L_FO => "FO"
  | L_FR => "FR"
  | L_FY => "FY"
  | L_GA => "GA"
  | L_GD => "GD"
  | L_GL => "GL"
  | L_GN => "GN"
  | L_GU => "GU"
  | L_GV => "GV"
  | L_HA => "HA"
  | L_HE => "HE"
  | L_HI => "HI"
  | L_HO => "HO"
  | L_HR => "HR"
  | L_HT => "HT"
  | L_HU => "HU"
  | L_HY => "HY"
  | L_HZ => "HZ"
  | L_IA => "IA"
  | L_ID => "ID"
  | L_IE => "IE"
  | L_IG => "IG"
  | L_II => "II"
  | L_IK => "IK"
  | L_IO => "IO"
  | L_IS => "IS"
  | L_IT => "IT"
  | L_IU => "IU"
  | L_JA => "JA"
  | L_JV => "JV"
  | L_KA => "KA"
  | L_KG => "KG"
  | L_KI => "KI"
  | L_KJ => "KJ"
  | L_KK => "KK"
  | L_KL => "KL"
  | L_KM => "KM"
  | L_KN => "KN"
  | L_KO => "KO"
  | L_KR => "KR"
  | L_KS => "KS"
  | L_KU => "KU"
  | L_KV => "KV"
  | L_KW => "KW"
  | L_KY => "KY"
  | L_LA => "LA"
  | L_LB => "LB"
  | L_LG => "LG"
  | L_LI => "LI"
  | L_LN => "LN"
  | L_LO => "LO"
  | L_LT => "LT"
  | L_LU => "LU"
  | L_LV => "LV"
  | L_MG => "MG"
  | L_MH => "MH"
  | L_MI => "MI"
  | L_MK => "MK"
  | L_ML => "ML"
  | L_MN => "MN"
  | L_MR => "MR"
  | L_MS => "MS"
  | L_MT => "MT"
  | L_MY => "MY"
  | L_NA => "NA"
  | L_NB => "NB"
  | L_ND => "ND"
  | L_NE => "NE"
  | L_NG => "NG"
  | L_NL => "NL"
  | L_NN => "NN"
  | L_NO => "NO"
  | L_NR => "NR"
  | L_NV => "NV"
  | L_NY => "NY"
  | L_OC => "OC"
  | L_OJ => "OJ"
  | L_OM => "OM"
  | L_OR => "OR"
  | L_OS => "OS"
  | L_PA => "PA"
  | L_PI => "PI"
  | L_PL => "PL"
  | L_PS => "PS"
  | L_PT => "PT"
  | L_QU => "QU"
  | L_RM => "RM"
  | L_RN => "RN"
  | L_RO => "RO"
  | L_RU => "RU"
  | L_RW => "RW"
  | L_SA => "SA"
  | L_SC => "SC"
  | L_SD => "SD"
  | L_SE => "SE"
  | L_SG => "SG"
  | L_SI => "SI"
  | L_SK => "SK"
  | L_SL => "SL"
  | L_SM => "SM"
  | L_SN => "SN"
  | L_SO => "SO"
  | L_SQ => "SQ"
  | L_SR => "SR"
  | L_SS => "SS"
  | L_ST => "ST"
  | L_SU => "SU"
  | L_SV => "SV"
  | L_SW => "SW"
  | L_TA => "TA"
  | L_TE => "TE"
  | L_TG => "TG"
  | L_TH => "TH"
  | L_TI => "TI"
  | L_TK => "TK"
  | L_TL => "TL"
  | L_TN => "TN"
  | L_TO => "TO"
  | L_TR => "TR"
  | L_TS => "TS"
  | L_TT => "TT"
  | L_TW => "TW"
  | L_TY => "TY"
  | L_UG => "UG"
  | L_UK => "UK"
  | L_UR => "UR"
  | L_UZ => "UZ"
  | L_VE => "VE"
  | L_VI => "VI"
  | L_VO => "VO"
  | L_WA => "WA"
  | L_WO => "WO"
  | L_XH => "XH"
  | L_YI => "YI"
  | L_YO => "YO"
  | L_ZA => "ZA"
  | L_ZH => "ZH"
  | L_ZU => "ZU"
  | L_Other s => s
  end.

(** The derived [Ord] (i18n.rs:14): declaration order, then the payload *)
Definition lang_rank (l : language) : N * string :=
  match l with
  | L_AA => (0, "")
  | L_AB => (1, "")
  | L_AE => (2, "")
  | L_AF => (3, "")
  | L_AK => (4, "")
  | L_AM => (5, "")
  | L_AN => (6, "")
  | L_AR => (7, "")
  | L_AS => (8, "")
  | L_AV => (9, "")
  | L_AY => (10, "")
  | L_AZ => (11, "")
  | L_BA => (12, "")
  | L_BE => (13, "")
  | L_BG => (14, "")
  | L_BH => (15, "")
  | L_BI => (16, "")
  | L_BM => (17, "")
  | L_BN => (18, "")
  | L_BO => (19, "")
  | L_BR => (20, "")
  | L_BS => (21, "")
  | L_CA => (22, "")
  | L_CE => (23, "")
  | L_CH => (24, "")
  | L_CO => (25, "")
  | L_CR => (26, "")
  | L_CS => (27, "")
  | L_CU => (28, "")
  | L_CV => (29, "")
  | L_CY => (30, "")
  | L_DA => (31, "")
  | L_DE => (32, "")
  | L_DV => (33, "")
  | L_DZ => (34, "")
  | L_EE => (35, "")
  | L_EL => (36, "")
  | L_EN => (37, "")
  | L_EO => (38, "")
  | L_ES => (39, "")
  | L_ET => (40, "")
  | L_EU => (41, "")
  | L_FA => (42, "")
  | L_FF => (43, "")
  | L_FI => (44, "")
  | L_FJ => (45, "")
  | L_FO => (46, "")
  | L_FR => (47, "")
  | L_FY => (48, "")
  | L_GA => (49, "")
  | L_GD => (50, "")
  | L_GL => (51, "")
  | L_GN => (52, "")
  | L_GU => (53, "")
  | L_GV => (54, "")
  | L_HA => (55, "")
  | L_HE => (56, "")
  | L_HI => (57, "")
  | L_HO => (58, "")
  | L_HR => (59, "")
  | L_HT => (60, "")
  | L_HU => (61, "")
  | L_HY => (62, "")
  | L_HZ => (63, "")
  | L_IA => (64, "")
  | L_ID => (65, "")
  | L_IE => (66, "")
  | L_IG => (67, "")
  | L_II => (68, "")
  | L_IK => (69, "")
  | L_IO => (70, "")
  | L_IS => (71, "")
  | L_IT => (72, "")
  | L_IU => (73, "")
  | L_JA => (74, "")
  | L_JV => (75, "")
  | L_KA => (76, "")
  | L_KG => (77, "")
  | L_KI => (78, "")
  | L_KJ => (79, "")
  | L_KK => (80, "")
  | L_KL => (81, "")
  | L_KM => (82, "")
  | L_KN => (83, "")
  | L_KO => (84, "")
  | L_KR => (85, "")
  | L_KS => (86, "")
  | L_KU => (87, "")
  | L_KV => (88, "")
  | L_KW => (89, "")
  | L_KY => (90, "")
  | L_LA => (91, "")
  | L_LB => (92, "")
  | L_LG => (93, "")
  | L_LI => (94, "")
  | L_LN => (95, "")
  | L_LO => (96, "")
  | L_LT => (97, "")
  | L_LU => (98, "")
  | L_LV => (99, "")
  | L_MG => (100, "")
  | L_MH => (101, "")
  | L_MI => (102, "")
  | L_MK => (103, "")
  | L_ML => (104, "")
  | L_MN => (105, "")
  | L_MR => (106, "")
  | L_MS => (107, "")
  | L_MT => (108, "")
  | L_MY => (109, "")
  | L_NA => (110, "")
  | L_NB => (111, "")
  | L_ND => (112, "")
  | L_NE => (113, "")
  | L_NG => (114, "")
  | L_NL => (115, "")
  | L_NN => (116, "")
  | L_NO => (117, "")
  | L_NR => (118, "")
  | L_NV => (119, "")
  | L_NY => (120, "")
  | L_OC => (121, "")
  | L_OJ => (122, "")
  | L_OM => (123, "")
  | L_OR => (124, "")
  | L_OS => (125, "")
  | L_PA => (126, "")
  | L_PI => (127, "")
  | L_PL => (128, "")
  | L_PS => (129, "")
  | L_PT => (130, "")
  | L_QU => (131, "")
  | L_RM => (132, "")
  | L_RN => (133, "")
  | L_RO => (134, "")
  | L_RU => (135, "")
  | L_RW => (136, "")
  | L_SA => (137, "")
  | L_SC => (138, "")
  | L_SD => (139, "")
  | L_SE => (140, "")
  | L_SG => (141, "")
  | L_SI => (142, "")
  | L_SK => (143, "")
  | L_SL => (144, "")
  | L_SM => (145, "")
  | L_SN => (146, "")
  | L_SO => (147, "")
  | L_SQ => (148, "")
  | L_SR => (149, "")
  | L_SS => (150, "")
  | L_ST => (151, "")
  | L_SU => (152, "")
  | L_SV => (153, "")
  | L_SW => (154, "")
  | L_TA => (155, "")
  | L_TE => (156, "")
  | L_TG => (157, "")
  | L_TH => (158, "")
  | L_TI => (159, "")
  | L_TK => (160, "")
  | L_TL => (161, "")
  | L_TN => (162, "")
  | L_TO => (163, "")
  | L_TR => (164, "")
  | L_TS => (165, "")
  | L_TT => (166, "")
  | L_TW => (167, "")
  | L_TY => (168, "")
  | L_UG => (169, "")
  | L_UK => (170, "")
  | L_UR => (171, "")
  | L_UZ => (172, "")
  | L_VE => (173, "")
  | L_VI => (174, "")
  | L_VO => (175, "")
  | L_WA => (176, "")
  | L_WO => (177, "")
  | L_XH => (178, "")
  | L_YI => (179, "")
  | L_YO => (180, "")
  | L_ZA => (181, "")
  | L_ZH => (182, "")
  | L_ZU => (183, "")
  | L_Other s => (184, s)
  end.

Definition lang_unrank (r : N * string) : language :=
  match fst r with
  | 0 => L_AA
  | 1 => L_AB
  | 2 => L_AE
  | 3 => L_AF
  | 4 => L_AK
  | 5 => L_AM
  | 6 => L_AN
  | 7 => L_AR
  | 8 => L_AS
  | 9 => L_AV
  | 10 => L_AY
  | 11 => L_AZ
  | 12 => L_BA
  | 13 => L_BE
  | 14 => L_BG
  | 15 => L_BH
  | 16 => L_BI
  | 17 => L_BM
  | 18 => L_BN
  | 19 => L_BO
  | 20 => L_BR
  | 21 => L_BS
  | 22 => L_CA
  | 23 => L_CE
  | 24 => L_CH
  | 25 => L_CO
  | 26 => L_CR
  | 27 => L_CS
  | 28 => L_CU
  | 29 => L_CV
  | 30 => L_CY
  | 31 => L_DA
  | 32 => L_DE
  | 33 => L_DV
  | 34 => L_DZ
  | 35 => L_EE
  | 36 => L_EL
  | 37 => L_EN
  | 38 => L_EO
  | 39 => L_ES
  | 40 => L_ET
  | 41 => L_EU
  | 42 => L_FA
  | 43 => L_FF
  | 44 => L_FI
  | 45 => L_FJ
  | 46 => L_FO
  | 47 => L_FR
  | 48 => L_FY
  | 49 => L_GA
  | 50 => L_GD
  | 51 => L_GL
  | 52 => L_GN
  | 53 => L_GU
  | 54 => L_GV
  | 55 => L_HA
  | 56 => L_HE
  | 57 => L_HI
  | 58 => L_HO
  | 59 => L_HR
  | 60 => L_HT
  | 61 => L_HU
  | 62 => L_HY
  | 63 => L_HZ
  | 64 => L_IA
  | 65 => L_ID
  | 66 => L_IE
  | 67 => L_IG
  | 68 => L_II
  | 69 => L_IK
  | 70 => L_IO
  | 71 => L_IS
  | 72 => L_IT
  | 73 => L_IU
  | 74 => L_JA
  | 75 => L_JV
  | 76 => L_KA
  | 77 => L_KG
  | 78 => L_KI
  | 79 => L_KJ
  | 80 => L_KK
  | 81 => L_KL
  | 82 => L_KM
  | 83 => L_KN
  | 84 => L_KO
  | 85 => L_KR
  | 86 => L_KS
  | 87 => L_KU
  | 88 => L_KV
  | 89 => L_KW
  | 90 => L_KY
  | 91 => L_LA
  | 92 => L_LB
  | 93 => L_LG
  | 94 => L_LI
  | 95 => L_LN
  | 96 => L_LO
  | 97 => L_LT
  | 98 => L_LU
  | 99 => L_LV
  | 100 => L_MG
  | 101 => L_MH
  | 102 => L_MI
  | 103 => L_MK
  | 104 => L_ML
  | 105 => L_MN
  | 106 => L_MR
  | 107 => L_MS
  | 108 => L_MT
  | 109 => L_MY
  | 110 => L_NA
  | 111 => L_NB
  | 112 => L_ND
  | 113 => L_NE
  | 114 => L_NG
  | 115 => L_NL
  | 116 => L_NN
  | 117 => L_NO
  | 118 => L_NR
  | 119 => L_NV
  | 120 => L_NY
  | 121 => L_OC
  | 122 => L_OJ
  | 123 => L_OM
  | 124 => L_OR
  | 125 => L_OS
  | 126 => L_PA
  | 127 => L_PI
  | 128 => L_PL
  | 129 => L_PS
  | 130 => L_PT
  | 131 => L_QU
  | 132 => L_RM
  | 133 => L_RN
  | 134 => L_RO
  | 135 => L_RU
  | 136 => L_RW
  | 137 => L_SA
  | 138 => L_SC
  | 139 => L_SD
  | 140 => L_SE
  | 141 => L_SG
  | 142 => L_SI
  | 143 => L_SK
  | 144 => L_SL
  | 145 => L_SM
  | 146 => L_SN
  | 147 => L_SO
  | 148 => L_SQ
  | 149 => L_SR
  | 150 => L_SS
  | 151 => L_ST
  | 152 => L_SU
  | 153 => L_SV
  | 154 => L_SW
  | 155 => L_TA
  | 156 => L_TE
  | 157 => L_TG
  | 158 => L_TH
  | 159 => L_TI
  | 160 => L_TK
  | 161 => L_TL
  | 162 => L_TN
  | 163 => L_TO
  | 164 => L_TR
  | 165 => L_TS
  | 166 => L_TT
  | 167 => L_TW
  | 168 => L_TY
  | 169 => L_UG
  | 170 => L_UK
  | 171 => L_UR
  | 172 => L_UZ
  | 173 => L_VE
  | 174 => L_VI
  | 175 => L_VO
  | 176 => L_WA
  | 177 => L_WO
  | 178 => L_XH
  | 179 => L_YI
  | 180 => L_YO
  | 181 => L_ZA
  | 182 => L_ZH
  | 183 => L_ZU
  | _ => L_Other (snd r)
  end.
Lemma lang_unrank_rank l : lang_unrank (lang_rank l) = l.
Proof. destruct l; reflexivity. Qed.

#[global] Instance Ord_language : Ord language.
Proof.
  refine {| cmp := fun a b => cmp (lang_rank a) (lang_rank b) |}.
  - intros x y. rewrite cmp_eq. split; [|intros ->; reflexivity].
    intros H. rewrite <- (lang_unrank_rank x), <- (lang_unrank_rank y), H. reflexivity.
  - intros x y; apply cmp_anti.
  - intros x y z; apply cmp_lt_trans.
Defined.

(** i18n.rs:206-395; [make_ascii_uppercase] then a table *)
Definition lang_from (value : string) : language :=
  let value := to_upper value in
  if String.eqb value "AA" then L_AA
  else if String.eqb value "AB" then L_AB
  else if String.eqb value "AE" then L_AE
  else if String.eqb value "AF" then L_AF
  else if String.eqb value "AK" then L_AK
  else if String.eqb value "AM" then L_AM
  else if String.eqb value "AN" then L_AN
  else if String.eqb value "AR" then L_AR
  else if String.eqb value "AS" then L_AS
  else if String.eqb value "AV" then L_AV
  else if String.eqb value "AY" then L_AY
  else if String.eqb value "AZ" then L_AZ
  else if String.eqb value "BA" then L_BA
  else if String.eqb value "BE" then L_BE
  else if String.eqb value "BG" then L_BG
  else if String.eqb value "BH" then L_BH
  else if String.eqb value "BI" then L_BI
  else if String.eqb value "BM" then L_BM
  else if String.eqb value "BN" then L_BN
  else if String.eqb value "BO" then L_BO
  else if String.eqb value "BR" then L_BR
  else if String.eqb value "BS" then L_BS
  else if String.eqb value "CA" then L_CA
  else if String.eqb value "CE" then L_CE
  else if String.eqb value "CH" then L_CH
  else if String.eqb value "CO" then L_CO
  else if String.eqb value "CR" then L_CR
  else if String.eqb value "CS" then L_CS
  else if String.eqb value "CU" then L_CU
  else if String.eqb value "CV" then L_CV
  else if String.eqb value "CY" then L_CY
  else if String.eqb value "DA" then L_DA
  else if String.eqb value "DE" then L_DE
  else if String.eqb value "DV" then L_DV
  else if String.eqb value "DZ" then L_DZ
  else if String.eqb value "EE" then L_EE
  else if String.eqb value "EL" then L_EL
  else if String.eqb value "EN" then L_EN
  else if String.eqb value "EO" then L_EO
  else if String.eqb value "ES" then L_ES
  else if String.eqb value "ET" then L_ET
  else if String.eqb value "EU" then L_EU
  else if String.eqb value "FA" then L_FA
  else if String.eqb value "FF" then L_FF
  else if String.eqb value "FI" then L_FI
  else if String.eqb value "FJ" then L_FJ
  else if String.eqb value "FO" then L_FO
  else if String.eqb value "FR" then L_FR
  else if String.eqb value "FY" then L_FY
  else if String.eqb value "GA" then L_GA
  else if String.eqb value "GD" then L_GD
  else if String.eqb value "GL" then L_GL
  else if String.eqb value "GN" then L_GN
  else if String.eqb value "GU" then L_GU
  else if String.eqb value "GV" then L_GV
  else if String.eqb value "HA" then L_HA
  else if String.eqb value "HE" then L_HE
  else if String.eqb value "HI" then L_HI
  else if String.eqb value "HO" then L_HO
  else if String.eqb value "HR" then L_HR
  else if String.eqb value "HT" then L_HT
  else if String.eqb value "HU" then L_HU
  else if String.eqb value "HY" then L_HY
  else if String.eqb value "HZ" then L_HZ
  else if String.eqb value "IA" then L_IA
  else if String.eqb value "ID" then L_ID
  else if String.eqb value "IE" then L_IE
  else if String.eqb value "IG" then L_IG
  else if String.eqb value "II" then L_II
  else if String.eqb value "IK" then L_IK
  else if String.eqb value "IO" then L_IO
  else if String.eqb value "IS" then L_IS
  else if String.eqb value "IT" then L_IT
  else if String.eqb value "IU" then L_IU
  else if String.eqb value "JA" then L_JA
  else if String.eqb value "JV" then L_JV
  else if String.eqb value "KA" then L_KA
  else if String.eqb value "KG" then L_KG
  else if String.eqb value "KI" then L_KI
  else if String.eqb value "KJ" then L_KJ
  else if String.eqb value "KK" then L_KK
  else if String.eqb value "KL" then L_KL
  else if String.eqb value "KM" then L_KM
  else if String.eqb value "KN" then L_KN
  else if String.eqb value "KO" then L_KO
  else if String.eqb value "KR" then L_KR
  else if String.eqb value "KS" then L_KS
  else if String.eqb value "KU" then L_KU
  else if String.eqb value "KV" then L_KV
  else if String.eqb value "KW" then L_KW
  else if String.eqb value "KY" then L_KY
  else if String.eqb value "LA" then L_LA
  else if String.eqb value "LB" then L_LB
  else if String.eqb value "LG" then L_LG
  else if String.eqb value "LI" then L_LI
  else if String.eqb value "LN" then L_LN
  else if String.eqb value "LO" then L_LO
  else if String.eqb value "LT" then L_LT
  else if String.eqb value "LU" then L_LU
  else if String.eqb value "LV" then L_LV
  else if String.eqb value "MG" then L_MG
  else if String.eqb value "MH" then L_MH
  else if String.eqb value "MI" then L_MI
  else if String.eqb value "MK" then L_MK
  else if String.eqb value "ML" then L_ML
  else if String.eqb value "MN" then L_MN
  else if String.eqb value "MR" then L_MR
  else if String.eqb value "MS" then L_MS
  else if String.eqb value "MT" then L_MT
  else if String.eqb value "MY" then L_MY
  else if String.eqb value "NA" then L_NA
  else if String.eqb value "NB" then L_NB
  else if String.eqb value "ND" then L_ND
  else if String.eqb value "NE" then L_NE
  else if String.eqb value "NG" then L_NG
  else if String.eqb value "NL" then L_NL
  else if String.eqb value "NN" then L_NN
  else if String.eqb value "NO" then L_NO
  else if String.eqb value "NR" then L_NR
  else if String.eqb value "NV" then L_NV
  else if String.eqb value "NY" then L_NY
  else if String.eqb value "OC" then L_OC
  else if String.eqb value "OJ" then L_OJ
  else if String.eqb value "OM" then L_OM
  else if String.eqb value "OR" then L_OR
  else if String.eqb value "OS" then L_OS
  else if String.eqb value "PA" then L_PA
  else if String.eqb value "PI" then L_PI
  else if String.eqb value "PL" then L_PL
  else if String.eqb value "PS" then L_PS
  else if String.eqb value "PT" then L_PT
  else if String.eqb value "QU" then L_QU
  else if String.eqb value "RM" then L_RM
  else if String.eqb value "RN" then L_RN
  else if String.eqb value "RO" then L_RO
  else if String.eqb value "RU" then L_RU
  else if String.eqb value "RW" then L_RW
  else if String.eqb value "SA" then L_SA
  else if String.eqb value "SC" then L_SC
  else if String.eqb value "SD" then L_SD
  else if String.eqb value "SE" then L_SE
  else if String.eqb value "SG" then L_SG
  else if String.eqb value "SI" then L_SI
  else if String.eqb value "SK" then L_SK
  else if String.eqb value "SL" then L_SL
  else if String.eqb value "SM" then L_SM
  else if String.eqb value "SN" then L_SN
  else if String.eqb value "SO" then L_SO
  else if String.eqb value "SQ" then L_SQ
  else if String.eqb value "SR" then L_SR
  else if String.eqb value "SS" then L_SS
  else if String.eqb value "ST" then L_ST
  else if String.eqb value "SU" then L_SU
  else if String.eqb value "SV" then L_SV
  else if String.eqb value "SW" then L_SW
  else if String.eqb value "TA" then L_TA
  else if String.eqb value "TE" then L_TE
  else if String.eqb value "TG" then L_TG
  else if String.eqb value "TH" then L_TH
  else if String.eqb value "TI" then L_TI
  else if String.eqb value "TK" then L_TK
  else if String.eqb value "TL" then L_TL
  else if String.eqb value "TN" then L_TN
  else if String.eqb value "TO" then L_TO
  else if String.eqb value "TR" then L_TR
  else if String.eqb value "TS" then L_TS
  else if String.eqb value "TT" then L_TT
  else if String.eqb value "TW" then L_TW
  else if String.eqb value "TY" then L_TY
  else if String.eqb value "UG" then L_UG
  else if String.eqb value "UK" then L_UK
  else if String.eqb value "UR" then L_UR
  else if String.eqb value "UZ" then L_UZ
  else if String.eqb value "VE" then L_VE
  else if String.eqb value "VI" then L_VI
  else if String.eqb value "VO" then L_VO
  else if String.eqb value "WA" then L_WA
  else if String.eqb value "WO" then L_WO
  else if String.eqb value "XH" then L_XH
  else if String.eqb value "YI" then L_YI
  else if String.eqb value "YO" then L_YO
  else if String.eqb value "ZA" then L_ZA
  else if String.eqb value "ZH" then L_ZH
  else if String.eqb value "ZU" then L_ZU
  else L_Other "¿?".
