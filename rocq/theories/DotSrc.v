(* GENERATED by gen/gen_src.py: docs/urn.dot of /repo, byte for byte (in a Coq string only
   the quotation mark is doubled).  Long files are cut in pieces at line ends. *)
From Verif Require Import GoBase.
Local Open Scope string_scope.

(* docs/urn.dot: 541 lines *)
Definition urn_dot_0 : string := "digraph urn {
	rankdir=LR;
	node [ shape = point ];
	ENTRY;
	en_5;
	en_44;
	en_48;
	en_83;
	en_95;
	en_1;
	eof_1;
	eof_2;
	eof_3;
	eof_4;
	eof_5;
	eof_6;
	eof_7;
	eof_8;
	eof_9;
	eof_10;
	eof_11;
	eof_12;
	eof_13;
	eof_14;
	eof_15;
	eof_16;
	eof_17;
	eof_18;
	eof_19;
	eof_20;
	eof_21;
	eof_22;
	eof_23;
	eof_24;
	eof_25;
	eof_26;
	eof_27;
	eof_28;
	eof_29;
	eof_30;
	eof_31;
	eof_32;
	eof_33;
	eof_34;
	eof_35;
	eof_36;
	eof_37;
	eof_38;
	eof_39;
	eof_40;
	eof_41;
	eof_42;
	eof_43;
	eof_44;
	eof_45;
	eof_46;
	eof_47;
	eof_48;
	eof_49;
	eof_50;
	eof_51;
	eof_52;
	eof_53;
	eof_54;
	eof_55;
	eof_56;
	eof_57;
	eof_58;
	eof_59;
	eof_60;
	eof_61;
	eof_62;
	eof_63;
	eof_64;
	eof_65;
	eof_66;
	eof_67;
	eof_68;
	eof_69;
	eof_70;
	eof_71;
	eof_72;
	eof_73;
	eof_74;
	eof_75;
	eof_76;
	eof_77;
	eof_78;
	eof_79;
	eof_80;
	eof_81;
	eof_82;
	eof_83;
	eof_84;
	eof_85;
	eof_86;
	eof_88;
	eof_89;
	eof_91;
	eof_92;
	eof_93;
	node [ shape = circle, height = 0.2 ];
	err_1 [ label=""""];
	err_2 [ label=""""];
	err_3 [ label=""""];
	err_4 [ label=""""];
	err_5 [ label=""""];
	err_6 [ label=""""];
	err_7 [ label=""""];
	err_8 [ label=""""];
	err_9 [ label=""""];
	err_10 [ label=""""];
	err_11 [ label=""""];
	err_12 [ label=""""];
	err_13 [ label=""""];
	err_14 [ label=""""];
	err_15 [ label=""""];
	err_16 [ label=""""];
	err_17 [ label=""""];
	err_18 [ label=""""];
	err_19 [ label=""""];
	err_20 [ label=""""];
	err_21 [ label=""""];
	err_22 [ label=""""];
	err_23 [ label=""""];
	err_24 [ label=""""];
	err_25 [ label=""""];
	err_26 [ label=""""];
	err_27 [ label=""""];
	err_28 [ label=""""];
	err_29 [ label=""""];
	err_30 [ label=""""];
	err_31 [ label=""""];
	err_32 [ label=""""];
	err_33 [ label=""""];
	err_34 [ label=""""];
	err_35 [ label=""""];
	err_36 [ label=""""];
	err_37 [ label=""""];
	err_38 [ label=""""];
	err_39 [ label=""""];
	err_40 [ label=""""];
	err_41 [ label=""""];
	err_42 [ label=""""];
	err_43 [ label=""""];
	err_44 [ label=""""];
	err_45 [ label=""""];
	err_46 [ label=""""];
	err_47 [ label=""""];
	err_48 [ label=""""];
	err_49 [ label=""""];
	err_50 [ label=""""];
	err_51 [ label=""""];
	err_52 [ label=""""];
	err_53 [ label=""""];
	err_54 [ label=""""];
	err_55 [ label=""""];
	err_56 [ label=""""];
	err_57 [ label=""""];
	err_58 [ label=""""];
	err_59 [ label=""""];
	err_60 [ label=""""];
	err_61 [ label=""""];
	err_62 [ label=""""];
	err_63 [ label=""""];
	err_64 [ label=""""];
	err_65 [ label=""""];
	err_66 [ label=""""];
	err_67 [ label=""""];
	err_68 [ label=""""];
	err_69 [ label=""""];
	err_70 [ label=""""];
	err_71 [ label=""""];
	err_72 [ label=""""];
	err_73 [ label=""""];
	err_74 [ label=""""];
	err_75 [ label=""""];
	err_76 [ label=""""];
	err_77 [ label=""""];
	err_78 [ label=""""];
	err_79 [ label=""""];
	err_80 [ label=""""];
	err_81 [ label=""""];
	err_82 [ label=""""];
	err_83 [ label=""""];
	err_84 [ label=""""];
	err_85 [ label=""""];
	err_86 [ label=""""];
	err_87 [ label=""""];
	err_88 [ label=""""];
	err_89 [ label=""""];
	err_90 [ label=""""];
	err_91 [ label=""""];
	err_92 [ label=""""];
	err_93 [ label=""""];
	err_94 [ label=""""];
	node [ fixedsize = true, height = 0.65, shape = doublecircle ];
	87;
	88;
	89;
	90;
	91;
	92;
	93;
	94;
	95;
	node [ shape = circle ];
	1 -> 2 [ label = ""'U', 'u' / mark, throw_pre_urn_err"" ];
	1 -> err_1 [ label = ""DEF / err_pre, err_parse"" ];
	2 -> 3 [ label = ""'R', 'r'"" ];
	2 -> err_2 [ label = ""DEF / err_pre, err_parse"" ];
	3 -> 4 [ label = ""'N', 'n'"" ];
	3 -> err_3 [ label = ""DEF / err_pre, err_parse"" ];
	4 -> 87 [ label = ""':' / set_pre, 235:33"" ];
	4 -> err_4 [ label = ""DEF / err_pre, err_parse"" ];
	5 -> 6 [ label = ""'0'..'9', 'A'..'T', 'V'..'Z', 'a'..'t', 'v'..'z' / mark"" ];
	5 -> 41 [ label = ""'U', 'u' / mark, throw_pre_urn_err"" ];
	5 -> err_5 [ label = ""DEF / err_nid, err_pre, err_parse"" ];
	6 -> 7 [ label = ""'-', '0'..'9', 'A'..'Z', 'a'..'z'"" ];
	6 -> 38 [ label = ""':' / set_nid"" ];
	6 -> err_6 [ label = ""DEF / err_nid, err_parse"" ];
	7 -> 8 [ label = ""'-', '0'..'9', 'A'..'Z', 'a'..'z'"" ];
	7 -> 38 [ label = ""':' / set_nid"" ];
	7 -> err_7 [ label = ""DEF / err_nid, err_parse"" ];
	8 -> 9 [ label = ""'-', '0'..'9', 'A'..'Z', 'a'..'z'"" ];
	8 -> 38 [ label = ""':' / set_nid"" ];
	8 -> err_8 [ label = ""DEF / err_nid, err_parse"" ];
	9 -> 10 [ label = ""'-', '0'..'9', 'A'..'Z', 'a'..'z'"" ];
	9 -> 38 [ label = ""':' / set_nid"" ];
	9 -> err_9 [ label = ""DEF / err_nid, err_parse"" ];
	10 -> 11 [ label = ""'-', '0'..'9', 'A'..'Z', 'a'..'z'"" ];
	10 -> 38 [ label = ""':' / set_nid"" ];
	10 -> err_10 [ label = ""DEF / err_nid, err_parse"" ];
	11 -> 12 [ label = ""'-', '0'..'9', 'A'..'Z', 'a'..'z'"" ];
	11 -> 38 [ label = ""':' / set_nid"" ];
	11 -> err_11 [ label = ""DEF / err_nid, err_parse"" ];
	12 -> 13 [ label = ""'-', '0'..'9', 'A'..'Z', 'a'..'z'"" ];
	12 -> 38 [ label = ""':' / set_nid"" ];
	12 -> err_12 [ label = ""DEF / err_nid, err_parse"" ];
	13 -> 14 [ label = ""'-', '0'..'9', 'A'..'Z', 'a'..'z'"" ];
	13 -> 38 [ label = ""':' / set_nid"" ];
	13 -> err_13 [ label = ""DEF / err_nid, err_parse"" ];
	14 -> 15 [ label = ""'-', '0'..'9', 'A'..'Z', 'a'..'z'"" ];
	14 -> 38 [ label = ""':' / set_nid"" ];
	14 -> err_14 [ label = ""DEF / err_nid, err_parse"" ];
	15 -> 16 [ label = ""'-', '0'..'9', 'A'..'Z', 'a'..'z'"" ];
	15 -> 38 [ label = ""':' / set_nid"" ];
	15 -> err_15 [ label = ""DEF / err_nid, err_parse"" ];
	16 -> 17 [ label = ""'-', '0'..'9', 'A'..'Z', 'a'..'z'"" ];
	16 -> 38 [ label = ""':' / set_nid"" ];
".
Definition urn_dot_1 : string := "	16 -> err_16 [ label = ""DEF / err_nid, err_parse"" ];
	17 -> 18 [ label = ""'-', '0'..'9', 'A'..'Z', 'a'..'z'"" ];
	17 -> 38 [ label = ""':' / set_nid"" ];
	17 -> err_17 [ label = ""DEF / err_nid, err_parse"" ];
	18 -> 19 [ label = ""'-', '0'..'9', 'A'..'Z', 'a'..'z'"" ];
	18 -> 38 [ label = ""':' / set_nid"" ];
	18 -> err_18 [ label = ""DEF / err_nid, err_parse"" ];
	19 -> 20 [ label = ""'-', '0'..'9', 'A'..'Z', 'a'..'z'"" ];
	19 -> 38 [ label = ""':' / set_nid"" ];
	19 -> err_19 [ label = ""DEF / err_nid, err_parse"" ];
	20 -> 21 [ label = ""'-', '0'..'9', 'A'..'Z', 'a'..'z'"" ];
	20 -> 38 [ label = ""':' / set_nid"" ];
	20 -> err_20 [ label = ""DEF / err_nid, err_parse"" ];
	21 -> 22 [ label = ""'-', '0'..'9', 'A'..'Z', 'a'..'z'"" ];
	21 -> 38 [ label = ""':' / set_nid"" ];
	21 -> err_21 [ label = ""DEF / err_nid, err_parse"" ];
	22 -> 23 [ label = ""'-', '0'..'9', 'A'..'Z', 'a'..'z'"" ];
	22 -> 38 [ label = ""':' / set_nid"" ];
	22 -> err_22 [ label = ""DEF / err_nid, err_parse"" ];
	23 -> 24 [ label = ""'-', '0'..'9', 'A'..'Z', 'a'..'z'"" ];
	23 -> 38 [ label = ""':' / set_nid"" ];
	23 -> err_23 [ label = ""DEF / err_nid, err_parse"" ];
	24 -> 25 [ label = ""'-', '0'..'9', 'A'..'Z', 'a'..'z'"" ];
	24 -> 38 [ label = ""':' / set_nid"" ];
	24 -> err_24 [ label = ""DEF / err_nid, err_parse"" ];
	25 -> 26 [ label = ""'-', '0'..'9', 'A'..'Z', 'a'..'z'"" ];
	25 -> 38 [ label = ""':' / set_nid"" ];
	25 -> err_25 [ label = ""DEF / err_nid, err_parse"" ];
	26 -> 27 [ label = ""'-', '0'..'9', 'A'..'Z', 'a'..'z'"" ];
	26 -> 38 [ label = ""':' / set_nid"" ];
	26 -> err_26 [ label = ""DEF / err_nid, err_parse"" ];
	27 -> 28 [ label = ""'-', '0'..'9', 'A'..'Z', 'a'..'z'"" ];
	27 -> 38 [ label = ""':' / set_nid"" ];
	27 -> err_27 [ label = ""DEF / err_nid, err_parse"" ];
	28 -> 29 [ label = ""'-', '0'..'9', 'A'..'Z', 'a'..'z'"" ];
	28 -> 38 [ label = ""':' / set_nid"" ];
	28 -> err_28 [ label = ""DEF / err_nid, err_parse"" ];
	29 -> 30 [ label = ""'-', '0'..'9', 'A'..'Z', 'a'..'z'"" ];
	29 -> 38 [ label = ""':' / set_nid"" ];
	29 -> err_29 [ label = ""DEF / err_nid, err_parse"" ];
	30 -> 31 [ label = ""'-', '0'..'9', 'A'..'Z', 'a'..'z'"" ];
	30 -> 38 [ label = ""':' / set_nid"" ];
	30 -> err_30 [ label = ""DEF / err_nid, err_parse"" ];
	31 -> 32 [ label = ""'-', '0'..'9', 'A'..'Z', 'a'..'z'"" ];
	31 -> 38 [ label = ""':' / set_nid"" ];
	31 -> err_31 [ label = ""DEF / err_nid, err_parse"" ];
	32 -> 33 [ label = ""'-', '0'..'9', 'A'..'Z', 'a'..'z'"" ];
	32 -> 38 [ label = ""':' / set_nid"" ];
	32 -> err_32 [ label = ""DEF / err_nid, err_parse"" ];
	33 -> 34 [ label = ""'-', '0'..'9', 'A'..'Z', 'a'..'z'"" ];
	33 -> 38 [ label = ""':' / set_nid"" ];
	33 -> err_33 [ label = ""DEF / err_nid, err_parse"" ];
	34 -> 35 [ label = ""'-', '0'..'9', 'A'..'Z', 'a'..'z'"" ];
	34 -> 38 [ label = ""':' / set_nid"" ];
	34 -> err_34 [ label = ""DEF / err_nid, err_parse"" ];
	35 -> 36 [ label = ""'-', '0'..'9', 'A'..'Z', 'a'..'z'"" ];
	35 -> 38 [ label = ""':' / set_nid"" ];
	35 -> err_35 [ label = ""DEF / err_nid, err_parse"" ];
	36 -> 37 [ label = ""'-', '0'..'9', 'A'..'Z', 'a'..'z'"" ];
	36 -> 38 [ label = ""':' / set_nid"" ];
	36 -> err_36 [ label = ""DEF / err_nid, err_parse"" ];
	37 -> 38 [ label = ""':' / set_nid"" ];
	37 -> err_37 [ label = ""DEF / err_nid, err_parse"" ];
	38 -> 88 [ label = ""'!', '$', '''..'.', '0'..';', '=', '@'..'Z', '_', 'a'..'z' / mark"" ];
	38 -> 39 [ label = ""'%' / mark"" ];
	38 -> err_38 [ label = ""DEF / err_nss, err_parse"" ];
	39 -> 40 [ label = ""'0'..'9', 'a'..'z'"" ];
	39 -> 40 [ label = ""'A'..'Z' / tolower"" ];
	39 -> err_39 [ label = ""DEF / err_hex, err_nss, err_parse"" ];
	40 -> 89 [ label = ""'0'..'9', 'a'..'z'"" ];
	40 -> 89 [ label = ""'A'..'Z' / tolower"" ];
	40 -> err_40 [ label = ""DEF / err_hex, err_nss, err_parse"" ];
	41 -> 7 [ label = ""'-', '0'..'9', 'A'..'Q', 'S'..'Z', 'a'..'q', 's'..'z'"" ];
	41 -> 38 [ label = ""':' / set_nid"" ];
	41 -> 42 [ label = ""'R', 'r'"" ];
	41 -> err_41 [ label = ""DEF / err_nid, err_pre, err_parse"" ];
	42 -> 8 [ label = ""'-', '0'..'9', 'A'..'M', 'O'..'Z', 'a'..'m', 'o'..'z'"" ];
	42 -> 38 [ label = ""':' / set_nid"" ];
	42 -> 43 [ label = ""'N', 'n'"" ];
	42 -> err_42 [ label = ""DEF / err_nid, err_pre, err_parse"" ];
	43 -> 9 [ label = ""'-', '0'..'9', 'A'..'Z', 'a'..'z'"" ];
	43 -> err_43 [ label = ""DEF / err_nid, err_urn, err_parse"" ];
	44 -> 45 [ label = ""'U', 'u' / mark, throw_pre_urn_err"" ];
	44 -> err_44 [ label = ""DEF / err_pre"" ];
	45 -> 46 [ label = ""'R', 'r'"" ];
	45 -> err_45 [ label = ""DEF / err_pre"" ];
	46 -> 47 [ label = ""'N', 'n'"" ];
	46 -> err_46 [ label = ""DEF / err_pre"" ];
	47 -> 90 [ label = ""':' / set_pre, 215:36"" ];
	47 -> err_47 [ label = ""DEF / err_pre"" ];
	48 -> 49 [ label = ""'i' / mark"" ];
	48 -> err_48 [ label = ""DEF / err_scim_nid"" ];
	49 -> 50 [ label = ""'e'"" ];
	49 -> err_49 [ label = ""DEF / err_scim_nid"" ];
	50 -> 51 [ label = ""'t'"" ];
	50 -> err_50 [ label = ""DEF / err_scim_nid"" ];
	51 -> 52 [ label = ""'f'"" ];
	51 -> err_51 [ label = ""DEF / err_scim_nid"" ];
	52 -> 53 [ label = ""':'"" ];
	52 -> err_52 [ label = ""DEF / err_scim_nid"" ];
	53 -> 54 [ label = ""'p'"" ];
	53 -> err_53 [ label = ""DEF / err_scim_nid"" ];
	54 -> 55 [ label = ""'a'"" ];
	54 -> err_54 [ label = ""DEF / err_scim_nid"" ];
	55 -> 56 [ label = ""'r'"" ];
	55 -> err_55 [ label = ""DEF / err_scim_nid"" ];
	56 -> 57 [ label = ""'a'"" ];
	56 -> err_56 [ label = ""DEF / err_scim_nid"" ];
	57 -> 58 [ label = ""'m'"" ];
	57 -> err_57 [ label = ""DEF / err_scim_nid"" ];
	58 -> 59 [ label = ""'s'"" ];
	58 -> err_58 [ label = ""DEF / err_scim_nid"" ];
	59 -> 60 [ label = ""':'"" ];
	59 -> err_59 [ label = ""DEF / err_scim_nid"" ];
	60 -> 61 [ label = ""'s'"" ];
	60 -> err_60 [ label = ""DEF / err_scim_nid"" ];
	61 -> 62 [ label = ""'c'"" ];
	61 -> err_61 [ label = ""DEF / err_scim_nid"" ];
	62 -> 63 [ label = ""'i'"" ];
	62 -> err_62 [ label = ""DEF / err_scim_nid"" ];
	63 -> 64 [ label = ""'m'"" ];
	63 -> err_63 [ label = ""DEF / err_scim_nid"" ];
	64 -> 65 [ label = ""':' / set_nid, create_scim"" ];
	64 -> err_64 [ label = ""DEF / err_scim_nid"" ];
	65 -> 66 [ label = ""'a' / mark"" ];
	65 -> 73 [ label = ""'p' / mark"" ];
	65 -> 77 [ label = ""'s' / mark"" ];
	65 -> err_65 [ label = ""DEF / err_scim_type"" ];
	66 -> 67 [ label = ""'p'"" ];
	66 -> err_66 [ label = ""DEF / err_scim_type"" ];
	67 -> 68 [ label = ""'i'"" ];
	67 -> err_67 [ label = ""DEF / err_scim_type"" ];
	68 -> 69 [ label = ""':' / set_scim_type"" ];
	68 -> err_68 [ label = ""DEF / err_scim_type"" ];
	69 -> 91 [ label = ""'0'..'9', 'A'..'Z', 'a'..'z' / mark_scim_name"" ];
	69 -> err_69 [ label = ""DEF / err_scim_name"" ];
	70 -> 92 [ label = ""'!', '$', '''..'.', '0'..';', '=', '@'..'Z', '_', 'a'..'z' / mark_scim_other"" ];
	70 -> 71 [ label = ""'%' / mark_scim_other"" ];
	70 -> err_70 [ label = ""DEF / err_scim_other"" ];
	71 -> 72 [ label = ""'0'..'9', 'a'..'z'"" ];
	71 -> 72 [ label = ""'A'..'Z' / tolower"" ];
	71 -> err_71 [ label = ""DEF / err_hex, err_scim_other"" ];
	72 -> 93 [ label = ""'0'..'9', 'a'..'z'"" ];
	72 -> 93 [ label = ""'A'..'Z' / tolower"" ];
	72 -> err_72 [ label = ""DEF / err_hex, err_scim_other"" ];
	73 -> 74 [ label = ""'a'"" ];
	73 -> err_73 [ label = ""DEF / err_scim_type"" ];
	74 -> 75 [ label = ""'r'"" ];
	74 -> err_74 [ label = ""DEF / err_scim_type"" ];
	75 -> 76 [ label = ""'a'"" ];
	75 -> err_75 [ label = ""DEF / err_scim_type"" ];
	76 -> 68 [ label = ""'m'"" ];
	76 -> err_76 [ label = ""DEF / err_scim_type"" ];
	77 -> 78 [ label = ""'c'"" ];
	77 -> err_77 [ label = ""DEF / err_scim_type"" ];
	78 -> 79 [ label = ""'h'"" ];
	78 -> err_78 [ label = ""DEF / err_scim_type"" ];
	79 -> 80 [ label = ""'e'"" ];
	79 -> err_79 [ label = ""DEF / err_scim_type"" ];
	80 -> 81 [ label = ""'m'"" ];
	80 -> err_80 [ label = ""DEF / err_scim_type"" ];
	81 -> 82 [ label = ""'a'"" ];
	81 -> err_81 [ label = ""DEF / err_scim_type"" ];
	82 -> 68 [ label = ""'s'"" ];
	82 -> err_82 [ label = ""DEF / err_scim_type"" ];
	83 -> 84 [ label = ""'U', 'u' / mark, throw_pre_urn_err"" ];
	83 -> err_83 [ label = ""DEF / err_pre"" ];
	84 -> 85 [ label = ""'R', 'r'"" ];
	84 -> err_84 [ label = ""DEF / err_pre"" ];
	85 -> 86 [ label = ""'N', 'n'"" ];
	85 -> err_85 [ label = ""DEF / err_pre"" ];
	86 -> 94 [ label = ""':' / set_pre, 229:37"" ];
	86 -> err_86 [ label = ""DEF / err_pre"" ];
	87 -> err_87 [ label = ""DEF / err_pre, err_parse"" ];
	88 -> 88 [ label = ""'!', '$', '''..'.', '0'..';', '=', '@'..'Z', '_', 'a'..'z'"" ];
	88 -> 39 [ label = ""'%'"" ];
	88 -> err_88 [ label = ""DEF / err_nss, err_parse"" ];
	89 -> 88 [ label = ""'!', '$', '''..'.', '0'..';', '=', '@'..'Z', '_', 'a'..'z'"" ];
	89 -> 39 [ label = ""'%'"" ];
	89 -> err_89 [ label = ""DEF / err_hex, err_nss, err_parse"" ];
	90 -> err_90 [ label = ""DEF / err_pre"" ];
	91 -> 91 [ label = ""'0'..'9', 'A'..'Z', 'a'..'z'"" ];
	91 -> 70 [ label = ""':' / set_scim_name"" ];
	91 -> err_91 [ label = ""DEF / err_scim_name"" ];
	92 -> 92 [ label = ""'!', '$', '''..'.', '0'..';', '=', '@'..'Z', '_', 'a'..'z'"" ];
	92 -> 71 [ label = ""'%'"" ];
	92 -> err_92 [ label = ""DEF / err_scim_other"" ];
	93 -> 92 [ label = ""'!', '$', '''..'.', '0'..';', '=', '@'..'Z', '_', 'a'..'z'"" ];
	93 -> 71 [ label = ""'%'"" ];
	93 -> err_93 [ label = ""DEF / err_hex, err_scim_other"" ];
	94 -> err_94 [ label = ""DEF / err_pre"" ];
	95 -> 95 [ label = ""0..'\\t', '\\v'..'\\f', 14..255"" ];
	ENTRY -> 1 [ label = ""IN"" ];
	en_5 -> 5 [ label = ""urn"" ];
	en_44 -> 44 [ label = ""urn_only"" ];
	en_48 -> 48 [ label = ""scim"" ];
	en_83 -> 83 [ label = ""scim_only"" ];
	en_95 -> 95 [ label = ""fail"" ];
	en_1 -> 1 [ label = ""main"" ];
	1 -> eof_1 [ label = ""EOF / err_pre, err_parse"" ];
	2 -> eof_2 [ label = ""EOF / err_pre, err_parse"" ];
	3 -> eof_3 [ label = ""EOF / err_pre, err_parse"" ];
	4 -> eof_4 [ label = ""EOF / err_pre, err_parse"" ];
	5 -> eof_5 [ label = ""EOF / err_nid, err_pre, err_parse"" ];
	6 -> eof_6 [ label = ""EOF / err_nid, err_parse"" ];
	7 -> eof_7 [ label = ""EOF / err_nid, err_parse"" ];
	8 -> eof_8 [ label = ""EOF / err_nid, err_parse"" ];
	9 -> eof_9 [ label = ""EOF / err_nid, err_parse"" ];
	10 -> eof_10 [ label = ""EOF / err_nid, err_parse"" ];
	11 -> eof_11 [ label = ""EOF / err_nid, err_parse"" ];
	12 -> eof_12 [ label = ""EOF / err_nid, err_parse"" ];
	13 -> eof_13 [ label = ""EOF / err_nid, err_parse"" ];
	14 -> eof_14 [ label = ""EOF / err_nid, err_parse"" ];
	15 -> eof_15 [ label = ""EOF / err_nid, err_parse"" ];
	16 -> eof_16 [ label = ""EOF / err_nid, err_parse"" ];
	17 -> eof_17 [ label = ""EOF / err_nid, err_parse"" ];
	18 -> eof_18 [ label = ""EOF / err_nid, err_parse"" ];
	19 -> eof_19 [ label = ""EOF / err_nid, err_parse"" ];
	20 -> eof_20 [ label = ""EOF / err_nid, err_parse"" ];
	21 -> eof_21 [ label = ""EOF / err_nid, err_parse"" ];
	22 -> eof_22 [ label = ""EOF / err_nid, err_parse"" ];
	23 -> eof_23 [ label = ""EOF / err_nid, err_parse"" ];
	24 -> eof_24 [ label = ""EOF / err_nid, err_parse"" ];
	25 -> eof_25 [ label = ""EOF / err_nid, err_parse"" ];
	26 -> eof_26 [ label = ""EOF / err_nid, err_parse"" ];
	27 -> eof_27 [ label = ""EOF / err_nid, err_parse"" ];
	28 -> eof_28 [ label = ""EOF / err_nid, err_parse"" ];
	29 -> eof_29 [ label = ""EOF / err_nid, err_parse"" ];
	30 -> eof_30 [ label = ""EOF / err_nid, err_parse"" ];
	31 -> eof_31 [ label = ""EOF / err_nid, err_parse"" ];
	32 -> eof_32 [ label = ""EOF / err_nid, err_parse"" ];
	33 -> eof_33 [ label = ""EOF / err_nid, err_parse"" ];
	34 -> eof_34 [ label = ""EOF / err_nid, err_parse"" ];
	35 -> eof_35 [ label = ""EOF / err_nid, err_parse"" ];
	36 -> eof_36 [ label = ""EOF / err_nid, err_parse"" ];
	37 -> eof_37 [ label = ""EOF / err_nid, err_parse"" ];
	38 -> eof_38 [ label = ""EOF / err_nss, err_parse"" ];
	39 -> eof_39 [ label = ""EOF / err_hex, err_nss, err_parse"" ];
	40 -> eof_40 [ label = ""EOF / err_hex, err_nss, err_parse"" ];
	41 -> eof_41 [ label = ""EOF / err_nid, err_pre, err_parse"" ];
	42 -> eof_42 [ label = ""EOF / err_nid, err_pre, err_parse"" ];
	43 -> eof_43 [ label = ""EOF / err_nid, err_urn, err_parse"" ];
	44 -> eof_44 [ label = ""EOF / err_pre"" ];
	45 -> eof_45 [ label = ""EOF / err_pre"" ];
	46 -> eof_46 [ label = ""EOF / err_pre"" ];
	47 -> eof_47 [ label = ""EOF / err_pre"" ];
	48 -> eof_48 [ label = ""EOF / err_scim_nid"" ];
	49 -> eof_49 [ label = ""EOF / err_scim_nid"" ];
	50 -> eof_50 [ label = ""EOF / err_scim_nid"" ];
	51 -> eof_51 [ label = ""EOF / err_scim_nid"" ];
".
Definition urn_dot_2 : string := "	52 -> eof_52 [ label = ""EOF / err_scim_nid"" ];
	53 -> eof_53 [ label = ""EOF / err_scim_nid"" ];
	54 -> eof_54 [ label = ""EOF / err_scim_nid"" ];
	55 -> eof_55 [ label = ""EOF / err_scim_nid"" ];
	56 -> eof_56 [ label = ""EOF / err_scim_nid"" ];
	57 -> eof_57 [ label = ""EOF / err_scim_nid"" ];
	58 -> eof_58 [ label = ""EOF / err_scim_nid"" ];
	59 -> eof_59 [ label = ""EOF / err_scim_nid"" ];
	60 -> eof_60 [ label = ""EOF / err_scim_nid"" ];
	61 -> eof_61 [ label = ""EOF / err_scim_nid"" ];
	62 -> eof_62 [ label = ""EOF / err_scim_nid"" ];
	63 -> eof_63 [ label = ""EOF / err_scim_nid"" ];
	64 -> eof_64 [ label = ""EOF / err_scim_nid"" ];
	65 -> eof_65 [ label = ""EOF / err_scim_type"" ];
	66 -> eof_66 [ label = ""EOF / err_scim_type"" ];
	67 -> eof_67 [ label = ""EOF / err_scim_type"" ];
	68 -> eof_68 [ label = ""EOF / err_scim_type"" ];
	69 -> eof_69 [ label = ""EOF / err_scim_name"" ];
	70 -> eof_70 [ label = ""EOF / err_scim_other"" ];
	71 -> eof_71 [ label = ""EOF / err_hex, err_scim_other"" ];
	72 -> eof_72 [ label = ""EOF / err_hex, err_scim_other"" ];
	73 -> eof_73 [ label = ""EOF / err_scim_type"" ];
	74 -> eof_74 [ label = ""EOF / err_scim_type"" ];
	75 -> eof_75 [ label = ""EOF / err_scim_type"" ];
	76 -> eof_76 [ label = ""EOF / err_scim_type"" ];
	77 -> eof_77 [ label = ""EOF / err_scim_type"" ];
	78 -> eof_78 [ label = ""EOF / err_scim_type"" ];
	79 -> eof_79 [ label = ""EOF / err_scim_type"" ];
	80 -> eof_80 [ label = ""EOF / err_scim_type"" ];
	81 -> eof_81 [ label = ""EOF / err_scim_type"" ];
	82 -> eof_82 [ label = ""EOF / err_scim_type"" ];
	83 -> eof_83 [ label = ""EOF / err_pre"" ];
	84 -> eof_84 [ label = ""EOF / err_pre"" ];
	85 -> eof_85 [ label = ""EOF / err_pre"" ];
	86 -> eof_86 [ label = ""EOF / err_pre"" ];
	88 -> eof_88 [ label = ""EOF / set_nss, base_type"" ];
	89 -> eof_89 [ label = ""EOF / set_nss, base_type"" ];
	91 -> eof_91 [ label = ""EOF / set_scim_name, set_nss, scim_type"" ];
	92 -> eof_92 [ label = ""EOF / set_scim_other, set_nss, scim_type"" ];
	93 -> eof_93 [ label = ""EOF / set_scim_other, set_nss, scim_type"" ];
}
".
Definition urn_dot : bytes := (B urn_dot_0 ++ B urn_dot_1 ++ B urn_dot_2)%list.
