(** Generated by tools/gen_symdata.py from player/iivision.dbg (15769-18112):
    the lines that start with "sym", verbatim. *)
From Verif Require Import Base SymbolModel.

Definition sym_lits : list lit := [
  "sym	id=0,name=""CLOSECONN"",addrsize=absolute,scope=1,def=721,val=0xBABC,seg=0,type=lab"%lit;
  "sym	id=1,name=""exit_parmtable"",addrsize=absolute,scope=1,def=41,ref=1109,val=0xBAB5,seg=0,type=lab"%lit;
  "sym	id=2,name=""@D"",addrsize=absolute,parent=3,def=1246,ref=242,val=0xBA7B,seg=0,type=lab"%lit;
  "sym	id=3,name=""op_ack"",addrsize=absolute,scope=1,def=720,val=0xBA72,seg=0,type=lab"%lit;
  "sym	id=4,name=""@1"",addrsize=absolute,parent=6,def=849,val=0xBA6C,seg=0,type=lab"%lit;
  "sym	id=5,name=""@0"",addrsize=absolute,parent=6,def=690,ref=1053,val=0xBA67,seg=0,type=lab"%lit;
  "sym	id=6,name=""op_terminate"",addrsize=absolute,scope=1,def=1191,val=0xBA64,seg=0,type=lab"%lit;
  "sym	id=7,name=""@D"",addrsize=absolute,parent=8,def=258+661,ref=258+258,val=0xBA61,seg=0,type=lab"%lit;
  "sym	id=8,name=""op_tick_66_page_63"",addrsize=absolute,scope=1,def=258+54,val=0xBA30,seg=0,type=lab"%lit;
  "sym	id=9,name=""@D"",addrsize=absolute,parent=10,def=784+99,ref=784+784,val=0xBA2D,seg=0,type=lab"%lit;
  "sym	id=10,name=""op_tick_64_page_63"",addrsize=absolute,scope=1,def=784+442,val=0xB9FC,seg=0,type=lab"%lit;
  "sym	id=11,name=""@D"",addrsize=absolute,parent=12,def=1382+956,ref=1382+1382,val=0xB9F9,seg=0,type=lab"%lit;
  "sym	id=12,name=""op_tick_62_page_63"",addrsize=absolute,scope=1,def=1382+60,val=0xB9C8,seg=0,type=lab"%lit;
  "sym	id=13,name=""@D"",addrsize=absolute,parent=14,def=502+1214,ref=502+502,val=0xB9C5,seg=0,type=lab"%lit;
  "sym	id=14,name=""op_tick_60_page_63"",addrsize=absolute,scope=1,def=502+1372,val=0xB994,seg=0,type=lab"%lit;
  "sym	id=15,name=""@D"",addrsize=absolute,parent=16,def=1211+890,ref=1211+1211,val=0xB991,seg=0,type=lab"%lit;
  "sym	id=16,name=""op_tick_58_page_63"",addrsize=absolute,scope=1,def=1211+633,val=0xB960,seg=0,type=lab"%lit;
  "sym	id=17,name=""@D"",addrsize=absolute,parent=18,def=307+809,ref=307+307,val=0xB95D,seg=0,type=lab"%lit;
  "sym	id=18,name=""op_tick_56_page_63"",addrsize=absolute,scope=1,def=307+578,val=0xB92C,seg=0,type=lab"%lit;
  "sym	id=19,name=""@D"",addrsize=absolute,parent=20,def=785+160,ref=785+785,val=0xB929,seg=0,type=lab"%lit;
  "sym	id=20,name=""op_tick_54_page_63"",addrsize=absolute,scope=1,def=785+400,val=0xB8F8,seg=0,type=lab"%lit;
  "sym	id=21,name=""op_tick_52_page_63"",addrsize=absolute,scope=1,def=508+1158,val=0xB8CD,seg=0,type=lab"%lit;
  "sym	id=22,name=""op_tick_50_page_63"",addrsize=absolute,scope=1,def=1115+713,val=0xB8A5,seg=0,type=lab"%lit;
  "sym	id=23,name=""op_tick_48_page_63"",addrsize=absolute,scope=1,def=883+5,val=0xB87C,seg=0,type=lab"%lit;
  "sym	id=24,name=""op_tick_46_page_63"",addrsize=absolute,scope=1,def=1106+1024,val=0xB857,seg=0,type=lab"%lit;
  "sym	id=25,name=""op_tick_44_page_63"",addrsize=absolute,scope=1,def=576+1033,val=0xB831,seg=0,type=lab"%lit;
  "sym	id=26,name=""op_tick_42_page_63"",addrsize=absolute,scope=1,def=96+1279,val=0xB80E,seg=0,type=lab"%lit;
  "sym	id=27,name=""op_tick_40_page_63"",addrsize=absolute,scope=1,def=1101+302,val=0xB7EB,seg=0,type=lab"%lit;
  "sym	id=28,name=""op_tick_38_page_63"",addrsize=absolute,scope=1,def=794+198,val=0xB7CB,seg=0,type=lab"%lit;
  "sym	id=29,name=""@D"",addrsize=absolute,parent=30,def=119+1080,ref=119+119,val=0xB7C8,seg=0,type=lab"%lit;
  "sym	id=30,name=""op_tick_36_page_63"",addrsize=absolute,scope=1,def=119+1176,val=0xB797,seg=0,type=lab"%lit;
  "sym	id=31,name=""op_tick_34_page_63"",addrsize=absolute,scope=1,def=1072+1252,val=0xB771,seg=0,type=lab"%lit;
  "sym	id=32,name=""op_tick_32_page_63"",addrsize=absolute,scope=1,def=1065+520,val=0xB755,seg=0,type=lab"%lit;
  "sym	id=33,name=""op_tick_30_page_63"",addrsize=absolute,scope=1,def=1025+1238,val=0xB738,seg=0,type=lab"%lit;
  "sym	id=34,name=""op_tick_28_page_63"",addrsize=absolute,scope=1,def=263+91,val=0xB71F,seg=0,type=lab"%lit;
  "sym	id=35,name=""op_tick_26_page_63"",addrsize=absolute,scope=1,def=557+1215,val=0xB705,seg=0,type=lab"%lit;
  "sym	id=36,name=""@D"",addrsize=absolute,parent=37,def=1181+138+254,ref=1181+1181,val=0xB702,seg=0,type=lab"%lit;
  "sym	id=37,name=""op_tick_66_page_62"",addrsize=absolute,scope=1,def=1181+138+697,val=0xB6D1,seg=0,type=lab"%lit;
  "sym	id=38,name=""@D"",addrsize=absolute,parent=39,def=1181+1001+700,ref=1181+1181,val=0xB6CE,seg=0,type=lab"%lit;
  "sym	id=39,name=""op_tick_64_page_62"",addrsize=absolute,scope=1,def=1181+1001+979,val=0xB69D,seg=0,type=lab"%lit;
  "sym	id=40,name=""@D"",addrsize=absolute,parent=41,def=1181+664+830,ref=1181+1181,val=0xB69A,seg=0,type=lab"%lit;
  "sym	id=41,name=""op_tick_62_page_62"",addrsize=absolute,scope=1,def=1181+664+262,val=0xB669,seg=0,type=lab"%lit;
  "sym	id=42,name=""@D"",addrsize=absolute,parent=43,def=1181+779+823,ref=1181+1181,val=0xB666,seg=0,type=lab"%lit;
  "sym	id=43,name=""op_tick_60_page_62"",addrsize=absolute,scope=1,def=1181+779+725,val=0xB635,seg=0,type=lab"%lit;
  "sym	id=44,name=""@D"",addrsize=absolute,parent=45,def=1181+510+1188,ref=1181+1181,val=0xB632,seg=0,type=lab"%lit;
  "sym	id=45,name=""op_tick_58_page_62"",addrsize=absolute,scope=1,def=1181+510+986,val=0xB601,seg=0,type=lab"%lit;
  "sym	id=46,name=""@D"",addrsize=absolute,parent=47,def=1181+704+801,ref=1181+1181,val=0xB5FE,seg=0,type=lab"%lit;
  "sym	id=47,name=""op_tick_56_page_62"",addrsize=absolute,scope=1,def=1181+704+1286,val=0xB5CD,seg=0,type=lab"%lit;
  "sym	id=48,name=""@D"",addrsize=absolute,parent=49,def=1181+621+1022,ref=1181+1181,val=0xB5CA,seg=0,type=lab"%lit;
  "sym	id=49,name=""op_tick_54_page_62"",addrsize=absolute,scope=1,def=1181+621+1201,val=0xB599,seg=0,type=lab"%lit;
  "sym	id=50,name=""op_tick_52_page_62"",addrsize=absolute,scope=1,def=1181+884+153,val=0xB56E,seg=0,type=lab"%lit;
  "sym	id=51,name=""op_tick_50_page_62"",addrsize=absolute,scope=1,def=1181+114+962,val=0xB546,seg=0,type=lab"%lit;
  "sym	id=52,name=""op_tick_48_page_62"",addrsize=absolute,scope=1,def=1181+1026+439,val=0xB51D,seg=0,type=lab"%lit;
  "sym	id=53,name=""op_tick_46_page_62"",addrsize=absolute,scope=1,def=1181+647+1044,val=0xB4F8,seg=0,type=lab"%lit;
  "sym	id=54,name=""op_tick_44_page_62"",addrsize=absolute,scope=1,def=1181+268+546,val=0xB4D2,seg=0,type=lab"%lit;
  "sym	id=55,name=""op_tick_42_page_62"",addrsize=absolute,scope=1,def=1181+62+67,val=0xB4AF,seg=0,type=lab"%lit;
  "sym	id=56,name=""op_tick_40_page_62"",addrsize=absolute,scope=1,def=1181+1114+1222,val=0xB48C,seg=0,type=lab"%lit;
  "sym	id=57,name=""op_tick_38_page_62"",addrsize=absolute,scope=1,def=1181+609+1365,val=0xB46C,seg=0,type=lab"%lit;
  "sym	id=58,name=""@D"",addrsize=absolute,parent=59,def=1181+1236+1293,ref=1181+1181,val=0xB469,seg=0,type=lab"%lit;
  "sym	id=59,name=""op_tick_36_page_62"",addrsize=absolute,scope=1,def=1181+1236+860,val=0xB438,seg=0,type=lab"%lit;
  "sym	id=60,name=""op_tick_34_page_62"",addrsize=absolute,scope=1,def=1181+1036+1004,val=0xB412,seg=0,type=lab"%lit;
  "sym	id=61,name=""op_tick_32_page_62"",addrsize=absolute,scope=1,def=1181+1029+642,val=0xB3F6,seg=0,type=lab"%lit;
  "sym	id=62,name=""op_tick_30_page_62"",addrsize=absolute,scope=1,def=1181+1017+1037,val=0xB3D9,seg=0,type=lab"%lit;
  "sym	id=63,name=""op_tick_28_page_62"",addrsize=absolute,scope=1,def=1181+176+212,val=0xB3C0,seg=0,type=lab"%lit;
  "sym	id=64,name=""op_tick_26_page_62"",addrsize=absolute,scope=1,def=1181+218+580,val=0xB3A6,seg=0,type=lab"%lit;
  "sym	id=65,name=""op_tick_24_page_62"",addrsize=absolute,scope=1,def=1181+1223+678,val=0xB38F,seg=0,type=lab"%lit;
  "sym	id=66,name=""op_tick_22_page_62"",addrsize=absolute,scope=1,def=1181+1307+1192,val=0xB378,seg=0,type=lab"%lit;
  "sym	id=67,name=""op_tick_20_page_62"",addrsize=absolute,scope=1,def=1181+1277+32,val=0xB364,seg=0,type=lab"%lit;
  "sym	id=68,name=""@D"",addrsize=absolute,parent=69,def=1181+98+504,ref=1181+1181,val=0xB361,seg=0,type=lab"%lit;
  "sym	id=69,name=""op_tick_18_page_62"",addrsize=absolute,scope=1,def=1181+98+1202,val=0xB330,seg=0,type=lab"%lit;
  "sym	id=70,name=""op_tick_16_page_62"",addrsize=absolute,scope=1,def=1181+923+820,val=0xB319,seg=0,type=lab"%lit;
  "sym	id=71,name=""op_tick_14_page_62"",addrsize=absolute,scope=1,def=1181+304+13,val=0xB309,seg=0,type=lab"%lit;
  "sym	id=72,name=""op_tick_12_page_62"",addrsize=absolute,scope=1,def=1181+1148+767,val=0xB2F8,seg=0,type=lab"%lit;
  "sym	id=73,name=""op_tick_10_page_62"",addrsize=absolute,scope=1,def=1181+743+943,val=0xB2EB,seg=0,type=lab"%lit;
  "sym	id=74,name=""op_tick_8_page_62"",addrsize=absolute,scope=1,def=1181+370+821,val=0xB2DD,seg=0,type=lab"%lit;
  "sym	id=75,name=""_op_tick_page_62_tail_8"",addrsize=absolute,scope=1,def=1181+577+630+124,val=0xB2D7,seg=0,type=lab"%lit;
  "sym	id=76,name=""_op_tick_page_62_tail_12"",addrsize=absolute,scope=1,def=1181+577+1048+124,ref=1181,val=0xB2D4,seg=0,type=lab"%lit;
  "sym	id=77,name=""_op_tick_6_page_62_jmp"",addrsize=absolute,scope=1,def=1181+577+757,ref=1181+1181+1181,val=0xB2DA,seg=0,type=lab"%lit;
  "sym	id=78,name=""_op_tick_page_62_tail_16"",addrsize=absolute,scope=1,def=1181+577+178+124,ref=1181,val=0xB2D1,seg=0,type=lab"%lit;
  "sym	id=79,name=""_op_tick_page_62_tail_20"",addrsize=absolute,scope=1,def=1181+577+682+124,ref=1181+1181,val=0xB2CE,seg=0,type=lab"%lit;
  "sym	id=80,name=""_op_tick_page_62_tail_25"",addrsize=absolute,scope=1,def=1181+577+1145+124,val=0xB2CB,seg=0,type=lab"%lit;
  "sym	id=81,name=""_op_tick_page_62_tail_29"",addrsize=absolute,scope=1,def=1181+577+1264+124,val=0xB2C8,seg=0,type=lab"%lit;
  "sym	id=82,name=""_op_tick_page_62_tail_34"",addrsize=absolute,scope=1,def=1181+577+485+124,ref=1181,val=0xB2C5,seg=0,type=lab"%lit;
  "sym	id=83,name=""_op_tick_page_62_tail_38"",addrsize=absolute,scope=1,def=1181+577+554+124,ref=1181,val=0xB2C2,seg=0,type=lab"%lit;
  "sym	id=84,name=""_op_tick_page_62_tail_43"",addrsize=absolute,scope=1,def=1181+577+1348+124,ref=1181,val=0xB2BF,seg=0,type=lab"%lit;
  "sym	id=85,name=""_op_tick_page_62_tail_47"",addrsize=absolute,scope=1,def=1181+577+776+124,val=0xB2BC,seg=0,type=lab"%lit;
  "sym	id=86,name=""_op_tick_page_62_tail_52"",addrsize=absolute,scope=1,def=1181+577+671+124,ref=1181,val=0xB2B9,seg=0,type=lab"%lit;
  "sym	id=87,name=""_op_tick_page_62_tail_56"",addrsize=absolute,scope=1,def=1181+577+498+124,ref=1181,val=0xB2B6,seg=0,type=lab"%lit;
  "sym	id=88,name=""_op_tick_page_62_tail_60"",addrsize=absolute,scope=1,def=1181+577+1265+124,val=0xB2B3,seg=0,type=lab"%lit;
  "sym	id=89,name=""op_tick_6_page_62"",addrsize=absolute,scope=1,def=1181+577+824,val=0xB2AA,seg=0,type=lab"%lit;
  "sym	id=90,name=""_op_tick_page_62_tail_7"",addrsize=absolute,scope=1,def=1181+373+903+124,val=0xB2A4,seg=0,type=lab"%lit;
  "sym	id=91,name=""_op_tick_page_62_tail_11"",addrsize=absolute,scope=1,def=1181+373+1273+124,val=0xB2A1,seg=0,type=lab"%lit;
  "sym	id=92,name=""_op_tick_4_page_62_jmp"",addrsize=absolute,scope=1,def=1181+373+241,ref=1181+1181,val=0xB2A7,seg=0,type=lab"%lit;
  "sym	id=93,name=""_op_tick_page_62_tail_15"",addrsize=absolute,scope=1,def=1181+373+585+124,ref=1181,val=0xB29E,seg=0,type=lab"%lit;
  "sym	id=94,name=""_op_tick_page_62_tail_19"",addrsize=absolute,scope=1,def=1181+373+277+124,ref=1181,val=0xB29B,seg=0,type=lab"%lit;
  "sym	id=95,name=""_op_tick_page_62_tail_24"",addrsize=absolute,scope=1,def=1181+373+518+124,ref=1181+1181,val=0xB298,seg=0,type=lab"%lit;
  "sym	id=96,name=""_op_tick_page_62_tail_28"",addrsize=absolute,scope=1,def=1181+373+164+124,ref=1181,val=0xB295,seg=0,type=lab"%lit;
  "sym	id=97,name=""_op_tick_page_62_tail_33"",addrsize=absolute,scope=1,def=1181+373+154+124,ref=1181,val=0xB292,seg=0,type=lab"%lit;
  "sym	id=98,name=""_op_tick_page_62_tail_37"",addrsize=absolute,scope=1,def=1181+373+1257+124,ref=1181,val=0xB28F,seg=0,type=lab"%lit;
  "sym	id=99,name=""_op_tick_page_62_tail_42"",addrsize=absolute,scope=1,def=1181+373+1302+124,ref=1181+1181,val=0xB28C,seg=0,type=lab"%lit;
  "sym	id=100,name=""_op_tick_page_62_tail_46"",addrsize=absolute,scope=1,def=1181+373+805+124,ref=1181,val=0xB289,seg=0,type=lab"%lit;
  "sym	id=101,name=""_op_tick_page_62_tail_51"",addrsize=absolute,scope=1,def=1181+373+1124+124,ref=1181,val=0xB286,seg=0,type=lab"%lit;
  "sym	id=102,name=""_op_tick_page_62_tail_55"",addrsize=absolute,scope=1,def=1181+373+323+124,ref=1181,val=0xB283,seg=0,type=lab"%lit;
  "sym	id=103,name=""_op_tick_page_62_tail_59"",addrsize=absolute,scope=1,def=1181+373+1142+124,val=0xB280,seg=0,type=lab"%lit;
  "sym	id=104,name=""op_tick_4_page_62"",addrsize=absolute,scope=1,def=1181+373+1062,val=0xB276,seg=0,type=lab"%lit;
  "sym	id=105,name=""@D"",addrsize=absolute,parent=106,def=1231+138+254,ref=1231+1231,val=0xB273,seg=0,type=lab"%lit;
  "sym	id=106,name=""op_tick_66_page_61"",addrsize=absolute,scope=1,def=1231+138+697,val=0xB242,seg=0,type=lab"%lit;
  "sym	id=107,name=""@D"",addrsize=absolute,parent=108,def=1231+1001+700,ref=1231+1231,val=0xB23F,seg=0,type=lab"%lit;
  "sym	id=108,name=""op_tick_64_page_61"",addrsize=absolute,scope=1,def=1231+1001+979,val=0xB20E,seg=0,type=lab"%lit;
  "sym	id=109,name=""@D"",addrsize=absolute,parent=110,def=1231+664+830,ref=1231+1231,val=0xB20B,seg=0,type=lab"%lit;
  "sym	id=110,name=""op_tick_62_page_61"",addrsize=absolute,scope=1,def=1231+664+262,val=0xB1DA,seg=0,type=lab"%lit;
  "sym	id=111,name=""@D"",addrsize=absolute,parent=112,def=1231+779+823,ref=1231+1231,val=0xB1D7,seg=0,type=lab"%lit;
  "sym	id=112,name=""op_tick_60_page_61"",addrsize=absolute,scope=1,def=1231+779+725,val=0xB1A6,seg=0,type=lab"%lit;
  "sym	id=113,name=""@D"",addrsize=absolute,parent=114,def=1231+510+1188,ref=1231+1231,val=0xB1A3,seg=0,type=lab"%lit;
  "sym	id=114,name=""op_tick_58_page_61"",addrsize=absolute,scope=1,def=1231+510+986,val=0xB172,seg=0,type=lab"%lit;
  "sym	id=115,name=""@D"",addrsize=absolute,parent=116,def=1231+704+801,ref=1231+1231,val=0xB16F,seg=0,type=lab"%lit;
  "sym	id=116,name=""op_tick_56_page_61"",addrsize=absolute,scope=1,def=1231+704+1286,val=0xB13E,seg=0,type=lab"%lit;
  "sym	id=117,name=""@D"",addrsize=absolute,parent=118,def=1231+621+1022,ref=1231+1231,val=0xB13B,seg=0,type=lab"%lit;
  "sym	id=118,name=""op_tick_54_page_61"",addrsize=absolute,scope=1,def=1231+621+1201,val=0xB10A,seg=0,type=lab"%lit;
  "sym	id=119,name=""op_tick_52_page_61"",addrsize=absolute,scope=1,def=1231+884+153,val=0xB0DF,seg=0,type=lab"%lit;
  "sym	id=120,name=""op_tick_50_page_61"",addrsize=absolute,scope=1,def=1231+114+962,val=0xB0B7,seg=0,type=lab"%lit;
  "sym	id=121,name=""op_tick_48_page_61"",addrsize=absolute,scope=1,def=1231+1026+439,val=0xB08E,seg=0,type=lab"%lit;
  "sym	id=122,name=""op_tick_46_page_61"",addrsize=absolute,scope=1,def=1231+647+1044,val=0xB069,seg=0,type=lab"%lit;
  "sym	id=123,name=""op_tick_44_page_61"",addrsize=absolute,scope=1,def=1231+268+546,val=0xB043,seg=0,type=lab"%lit;
  "sym	id=124,name=""op_tick_42_page_61"",addrsize=absolute,scope=1,def=1231+62+67,val=0xB020,seg=0,type=lab"%lit;
  "sym	id=125,name=""op_tick_40_page_61"",addrsize=absolute,scope=1,def=1231+1114+1222,val=0xAFFD,seg=0,type=lab"%lit;
  "sym	id=126,name=""op_tick_38_page_61"",addrsize=absolute,scope=1,def=1231+609+1365,val=0xAFDD,seg=0,type=lab"%lit;
  "sym	id=127,name=""@D"",addrsize=absolute,parent=128,def=1231+1236+1293,ref=1231+1231,val=0xAFDA,seg=0,type=lab"%lit;
  "sym	id=128,name=""op_tick_36_page_61"",addrsize=absolute,scope=1,def=1231+1236+860,val=0xAFA9,seg=0,type=lab"%lit;
  "sym	id=129,name=""op_tick_34_page_61"",addrsize=absolute,scope=1,def=1231+1036+1004,val=0xAF83,seg=0,type=lab"%lit;
  "sym	id=130,name=""op_tick_32_page_61"",addrsize=absolute,scope=1,def=1231+1029+642,val=0xAF67,seg=0,type=lab"%lit;
  "sym	id=131,name=""op_tick_30_page_61"",addrsize=absolute,scope=1,def=1231+1017+1037,val=0xAF4A,seg=0,type=lab"%lit;
  "sym	id=132,name=""op_tick_28_page_61"",addrsize=absolute,scope=1,def=1231+176+212,val=0xAF31,seg=0,type=lab"%lit;
  "sym	id=133,name=""op_tick_26_page_61"",addrsize=absolute,scope=1,def=1231+218+580,val=0xAF17,seg=0,type=lab"%lit;
  "sym	id=134,name=""op_tick_24_page_61"",addrsize=absolute,scope=1,def=1231+1223+678,val=0xAF00,seg=0,type=lab"%lit;
  "sym	id=135,name=""op_tick_22_page_61"",addrsize=absolute,scope=1,def=1231+1307+1192,val=0xAEE9,seg=0,type=lab"%lit;
  "sym	id=136,name=""op_tick_20_page_61"",addrsize=absolute,scope=1,def=1231+1277+32,val=0xAED5,seg=0,type=lab"%lit;
  "sym	id=137,name=""@D"",addrsize=absolute,parent=138,def=1231+98+504,ref=1231+1231,val=0xAED2,seg=0,type=lab"%lit;
  "sym	id=138,name=""op_tick_18_page_61"",addrsize=absolute,scope=1,def=1231+98+1202,val=0xAEA1,seg=0,type=lab"%lit;
  "sym	id=139,name=""op_tick_16_page_61"",addrsize=absolute,scope=1,def=1231+923+820,val=0xAE8A,seg=0,type=lab"%lit;
  "sym	id=140,name=""op_tick_14_page_61"",addrsize=absolute,scope=1,def=1231+304+13,val=0xAE7A,seg=0,type=lab"%lit;
  "sym	id=141,name=""op_tick_12_page_61"",addrsize=absolute,scope=1,def=1231+1148+767,val=0xAE69,seg=0,type=lab"%lit;
  "sym	id=142,name=""op_tick_10_page_61"",addrsize=absolute,scope=1,def=1231+743+943,val=0xAE5C,seg=0,type=lab"%lit;
  "sym	id=143,name=""op_tick_8_page_61"",addrsize=absolute,scope=1,def=1231+370+821,val=0xAE4E,seg=0,type=lab"%lit;
  "sym	id=144,name=""_op_tick_page_61_tail_8"",addrsize=absolute,scope=1,def=1231+577+630+124,val=0xAE48,seg=0,type=lab"%lit;
  "sym	id=145,name=""_op_tick_page_61_tail_12"",addrsize=absolute,scope=1,def=1231+577+1048+124,ref=1231,val=0xAE45,seg=0,type=lab"%lit;
  "sym	id=146,name=""_op_tick_6_page_61_jmp"",addrsize=absolute,scope=1,def=1231+577+757,ref=1231+1231+1231,val=0xAE4B,seg=0,type=lab"%lit;
  "sym	id=147,name=""_op_tick_page_61_tail_16"",addrsize=absolute,scope=1,def=1231+577+178+124,ref=1231,val=0xAE42,seg=0,type=lab"%lit;
  "sym	id=148,name=""_op_tick_page_61_tail_20"",addrsize=absolute,scope=1,def=1231+577+682+124,ref=1231+1231,val=0xAE3F,seg=0,type=lab"%lit;
  "sym	id=149,name=""_op_tick_page_61_tail_25"",addrsize=absolute,scope=1,def=1231+577+1145+124,val=0xAE3C,seg=0,type=lab"%lit;
  "sym	id=150,name=""_op_tick_page_61_tail_29"",addrsize=absolute,scope=1,def=1231+577+1264+124,val=0xAE39,seg=0,type=lab"%lit;
  "sym	id=151,name=""_op_tick_page_61_tail_34"",addrsize=absolute,scope=1,def=1231+577+485+124,ref=1231,val=0xAE36,seg=0,type=lab"%lit;
  "sym	id=152,name=""_op_tick_page_61_tail_38"",addrsize=absolute,scope=1,def=1231+577+554+124,ref=1231,val=0xAE33,seg=0,type=lab"%lit;
  "sym	id=153,name=""_op_tick_page_61_tail_43"",addrsize=absolute,scope=1,def=1231+577+1348+124,ref=1231,val=0xAE30,seg=0,type=lab"%lit;
  "sym	id=154,name=""_op_tick_page_61_tail_47"",addrsize=absolute,scope=1,def=1231+577+776+124,val=0xAE2D,seg=0,type=lab"%lit;
  "sym	id=155,name=""_op_tick_page_61_tail_52"",addrsize=absolute,scope=1,def=1231+577+671+124,ref=1231,val=0xAE2A,seg=0,type=lab"%lit;
  "sym	id=156,name=""_op_tick_page_61_tail_56"",addrsize=absolute,scope=1,def=1231+577+498+124,ref=1231,val=0xAE27,seg=0,type=lab"%lit;
  "sym	id=157,name=""_op_tick_page_61_tail_60"",addrsize=absolute,scope=1,def=1231+577+1265+124,val=0xAE24,seg=0,type=lab"%lit;
  "sym	id=158,name=""op_tick_6_page_61"",addrsize=absolute,scope=1,def=1231+577+824,val=0xAE1B,seg=0,type=lab"%lit;
  "sym	id=159,name=""_op_tick_page_61_tail_7"",addrsize=absolute,scope=1,def=1231+373+903+124,val=0xAE15,seg=0,type=lab"%lit;
  "sym	id=160,name=""_op_tick_page_61_tail_11"",addrsize=absolute,scope=1,def=1231+373+1273+124,val=0xAE12,seg=0,type=lab"%lit;
  "sym	id=161,name=""_op_tick_4_page_61_jmp"",addrsize=absolute,scope=1,def=1231+373+241,ref=1231+1231,val=0xAE18,seg=0,type=lab"%lit;
  "sym	id=162,name=""_op_tick_page_61_tail_15"",addrsize=absolute,scope=1,def=1231+373+585+124,ref=1231,val=0xAE0F,seg=0,type=lab"%lit;
  "sym	id=163,name=""_op_tick_page_61_tail_19"",addrsize=absolute,scope=1,def=1231+373+277+124,ref=1231,val=0xAE0C,seg=0,type=lab"%lit;
  "sym	id=164,name=""_op_tick_page_61_tail_24"",addrsize=absolute,scope=1,def=1231+373+518+124,ref=1231+1231,val=0xAE09,seg=0,type=lab"%lit;
  "sym	id=165,name=""_op_tick_page_61_tail_28"",addrsize=absolute,scope=1,def=1231+373+164+124,ref=1231,val=0xAE06,seg=0,type=lab"%lit;
  "sym	id=166,name=""_op_tick_page_61_tail_33"",addrsize=absolute,scope=1,def=1231+373+154+124,ref=1231,val=0xAE03,seg=0,type=lab"%lit;
  "sym	id=167,name=""_op_tick_page_61_tail_37"",addrsize=absolute,scope=1,def=1231+373+1257+124,ref=1231,val=0xAE00,seg=0,type=lab"%lit;
  "sym	id=168,name=""_op_tick_page_61_tail_42"",addrsize=absolute,scope=1,def=1231+373+1302+124,ref=1231+1231,val=0xADFD,seg=0,type=lab"%lit;
  "sym	id=169,name=""_op_tick_page_61_tail_46"",addrsize=absolute,scope=1,def=1231+373+805+124,ref=1231,val=0xADFA,seg=0,type=lab"%lit;
  "sym	id=170,name=""_op_tick_page_61_tail_51"",addrsize=absolute,scope=1,def=1231+373+1124+124,ref=1231,val=0xADF7,seg=0,type=lab"%lit;
  "sym	id=171,name=""_op_tick_page_61_tail_55"",addrsize=absolute,scope=1,def=1231+373+323+124,ref=1231,val=0xADF4,seg=0,type=lab"%lit;
  "sym	id=172,name=""_op_tick_page_61_tail_59"",addrsize=absolute,scope=1,def=1231+373+1142+124,val=0xADF1,seg=0,type=lab"%lit;
  "sym	id=173,name=""op_tick_4_page_61"",addrsize=absolute,scope=1,def=1231+373+1062,val=0xADE7,seg=0,type=lab"%lit;
  "sym	id=174,name=""@D"",addrsize=absolute,parent=175,def=106+138+254,ref=106+106,val=0xADE4,seg=0,type=lab"%lit;
  "sym	id=175,name=""op_tick_66_page_60"",addrsize=absolute,scope=1,def=106+138+697,val=0xADB3,seg=0,type=lab"%lit;
  "sym	id=176,name=""@D"",addrsize=absolute,parent=177,def=106+1001+700,ref=106+106,val=0xADB0,seg=0,type=lab"%lit;
  "sym	id=177,name=""op_tick_64_page_60"",addrsize=absolute,scope=1,def=106+1001+979,val=0xAD7F,seg=0,type=lab"%lit;
  "sym	id=178,name=""@D"",addrsize=absolute,parent=179,def=106+664+830,ref=106+106,val=0xAD7C,seg=0,type=lab"%lit;
  "sym	id=179,name=""op_tick_62_page_60"",addrsize=absolute,scope=1,def=106+664+262,val=0xAD4B,seg=0,type=lab"%lit;
  "sym	id=180,name=""@D"",addrsize=absolute,parent=181,def=106+779+823,ref=106+106,val=0xAD48,seg=0,type=lab"%lit;
  "sym	id=181,name=""op_tick_60_page_60"",addrsize=absolute,scope=1,def=106+779+725,val=0xAD17,seg=0,type=lab"%lit;
  "sym	id=182,name=""@D"",addrsize=absolute,parent=183,def=106+510+1188,ref=106+106,val=0xAD14,seg=0,type=lab"%lit;
  "sym	id=183,name=""op_tick_58_page_60"",addrsize=absolute,scope=1,def=106+510+986,val=0xACE3,seg=0,type=lab"%lit;
  "sym	id=184,name=""@D"",addrsize=absolute,parent=185,def=106+704+801,ref=106+106,val=0xACE0,seg=0,type=lab"%lit;
  "sym	id=185,name=""op_tick_56_page_60"",addrsize=absolute,scope=1,def=106+704+1286,val=0xACAF,seg=0,type=lab"%lit;
  "sym	id=186,name=""@D"",addrsize=absolute,parent=187,def=106+621+1022,ref=106+106,val=0xACAC,seg=0,type=lab"%lit;
  "sym	id=187,name=""op_tick_54_page_60"",addrsize=absolute,scope=1,def=106+621+1201,val=0xAC7B,seg=0,type=lab"%lit;
  "sym	id=188,name=""op_tick_52_page_60"",addrsize=absolute,scope=1,def=106+884+153,val=0xAC50,seg=0,type=lab"%lit;
  "sym	id=189,name=""op_tick_50_page_60"",addrsize=absolute,scope=1,def=106+114+962,val=0xAC28,seg=0,type=lab"%lit;
  "sym	id=190,name=""op_tick_48_page_60"",addrsize=absolute,scope=1,def=106+1026+439,val=0xABFF,seg=0,type=lab"%lit;
  "sym	id=191,name=""op_tick_46_page_60"",addrsize=absolute,scope=1,def=106+647+1044,val=0xABDA,seg=0,type=lab"%lit;
  "sym	id=192,name=""op_tick_44_page_60"",addrsize=absolute,scope=1,def=106+268+546,val=0xABB4,seg=0,type=lab"%lit;
  "sym	id=193,name=""op_tick_42_page_60"",addrsize=absolute,scope=1,def=106+62+67,val=0xAB91,seg=0,type=lab"%lit;
  "sym	id=194,name=""op_tick_40_page_60"",addrsize=absolute,scope=1,def=106+1114+1222,val=0xAB6E,seg=0,type=lab"%lit;
  "sym	id=195,name=""op_tick_38_page_60"",addrsize=absolute,scope=1,def=106+609+1365,val=0xAB4E,seg=0,type=lab"%lit;
  "sym	id=196,name=""@D"",addrsize=absolute,parent=197,def=106+1236+1293,ref=106+106,val=0xAB4B,seg=0,type=lab"%lit;
  "sym	id=197,name=""op_tick_36_page_60"",addrsize=absolute,scope=1,def=106+1236+860,val=0xAB1A,seg=0,type=lab"%lit;
  "sym	id=198,name=""op_tick_34_page_60"",addrsize=absolute,scope=1,def=106+1036+1004,val=0xAAF4,seg=0,type=lab"%lit;
  "sym	id=199,name=""op_tick_32_page_60"",addrsize=absolute,scope=1,def=106+1029+642,val=0xAAD8,seg=0,type=lab"%lit;
  "sym	id=200,name=""op_tick_30_page_60"",addrsize=absolute,scope=1,def=106+1017+1037,val=0xAABB,seg=0,type=lab"%lit;
  "sym	id=201,name=""op_tick_28_page_60"",addrsize=absolute,scope=1,def=106+176+212,val=0xAAA2,seg=0,type=lab"%lit;
  "sym	id=202,name=""op_tick_26_page_60"",addrsize=absolute,scope=1,def=106+218+580,val=0xAA88,seg=0,type=lab"%lit;
  "sym	id=203,name=""op_tick_24_page_60"",addrsize=absolute,scope=1,def=106+1223+678,val=0xAA71,seg=0,type=lab"%lit;
  "sym	id=204,name=""op_tick_22_page_60"",addrsize=absolute,scope=1,def=106+1307+1192,val=0xAA5A,seg=0,type=lab"%lit;
  "sym	id=205,name=""op_tick_20_page_60"",addrsize=absolute,scope=1,def=106+1277+32,val=0xAA46,seg=0,type=lab"%lit;
  "sym	id=206,name=""@D"",addrsize=absolute,parent=207,def=106+98+504,ref=106+106,val=0xAA43,seg=0,type=lab"%lit;
  "sym	id=207,name=""op_tick_18_page_60"",addrsize=absolute,scope=1,def=106+98+1202,val=0xAA12,seg=0,type=lab"%lit;
  "sym	id=208,name=""op_tick_16_page_60"",addrsize=absolute,scope=1,def=106+923+820,val=0xA9FB,seg=0,type=lab"%lit;
  "sym	id=209,name=""op_tick_14_page_60"",addrsize=absolute,scope=1,def=106+304+13,val=0xA9EB,seg=0,type=lab"%lit;
  "sym	id=210,name=""op_tick_12_page_60"",addrsize=absolute,scope=1,def=106+1148+767,val=0xA9DA,seg=0,type=lab"%lit;
  "sym	id=211,name=""op_tick_10_page_60"",addrsize=absolute,scope=1,def=106+743+943,val=0xA9CD,seg=0,type=lab"%lit;
  "sym	id=212,name=""op_tick_8_page_60"",addrsize=absolute,scope=1,def=106+370+821,val=0xA9BF,seg=0,type=lab"%lit;
  "sym	id=213,name=""_op_tick_page_60_tail_8"",addrsize=absolute,scope=1,def=106+577+630+124,val=0xA9B9,seg=0,type=lab"%lit;
  "sym	id=214,name=""_op_tick_page_60_tail_12"",addrsize=absolute,scope=1,def=106+577+1048+124,ref=106,val=0xA9B6,seg=0,type=lab"%lit;
  "sym	id=215,name=""_op_tick_6_page_60_jmp"",addrsize=absolute,scope=1,def=106+577+757,ref=106+106+106,val=0xA9BC,seg=0,type=lab"%lit;
  "sym	id=216,name=""_op_tick_page_60_tail_16"",addrsize=absolute,scope=1,def=106+577+178+124,ref=106,val=0xA9B3,seg=0,type=lab"%lit;
  "sym	id=217,name=""_op_tick_page_60_tail_20"",addrsize=absolute,scope=1,def=106+577+682+124,ref=106+106,val=0xA9B0,seg=0,type=lab"%lit;
  "sym	id=218,name=""_op_tick_page_60_tail_25"",addrsize=absolute,scope=1,def=106+577+1145+124,val=0xA9AD,seg=0,type=lab"%lit;
  "sym	id=219,name=""_op_tick_page_60_tail_29"",addrsize=absolute,scope=1,def=106+577+1264+124,val=0xA9AA,seg=0,type=lab"%lit;
  "sym	id=220,name=""_op_tick_page_60_tail_34"",addrsize=absolute,scope=1,def=106+577+485+124,ref=106,val=0xA9A7,seg=0,type=lab"%lit;
  "sym	id=221,name=""_op_tick_page_60_tail_38"",addrsize=absolute,scope=1,def=106+577+554+124,ref=106,val=0xA9A4,seg=0,type=lab"%lit;
  "sym	id=222,name=""_op_tick_page_60_tail_43"",addrsize=absolute,scope=1,def=106+577+1348+124,ref=106,val=0xA9A1,seg=0,type=lab"%lit;
  "sym	id=223,name=""_op_tick_page_60_tail_47"",addrsize=absolute,scope=1,def=106+577+776+124,val=0xA99E,seg=0,type=lab"%lit;
  "sym	id=224,name=""_op_tick_page_60_tail_52"",addrsize=absolute,scope=1,def=106+577+671+124,ref=106,val=0xA99B,seg=0,type=lab"%lit;
  "sym	id=225,name=""_op_tick_page_60_tail_56"",addrsize=absolute,scope=1,def=106+577+498+124,ref=106,val=0xA998,seg=0,type=lab"%lit;
  "sym	id=226,name=""_op_tick_page_60_tail_60"",addrsize=absolute,scope=1,def=106+577+1265+124,val=0xA995,seg=0,type=lab"%lit;
  "sym	id=227,name=""op_tick_6_page_60"",addrsize=absolute,scope=1,def=106+577+824,val=0xA98C,seg=0,type=lab"%lit;
  "sym	id=228,name=""_op_tick_page_60_tail_7"",addrsize=absolute,scope=1,def=106+373+903+124,val=0xA986,seg=0,type=lab"%lit;
  "sym	id=229,name=""_op_tick_page_60_tail_11"",addrsize=absolute,scope=1,def=106+373+1273+124,val=0xA983,seg=0,type=lab"%lit;
  "sym	id=230,name=""_op_tick_4_page_60_jmp"",addrsize=absolute,scope=1,def=106+373+241,ref=106+106,val=0xA989,seg=0,type=lab"%lit;
  "sym	id=231,name=""_op_tick_page_60_tail_15"",addrsize=absolute,scope=1,def=106+373+585+124,ref=106,val=0xA980,seg=0,type=lab"%lit;
  "sym	id=232,name=""_op_tick_page_60_tail_19"",addrsize=absolute,scope=1,def=106+373+277+124,ref=106,val=0xA97D,seg=0,type=lab"%lit;
  "sym	id=233,name=""_op_tick_page_60_tail_24"",addrsize=absolute,scope=1,def=106+373+518+124,ref=106+106,val=0xA97A,seg=0,type=lab"%lit;
  "sym	id=234,name=""_op_tick_page_60_tail_28"",addrsize=absolute,scope=1,def=106+373+164+124,ref=106,val=0xA977,seg=0,type=lab"%lit;
  "sym	id=235,name=""_op_tick_page_60_tail_33"",addrsize=absolute,scope=1,def=106+373+154+124,ref=106,val=0xA974,seg=0,type=lab"%lit;
  "sym	id=236,name=""_op_tick_page_60_tail_37"",addrsize=absolute,scope=1,def=106+373+1257+124,ref=106,val=0xA971,seg=0,type=lab"%lit;
  "sym	id=237,name=""_op_tick_page_60_tail_42"",addrsize=absolute,scope=1,def=106+373+1302+124,ref=106+106,val=0xA96E,seg=0,type=lab"%lit;
  "sym	id=238,name=""_op_tick_page_60_tail_46"",addrsize=absolute,scope=1,def=106+373+805+124,ref=106,val=0xA96B,seg=0,type=lab"%lit;
  "sym	id=239,name=""_op_tick_page_60_tail_51"",addrsize=absolute,scope=1,def=106+373+1124+124,ref=106,val=0xA968,seg=0,type=lab"%lit;
  "sym	id=240,name=""_op_tick_page_60_tail_55"",addrsize=absolute,scope=1,def=106+373+323+124,ref=106,val=0xA965,seg=0,type=lab"%lit;
  "sym	id=241,name=""_op_tick_page_60_tail_59"",addrsize=absolute,scope=1,def=106+373+1142+124,val=0xA962,seg=0,type=lab"%lit;
  "sym	id=242,name=""op_tick_4_page_60"",addrsize=absolute,scope=1,def=106+373+1062,val=0xA958,seg=0,type=lab"%lit;
  "sym	id=243,name=""@D"",addrsize=absolute,parent=244,def=639+138+254,ref=639+639,val=0xA955,seg=0,type=lab"%lit;
  "sym	id=244,name=""op_tick_66_page_59"",addrsize=absolute,scope=1,def=639+138+697,val=0xA924,seg=0,type=lab"%lit;
  "sym	id=245,name=""@D"",addrsize=absolute,parent=246,def=639+1001+700,ref=639+639,val=0xA921,seg=0,type=lab"%lit;
  "sym	id=246,name=""op_tick_64_page_59"",addrsize=absolute,scope=1,def=639+1001+979,val=0xA8F0,seg=0,type=lab"%lit;
  "sym	id=247,name=""@D"",addrsize=absolute,parent=248,def=639+664+830,ref=639+639,val=0xA8ED,seg=0,type=lab"%lit;
  "sym	id=248,name=""op_tick_62_page_59"",addrsize=absolute,scope=1,def=639+664+262,val=0xA8BC,seg=0,type=lab"%lit;
  "sym	id=249,name=""@D"",addrsize=absolute,parent=250,def=639+779+823,ref=639+639,val=0xA8B9,seg=0,type=lab"%lit;
  "sym	id=250,name=""op_tick_60_page_59"",addrsize=absolute,scope=1,def=639+779+725,val=0xA888,seg=0,type=lab"%lit;
  "sym	id=251,name=""@D"",addrsize=absolute,parent=252,def=639+510+1188,ref=639+639,val=0xA885,seg=0,type=lab"%lit;
  "sym	id=252,name=""op_tick_58_page_59"",addrsize=absolute,scope=1,def=639+510+986,val=0xA854,seg=0,type=lab"%lit;
  "sym	id=253,name=""@D"",addrsize=absolute,parent=254,def=639+704+801,ref=639+639,val=0xA851,seg=0,type=lab"%lit;
  "sym	id=254,name=""op_tick_56_page_59"",addrsize=absolute,scope=1,def=639+704+1286,val=0xA820,seg=0,type=lab"%lit;
  "sym	id=255,name=""@D"",addrsize=absolute,parent=256,def=639+621+1022,ref=639+639,val=0xA81D,seg=0,type=lab"%lit;
  "sym	id=256,name=""op_tick_54_page_59"",addrsize=absolute,scope=1,def=639+621+1201,val=0xA7EC,seg=0,type=lab"%lit;
  "sym	id=257,name=""op_tick_52_page_59"",addrsize=absolute,scope=1,def=639+884+153,val=0xA7C1,seg=0,type=lab"%lit;
  "sym	id=258,name=""op_tick_50_page_59"",addrsize=absolute,scope=1,def=639+114+962,val=0xA799,seg=0,type=lab"%lit;
  "sym	id=259,name=""op_tick_48_page_59"",addrsize=absolute,scope=1,def=639+1026+439,val=0xA770,seg=0,type=lab"%lit;
  "sym	id=260,name=""op_tick_46_page_59"",addrsize=absolute,scope=1,def=639+647+1044,val=0xA74B,seg=0,type=lab"%lit;
  "sym	id=261,name=""op_tick_44_page_59"",addrsize=absolute,scope=1,def=639+268+546,val=0xA725,seg=0,type=lab"%lit;
  "sym	id=262,name=""op_tick_42_page_59"",addrsize=absolute,scope=1,def=639+62+67,val=0xA702,seg=0,type=lab"%lit;
  "sym	id=263,name=""op_tick_40_page_59"",addrsize=absolute,scope=1,def=639+1114+1222,val=0xA6DF,seg=0,type=lab"%lit;
  "sym	id=264,name=""op_tick_38_page_59"",addrsize=absolute,scope=1,def=639+609+1365,val=0xA6BF,seg=0,type=lab"%lit;
  "sym	id=265,name=""@D"",addrsize=absolute,parent=266,def=639+1236+1293,ref=639+639,val=0xA6BC,seg=0,type=lab"%lit;
  "sym	id=266,name=""op_tick_36_page_59"",addrsize=absolute,scope=1,def=639+1236+860,val=0xA68B,seg=0,type=lab"%lit;
  "sym	id=267,name=""op_tick_34_page_59"",addrsize=absolute,scope=1,def=639+1036+1004,val=0xA665,seg=0,type=lab"%lit;
  "sym	id=268,name=""op_tick_32_page_59"",addrsize=absolute,scope=1,def=639+1029+642,val=0xA649,seg=0,type=lab"%lit;
  "sym	id=269,name=""op_tick_30_page_59"",addrsize=absolute,scope=1,def=639+1017+1037,val=0xA62C,seg=0,type=lab"%lit;
  "sym	id=270,name=""op_tick_28_page_59"",addrsize=absolute,scope=1,def=639+176+212,val=0xA613,seg=0,type=lab"%lit;
  "sym	id=271,name=""op_tick_26_page_59"",addrsize=absolute,scope=1,def=639+218+580,val=0xA5F9,seg=0,type=lab"%lit;
  "sym	id=272,name=""op_tick_24_page_59"",addrsize=absolute,scope=1,def=639+1223+678,val=0xA5E2,seg=0,type=lab"%lit;
  "sym	id=273,name=""op_tick_22_page_59"",addrsize=absolute,scope=1,def=639+1307+1192,val=0xA5CB,seg=0,type=lab"%lit;
  "sym	id=274,name=""op_tick_20_page_59"",addrsize=absolute,scope=1,def=639+1277+32,val=0xA5B7,seg=0,type=lab"%lit;
  "sym	id=275,name=""@D"",addrsize=absolute,parent=276,def=639+98+504,ref=639+639,val=0xA5B4,seg=0,type=lab"%lit;
  "sym	id=276,name=""op_tick_18_page_59"",addrsize=absolute,scope=1,def=639+98+1202,val=0xA583,seg=0,type=lab"%lit;
  "sym	id=277,name=""op_tick_16_page_59"",addrsize=absolute,scope=1,def=639+923+820,val=0xA56C,seg=0,type=lab"%lit;
  "sym	id=278,name=""op_tick_14_page_59"",addrsize=absolute,scope=1,def=639+304+13,val=0xA55C,seg=0,type=lab"%lit;
  "sym	id=279,name=""op_tick_12_page_59"",addrsize=absolute,scope=1,def=639+1148+767,val=0xA54B,seg=0,type=lab"%lit;
  "sym	id=280,name=""op_tick_10_page_59"",addrsize=absolute,scope=1,def=639+743+943,val=0xA53E,seg=0,type=lab"%lit;
  "sym	id=281,name=""op_tick_8_page_59"",addrsize=absolute,scope=1,def=639+370+821,val=0xA530,seg=0,type=lab"%lit;
  "sym	id=282,name=""_op_tick_page_59_tail_8"",addrsize=absolute,scope=1,def=639+577+630+124,val=0xA52A,seg=0,type=lab"%lit;
  "sym	id=283,name=""_op_tick_page_59_tail_12"",addrsize=absolute,scope=1,def=639+577+1048+124,ref=639,val=0xA527,seg=0,type=lab"%lit;
  "sym	id=284,name=""_op_tick_6_page_59_jmp"",addrsize=absolute,scope=1,def=639+577+757,ref=639+639+639,val=0xA52D,seg=0,type=lab"%lit;
  "sym	id=285,name=""_op_tick_page_59_tail_16"",addrsize=absolute,scope=1,def=639+577+178+124,ref=639,val=0xA524,seg=0,type=lab"%lit;
  "sym	id=286,name=""_op_tick_page_59_tail_20"",addrsize=absolute,scope=1,def=639+577+682+124,ref=639+639,val=0xA521,seg=0,type=lab"%lit;
  "sym	id=287,name=""_op_tick_page_59_tail_25"",addrsize=absolute,scope=1,def=639+577+1145+124,val=0xA51E,seg=0,type=lab"%lit;
  "sym	id=288,name=""_op_tick_page_59_tail_29"",addrsize=absolute,scope=1,def=639+577+1264+124,val=0xA51B,seg=0,type=lab"%lit;
  "sym	id=289,name=""_op_tick_page_59_tail_34"",addrsize=absolute,scope=1,def=639+577+485+124,ref=639,val=0xA518,seg=0,type=lab"%lit;
  "sym	id=290,name=""_op_tick_page_59_tail_38"",addrsize=absolute,scope=1,def=639+577+554+124,ref=639,val=0xA515,seg=0,type=lab"%lit;
  "sym	id=291,name=""_op_tick_page_59_tail_43"",addrsize=absolute,scope=1,def=639+577+1348+124,ref=639,val=0xA512,seg=0,type=lab"%lit;
  "sym	id=292,name=""_op_tick_page_59_tail_47"",addrsize=absolute,scope=1,def=639+577+776+124,val=0xA50F,seg=0,type=lab"%lit;
  "sym	id=293,name=""_op_tick_page_59_tail_52"",addrsize=absolute,scope=1,def=639+577+671+124,ref=639,val=0xA50C,seg=0,type=lab"%lit;
  "sym	id=294,name=""_op_tick_page_59_tail_56"",addrsize=absolute,scope=1,def=639+577+498+124,ref=639,val=0xA509,seg=0,type=lab"%lit;
  "sym	id=295,name=""_op_tick_page_59_tail_60"",addrsize=absolute,scope=1,def=639+577+1265+124,val=0xA506,seg=0,type=lab"%lit;
  "sym	id=296,name=""op_tick_6_page_59"",addrsize=absolute,scope=1,def=639+577+824,val=0xA4FD,seg=0,type=lab"%lit;
  "sym	id=297,name=""_op_tick_page_59_tail_7"",addrsize=absolute,scope=1,def=639+373+903+124,val=0xA4F7,seg=0,type=lab"%lit;
  "sym	id=298,name=""_op_tick_page_59_tail_11"",addrsize=absolute,scope=1,def=639+373+1273+124,val=0xA4F4,seg=0,type=lab"%lit;
  "sym	id=299,name=""_op_tick_4_page_59_jmp"",addrsize=absolute,scope=1,def=639+373+241,ref=639+639,val=0xA4FA,seg=0,type=lab"%lit;
  "sym	id=300,name=""_op_tick_page_59_tail_15"",addrsize=absolute,scope=1,def=639+373+585+124,ref=639,val=0xA4F1,seg=0,type=lab"%lit;
  "sym	id=301,name=""_op_tick_page_59_tail_19"",addrsize=absolute,scope=1,def=639+373+277+124,ref=639,val=0xA4EE,seg=0,type=lab"%lit;
  "sym	id=302,name=""_op_tick_page_59_tail_24"",addrsize=absolute,scope=1,def=639+373+518+124,ref=639+639,val=0xA4EB,seg=0,type=lab"%lit;
  "sym	id=303,name=""_op_tick_page_59_tail_28"",addrsize=absolute,scope=1,def=639+373+164+124,ref=639,val=0xA4E8,seg=0,type=lab"%lit;
  "sym	id=304,name=""_op_tick_page_59_tail_33"",addrsize=absolute,scope=1,def=639+373+154+124,ref=639,val=0xA4E5,seg=0,type=lab"%lit;
  "sym	id=305,name=""_op_tick_page_59_tail_37"",addrsize=absolute,scope=1,def=639+373+1257+124,ref=639,val=0xA4E2,seg=0,type=lab"%lit;
  "sym	id=306,name=""_op_tick_page_59_tail_42"",addrsize=absolute,scope=1,def=639+373+1302+124,ref=639+639,val=0xA4DF,seg=0,type=lab"%lit;
  "sym	id=307,name=""_op_tick_page_59_tail_46"",addrsize=absolute,scope=1,def=639+373+805+124,ref=639,val=0xA4DC,seg=0,type=lab"%lit;
  "sym	id=308,name=""_op_tick_page_59_tail_51"",addrsize=absolute,scope=1,def=639+373+1124+124,ref=639,val=0xA4D9,seg=0,type=lab"%lit;
  "sym	id=309,name=""_op_tick_page_59_tail_55"",addrsize=absolute,scope=1,def=639+373+323+124,ref=639,val=0xA4D6,seg=0,type=lab"%lit;
  "sym	id=310,name=""_op_tick_page_59_tail_59"",addrsize=absolute,scope=1,def=639+373+1142+124,val=0xA4D3,seg=0,type=lab"%lit;
  "sym	id=311,name=""op_tick_4_page_59"",addrsize=absolute,scope=1,def=639+373+1062,val=0xA4C9,seg=0,type=lab"%lit;
  "sym	id=312,name=""@D"",addrsize=absolute,parent=313,def=1085+138+254,ref=1085+1085,val=0xA4C6,seg=0,type=lab"%lit;
  "sym	id=313,name=""op_tick_66_page_58"",addrsize=absolute,scope=1,def=1085+138+697,val=0xA495,seg=0,type=lab"%lit;
  "sym	id=314,name=""@D"",addrsize=absolute,parent=315,def=1085+1001+700,ref=1085+1085,val=0xA492,seg=0,type=lab"%lit;
  "sym	id=315,name=""op_tick_64_page_58"",addrsize=absolute,scope=1,def=1085+1001+979,val=0xA461,seg=0,type=lab"%lit;
  "sym	id=316,name=""@D"",addrsize=absolute,parent=317,def=1085+664+830,ref=1085+1085,val=0xA45E,seg=0,type=lab"%lit;
  "sym	id=317,name=""op_tick_62_page_58"",addrsize=absolute,scope=1,def=1085+664+262,val=0xA42D,seg=0,type=lab"%lit;
  "sym	id=318,name=""@D"",addrsize=absolute,parent=319,def=1085+779+823,ref=1085+1085,val=0xA42A,seg=0,type=lab"%lit;
  "sym	id=319,name=""op_tick_60_page_58"",addrsize=absolute,scope=1,def=1085+779+725,val=0xA3F9,seg=0,type=lab"%lit;
  "sym	id=320,name=""@D"",addrsize=absolute,parent=321,def=1085+510+1188,ref=1085+1085,val=0xA3F6,seg=0,type=lab"%lit;
  "sym	id=321,name=""op_tick_58_page_58"",addrsize=absolute,scope=1,def=1085+510+986,val=0xA3C5,seg=0,type=lab"%lit;
  "sym	id=322,name=""@D"",addrsize=absolute,parent=323,def=1085+704+801,ref=1085+1085,val=0xA3C2,seg=0,type=lab"%lit;
  "sym	id=323,name=""op_tick_56_page_58"",addrsize=absolute,scope=1,def=1085+704+1286,val=0xA391,seg=0,type=lab"%lit;
  "sym	id=324,name=""@D"",addrsize=absolute,parent=325,def=1085+621+1022,ref=1085+1085,val=0xA38E,seg=0,type=lab"%lit;
  "sym	id=325,name=""op_tick_54_page_58"",addrsize=absolute,scope=1,def=1085+621+1201,val=0xA35D,seg=0,type=lab"%lit;
  "sym	id=326,name=""op_tick_52_page_58"",addrsize=absolute,scope=1,def=1085+884+153,val=0xA332,seg=0,type=lab"%lit;
  "sym	id=327,name=""op_tick_50_page_58"",addrsize=absolute,scope=1,def=1085+114+962,val=0xA30A,seg=0,type=lab"%lit;
  "sym	id=328,name=""op_tick_48_page_58"",addrsize=absolute,scope=1,def=1085+1026+439,val=0xA2E1,seg=0,type=lab"%lit;
  "sym	id=329,name=""op_tick_46_page_58"",addrsize=absolute,scope=1,def=1085+647+1044,val=0xA2BC,seg=0,type=lab"%lit;
  "sym	id=330,name=""op_tick_44_page_58"",addrsize=absolute,scope=1,def=1085+268+546,val=0xA296,seg=0,type=lab"%lit;
  "sym	id=331,name=""op_tick_42_page_58"",addrsize=absolute,scope=1,def=1085+62+67,val=0xA273,seg=0,type=lab"%lit;
  "sym	id=332,name=""op_tick_40_page_58"",addrsize=absolute,scope=1,def=1085+1114+1222,val=0xA250,seg=0,type=lab"%lit;
  "sym	id=333,name=""op_tick_38_page_58"",addrsize=absolute,scope=1,def=1085+609+1365,val=0xA230,seg=0,type=lab"%lit;
  "sym	id=334,name=""@D"",addrsize=absolute,parent=335,def=1085+1236+1293,ref=1085+1085,val=0xA22D,seg=0,type=lab"%lit;
  "sym	id=335,name=""op_tick_36_page_58"",addrsize=absolute,scope=1,def=1085+1236+860,val=0xA1FC,seg=0,type=lab"%lit;
  "sym	id=336,name=""op_tick_34_page_58"",addrsize=absolute,scope=1,def=1085+1036+1004,val=0xA1D6,seg=0,type=lab"%lit;
  "sym	id=337,name=""op_tick_32_page_58"",addrsize=absolute,scope=1,def=1085+1029+642,val=0xA1BA,seg=0,type=lab"%lit;
  "sym	id=338,name=""op_tick_30_page_58"",addrsize=absolute,scope=1,def=1085+1017+1037,val=0xA19D,seg=0,type=lab"%lit;
  "sym	id=339,name=""op_tick_28_page_58"",addrsize=absolute,scope=1,def=1085+176+212,val=0xA184,seg=0,type=lab"%lit;
  "sym	id=340,name=""op_tick_26_page_58"",addrsize=absolute,scope=1,def=1085+218+580,val=0xA16A,seg=0,type=lab"%lit;
  "sym	id=341,name=""op_tick_24_page_58"",addrsize=absolute,scope=1,def=1085+1223+678,val=0xA153,seg=0,type=lab"%lit;
  "sym	id=342,name=""op_tick_22_page_58"",addrsize=absolute,scope=1,def=1085+1307+1192,val=0xA13C,seg=0,type=lab"%lit;
  "sym	id=343,name=""op_tick_20_page_58"",addrsize=absolute,scope=1,def=1085+1277+32,val=0xA128,seg=0,type=lab"%lit;
  "sym	id=344,name=""@D"",addrsize=absolute,parent=345,def=1085+98+504,ref=1085+1085,val=0xA125,seg=0,type=lab"%lit;
  "sym	id=345,name=""op_tick_18_page_58"",addrsize=absolute,scope=1,def=1085+98+1202,val=0xA0F4,seg=0,type=lab"%lit;
  "sym	id=346,name=""op_tick_16_page_58"",addrsize=absolute,scope=1,def=1085+923+820,val=0xA0DD,seg=0,type=lab"%lit;
  "sym	id=347,name=""op_tick_14_page_58"",addrsize=absolute,scope=1,def=1085+304+13,val=0xA0CD,seg=0,type=lab"%lit;
  "sym	id=348,name=""op_tick_12_page_58"",addrsize=absolute,scope=1,def=1085+1148+767,val=0xA0BC,seg=0,type=lab"%lit;
  "sym	id=349,name=""op_tick_10_page_58"",addrsize=absolute,scope=1,def=1085+743+943,val=0xA0AF,seg=0,type=lab"%lit;
  "sym	id=350,name=""op_tick_8_page_58"",addrsize=absolute,scope=1,def=1085+370+821,val=0xA0A1,seg=0,type=lab"%lit;
  "sym	id=351,name=""_op_tick_page_58_tail_8"",addrsize=absolute,scope=1,def=1085+577+630+124,val=0xA09B,seg=0,type=lab"%lit;
  "sym	id=352,name=""_op_tick_page_58_tail_12"",addrsize=absolute,scope=1,def=1085+577+1048+124,ref=1085,val=0xA098,seg=0,type=lab"%lit;
  "sym	id=353,name=""_op_tick_6_page_58_jmp"",addrsize=absolute,scope=1,def=1085+577+757,ref=1085+1085+1085,val=0xA09E,seg=0,type=lab"%lit;
  "sym	id=354,name=""_op_tick_page_58_tail_16"",addrsize=absolute,scope=1,def=1085+577+178+124,ref=1085,val=0xA095,seg=0,type=lab"%lit;
  "sym	id=355,name=""_op_tick_page_58_tail_20"",addrsize=absolute,scope=1,def=1085+577+682+124,ref=1085+1085,val=0xA092,seg=0,type=lab"%lit;
  "sym	id=356,name=""_op_tick_page_58_tail_25"",addrsize=absolute,scope=1,def=1085+577+1145+124,val=0xA08F,seg=0,type=lab"%lit;
  "sym	id=357,name=""_op_tick_page_58_tail_29"",addrsize=absolute,scope=1,def=1085+577+1264+124,val=0xA08C,seg=0,type=lab"%lit;
  "sym	id=358,name=""_op_tick_page_58_tail_34"",addrsize=absolute,scope=1,def=1085+577+485+124,ref=1085,val=0xA089,seg=0,type=lab"%lit;
  "sym	id=359,name=""_op_tick_page_58_tail_38"",addrsize=absolute,scope=1,def=1085+577+554+124,ref=1085,val=0xA086,seg=0,type=lab"%lit;
  "sym	id=360,name=""_op_tick_page_58_tail_43"",addrsize=absolute,scope=1,def=1085+577+1348+124,ref=1085,val=0xA083,seg=0,type=lab"%lit;
  "sym	id=361,name=""_op_tick_page_58_tail_47"",addrsize=absolute,scope=1,def=1085+577+776+124,val=0xA080,seg=0,type=lab"%lit;
  "sym	id=362,name=""_op_tick_page_58_tail_52"",addrsize=absolute,scope=1,def=1085+577+671+124,ref=1085,val=0xA07D,seg=0,type=lab"%lit;
  "sym	id=363,name=""_op_tick_page_58_tail_56"",addrsize=absolute,scope=1,def=1085+577+498+124,ref=1085,val=0xA07A,seg=0,type=lab"%lit;
  "sym	id=364,name=""_op_tick_page_58_tail_60"",addrsize=absolute,scope=1,def=1085+577+1265+124,val=0xA077,seg=0,type=lab"%lit;
  "sym	id=365,name=""op_tick_6_page_58"",addrsize=absolute,scope=1,def=1085+577+824,val=0xA06E,seg=0,type=lab"%lit;
  "sym	id=366,name=""_op_tick_page_58_tail_7"",addrsize=absolute,scope=1,def=1085+373+903+124,val=0xA068,seg=0,type=lab"%lit;
  "sym	id=367,name=""_op_tick_page_58_tail_11"",addrsize=absolute,scope=1,def=1085+373+1273+124,val=0xA065,seg=0,type=lab"%lit;
  "sym	id=368,name=""_op_tick_4_page_58_jmp"",addrsize=absolute,scope=1,def=1085+373+241,ref=1085+1085,val=0xA06B,seg=0,type=lab"%lit;
  "sym	id=369,name=""_op_tick_page_58_tail_15"",addrsize=absolute,scope=1,def=1085+373+585+124,ref=1085,val=0xA062,seg=0,type=lab"%lit;
  "sym	id=370,name=""_op_tick_page_58_tail_19"",addrsize=absolute,scope=1,def=1085+373+277+124,ref=1085,val=0xA05F,seg=0,type=lab"%lit;
  "sym	id=371,name=""_op_tick_page_58_tail_24"",addrsize=absolute,scope=1,def=1085+373+518+124,ref=1085+1085,val=0xA05C,seg=0,type=lab"%lit;
  "sym	id=372,name=""_op_tick_page_58_tail_28"",addrsize=absolute,scope=1,def=1085+373+164+124,ref=1085,val=0xA059,seg=0,type=lab"%lit;
  "sym	id=373,name=""_op_tick_page_58_tail_33"",addrsize=absolute,scope=1,def=1085+373+154+124,ref=1085,val=0xA056,seg=0,type=lab"%lit;
  "sym	id=374,name=""_op_tick_page_58_tail_37"",addrsize=absolute,scope=1,def=1085+373+1257+124,ref=1085,val=0xA053,seg=0,type=lab"%lit;
  "sym	id=375,name=""_op_tick_page_58_tail_42"",addrsize=absolute,scope=1,def=1085+373+1302+124,ref=1085+1085,val=0xA050,seg=0,type=lab"%lit;
  "sym	id=376,name=""_op_tick_page_58_tail_46"",addrsize=absolute,scope=1,def=1085+373+805+124,ref=1085,val=0xA04D,seg=0,type=lab"%lit;
  "sym	id=377,name=""_op_tick_page_58_tail_51"",addrsize=absolute,scope=1,def=1085+373+1124+124,ref=1085,val=0xA04A,seg=0,type=lab"%lit;
  "sym	id=378,name=""_op_tick_page_58_tail_55"",addrsize=absolute,scope=1,def=1085+373+323+124,ref=1085,val=0xA047,seg=0,type=lab"%lit;
  "sym	id=379,name=""_op_tick_page_58_tail_59"",addrsize=absolute,scope=1,def=1085+373+1142+124,val=0xA044,seg=0,type=lab"%lit;
  "sym	id=380,name=""op_tick_4_page_58"",addrsize=absolute,scope=1,def=1085+373+1062,val=0xA03A,seg=0,type=lab"%lit;
  "sym	id=381,name=""@D"",addrsize=absolute,parent=382,def=1381+138+254,ref=1381+1381,val=0xA037,seg=0,type=lab"%lit;
  "sym	id=382,name=""op_tick_66_page_57"",addrsize=absolute,scope=1,def=1381+138+697,val=0xA006,seg=0,type=lab"%lit;
  "sym	id=383,name=""@D"",addrsize=absolute,parent=384,def=1381+1001+700,ref=1381+1381,val=0xA003,seg=0,type=lab"%lit;
  "sym	id=384,name=""op_tick_64_page_57"",addrsize=absolute,scope=1,def=1381+1001+979,val=0x9FD2,seg=0,type=lab"%lit;
  "sym	id=385,name=""@D"",addrsize=absolute,parent=386,def=1381+664+830,ref=1381+1381,val=0x9FCF,seg=0,type=lab"%lit;
  "sym	id=386,name=""op_tick_62_page_57"",addrsize=absolute,scope=1,def=1381+664+262,val=0x9F9E,seg=0,type=lab"%lit;
  "sym	id=387,name=""@D"",addrsize=absolute,parent=388,def=1381+779+823,ref=1381+1381,val=0x9F9B,seg=0,type=lab"%lit;
  "sym	id=388,name=""op_tick_60_page_57"",addrsize=absolute,scope=1,def=1381+779+725,val=0x9F6A,seg=0,type=lab"%lit;
  "sym	id=389,name=""@D"",addrsize=absolute,parent=390,def=1381+510+1188,ref=1381+1381,val=0x9F67,seg=0,type=lab"%lit;
  "sym	id=390,name=""op_tick_58_page_57"",addrsize=absolute,scope=1,def=1381+510+986,val=0x9F36,seg=0,type=lab"%lit;
  "sym	id=391,name=""@D"",addrsize=absolute,parent=392,def=1381+704+801,ref=1381+1381,val=0x9F33,seg=0,type=lab"%lit;
  "sym	id=392,name=""op_tick_56_page_57"",addrsize=absolute,scope=1,def=1381+704+1286,val=0x9F02,seg=0,type=lab"%lit;
  "sym	id=393,name=""@D"",addrsize=absolute,parent=394,def=1381+621+1022,ref=1381+1381,val=0x9EFF,seg=0,type=lab"%lit;
  "sym	id=394,name=""op_tick_54_page_57"",addrsize=absolute,scope=1,def=1381+621+1201,val=0x9ECE,seg=0,type=lab"%lit;
  "sym	id=395,name=""op_tick_52_page_57"",addrsize=absolute,scope=1,def=1381+884+153,val=0x9EA3,seg=0,type=lab"%lit;
  "sym	id=396,name=""op_tick_50_page_57"",addrsize=absolute,scope=1,def=1381+114+962,val=0x9E7B,seg=0,type=lab"%lit;
  "sym	id=397,name=""op_tick_48_page_57"",addrsize=absolute,scope=1,def=1381+1026+439,val=0x9E52,seg=0,type=lab"%lit;
  "sym	id=398,name=""op_tick_46_page_57"",addrsize=absolute,scope=1,def=1381+647+1044,val=0x9E2D,seg=0,type=lab"%lit;
  "sym	id=399,name=""op_tick_44_page_57"",addrsize=absolute,scope=1,def=1381+268+546,val=0x9E07,seg=0,type=lab"%lit;
  "sym	id=400,name=""op_tick_42_page_57"",addrsize=absolute,scope=1,def=1381+62+67,val=0x9DE4,seg=0,type=lab"%lit;
  "sym	id=401,name=""op_tick_40_page_57"",addrsize=absolute,scope=1,def=1381+1114+1222,val=0x9DC1,seg=0,type=lab"%lit;
  "sym	id=402,name=""op_tick_38_page_57"",addrsize=absolute,scope=1,def=1381+609+1365,val=0x9DA1,seg=0,type=lab"%lit;
  "sym	id=403,name=""@D"",addrsize=absolute,parent=404,def=1381+1236+1293,ref=1381+1381,val=0x9D9E,seg=0,type=lab"%lit;
  "sym	id=404,name=""op_tick_36_page_57"",addrsize=absolute,scope=1,def=1381+1236+860,val=0x9D6D,seg=0,type=lab"%lit;
  "sym	id=405,name=""op_tick_34_page_57"",addrsize=absolute,scope=1,def=1381+1036+1004,val=0x9D47,seg=0,type=lab"%lit;
  "sym	id=406,name=""op_tick_32_page_57"",addrsize=absolute,scope=1,def=1381+1029+642,val=0x9D2B,seg=0,type=lab"%lit;
  "sym	id=407,name=""op_tick_30_page_57"",addrsize=absolute,scope=1,def=1381+1017+1037,val=0x9D0E,seg=0,type=lab"%lit;
  "sym	id=408,name=""op_tick_28_page_57"",addrsize=absolute,scope=1,def=1381+176+212,val=0x9CF5,seg=0,type=lab"%lit;
  "sym	id=409,name=""op_tick_26_page_57"",addrsize=absolute,scope=1,def=1381+218+580,val=0x9CDB,seg=0,type=lab"%lit;
  "sym	id=410,name=""op_tick_24_page_57"",addrsize=absolute,scope=1,def=1381+1223+678,val=0x9CC4,seg=0,type=lab"%lit;
  "sym	id=411,name=""op_tick_22_page_57"",addrsize=absolute,scope=1,def=1381+1307+1192,val=0x9CAD,seg=0,type=lab"%lit;
  "sym	id=412,name=""op_tick_20_page_57"",addrsize=absolute,scope=1,def=1381+1277+32,val=0x9C99,seg=0,type=lab"%lit;
  "sym	id=413,name=""@D"",addrsize=absolute,parent=414,def=1381+98+504,ref=1381+1381,val=0x9C96,seg=0,type=lab"%lit;
  "sym	id=414,name=""op_tick_18_page_57"",addrsize=absolute,scope=1,def=1381+98+1202,val=0x9C65,seg=0,type=lab"%lit;
  "sym	id=415,name=""op_tick_16_page_57"",addrsize=absolute,scope=1,def=1381+923+820,val=0x9C4E,seg=0,type=lab"%lit;
  "sym	id=416,name=""op_tick_14_page_57"",addrsize=absolute,scope=1,def=1381+304+13,val=0x9C3E,seg=0,type=lab"%lit;
  "sym	id=417,name=""op_tick_12_page_57"",addrsize=absolute,scope=1,def=1381+1148+767,val=0x9C2D,seg=0,type=lab"%lit;
  "sym	id=418,name=""op_tick_10_page_57"",addrsize=absolute,scope=1,def=1381+743+943,val=0x9C20,seg=0,type=lab"%lit;
  "sym	id=419,name=""op_tick_8_page_57"",addrsize=absolute,scope=1,def=1381+370+821,val=0x9C12,seg=0,type=lab"%lit;
  "sym	id=420,name=""_op_tick_page_57_tail_8"",addrsize=absolute,scope=1,def=1381+577+630+124,val=0x9C0C,seg=0,type=lab"%lit;
  "sym	id=421,name=""_op_tick_page_57_tail_12"",addrsize=absolute,scope=1,def=1381+577+1048+124,ref=1381,val=0x9C09,seg=0,type=lab"%lit;
  "sym	id=422,name=""_op_tick_6_page_57_jmp"",addrsize=absolute,scope=1,def=1381+577+757,ref=1381+1381+1381,val=0x9C0F,seg=0,type=lab"%lit;
  "sym	id=423,name=""_op_tick_page_57_tail_16"",addrsize=absolute,scope=1,def=1381+577+178+124,ref=1381,val=0x9C06,seg=0,type=lab"%lit;
  "sym	id=424,name=""_op_tick_page_57_tail_20"",addrsize=absolute,scope=1,def=1381+577+682+124,ref=1381+1381,val=0x9C03,seg=0,type=lab"%lit;
  "sym	id=425,name=""_op_tick_page_57_tail_25"",addrsize=absolute,scope=1,def=1381+577+1145+124,val=0x9C00,seg=0,type=lab"%lit;
  "sym	id=426,name=""_op_tick_page_57_tail_29"",addrsize=absolute,scope=1,def=1381+577+1264+124,val=0x9BFD,seg=0,type=lab"%lit;
  "sym	id=427,name=""_op_tick_page_57_tail_34"",addrsize=absolute,scope=1,def=1381+577+485+124,ref=1381,val=0x9BFA,seg=0,type=lab"%lit;
  "sym	id=428,name=""_op_tick_page_57_tail_38"",addrsize=absolute,scope=1,def=1381+577+554+124,ref=1381,val=0x9BF7,seg=0,type=lab"%lit;
  "sym	id=429,name=""_op_tick_page_57_tail_43"",addrsize=absolute,scope=1,def=1381+577+1348+124,ref=1381,val=0x9BF4,seg=0,type=lab"%lit;
  "sym	id=430,name=""_op_tick_page_57_tail_47"",addrsize=absolute,scope=1,def=1381+577+776+124,val=0x9BF1,seg=0,type=lab"%lit;
  "sym	id=431,name=""_op_tick_page_57_tail_52"",addrsize=absolute,scope=1,def=1381+577+671+124,ref=1381,val=0x9BEE,seg=0,type=lab"%lit;
  "sym	id=432,name=""_op_tick_page_57_tail_56"",addrsize=absolute,scope=1,def=1381+577+498+124,ref=1381,val=0x9BEB,seg=0,type=lab"%lit;
  "sym	id=433,name=""_op_tick_page_57_tail_60"",addrsize=absolute,scope=1,def=1381+577+1265+124,val=0x9BE8,seg=0,type=lab"%lit;
  "sym	id=434,name=""op_tick_6_page_57"",addrsize=absolute,scope=1,def=1381+577+824,val=0x9BDF,seg=0,type=lab"%lit;
  "sym	id=435,name=""_op_tick_page_57_tail_7"",addrsize=absolute,scope=1,def=1381+373+903+124,val=0x9BD9,seg=0,type=lab"%lit;
  "sym	id=436,name=""_op_tick_page_57_tail_11"",addrsize=absolute,scope=1,def=1381+373+1273+124,val=0x9BD6,seg=0,type=lab"%lit;
  "sym	id=437,name=""_op_tick_4_page_57_jmp"",addrsize=absolute,scope=1,def=1381+373+241,ref=1381+1381,val=0x9BDC,seg=0,type=lab"%lit;
  "sym	id=438,name=""_op_tick_page_57_tail_15"",addrsize=absolute,scope=1,def=1381+373+585+124,ref=1381,val=0x9BD3,seg=0,type=lab"%lit;
  "sym	id=439,name=""_op_tick_page_57_tail_19"",addrsize=absolute,scope=1,def=1381+373+277+124,ref=1381,val=0x9BD0,seg=0,type=lab"%lit;
  "sym	id=440,name=""_op_tick_page_57_tail_24"",addrsize=absolute,scope=1,def=1381+373+518+124,ref=1381+1381,val=0x9BCD,seg=0,type=lab"%lit;
  "sym	id=441,name=""_op_tick_page_57_tail_28"",addrsize=absolute,scope=1,def=1381+373+164+124,ref=1381,val=0x9BCA,seg=0,type=lab"%lit;
  "sym	id=442,name=""_op_tick_page_57_tail_33"",addrsize=absolute,scope=1,def=1381+373+154+124,ref=1381,val=0x9BC7,seg=0,type=lab"%lit;
  "sym	id=443,name=""_op_tick_page_57_tail_37"",addrsize=absolute,scope=1,def=1381+373+1257+124,ref=1381,val=0x9BC4,seg=0,type=lab"%lit;
  "sym	id=444,name=""_op_tick_page_57_tail_42"",addrsize=absolute,scope=1,def=1381+373+1302+124,ref=1381+1381,val=0x9BC1,seg=0,type=lab"%lit;
  "sym	id=445,name=""_op_tick_page_57_tail_46"",addrsize=absolute,scope=1,def=1381+373+805+124,ref=1381,val=0x9BBE,seg=0,type=lab"%lit;
  "sym	id=446,name=""_op_tick_page_57_tail_51"",addrsize=absolute,scope=1,def=1381+373+1124+124,ref=1381,val=0x9BBB,seg=0,type=lab"%lit;
  "sym	id=447,name=""_op_tick_page_57_tail_55"",addrsize=absolute,scope=1,def=1381+373+323+124,ref=1381,val=0x9BB8,seg=0,type=lab"%lit;
  "sym	id=448,name=""_op_tick_page_57_tail_59"",addrsize=absolute,scope=1,def=1381+373+1142+124,val=0x9BB5,seg=0,type=lab"%lit;
  "sym	id=449,name=""op_tick_4_page_57"",addrsize=absolute,scope=1,def=1381+373+1062,val=0x9BAB,seg=0,type=lab"%lit;
  "sym	id=450,name=""@D"",addrsize=absolute,parent=451,def=957+138+254,ref=957+957,val=0x9BA8,seg=0,type=lab"%lit;
  "sym	id=451,name=""op_tick_66_page_56"",addrsize=absolute,scope=1,def=957+138+697,val=0x9B77,seg=0,type=lab"%lit;
  "sym	id=452,name=""@D"",addrsize=absolute,parent=453,def=957+1001+700,ref=957+957,val=0x9B74,seg=0,type=lab"%lit;
  "sym	id=453,name=""op_tick_64_page_56"",addrsize=absolute,scope=1,def=957+1001+979,val=0x9B43,seg=0,type=lab"%lit;
  "sym	id=454,name=""@D"",addrsize=absolute,parent=455,def=957+664+830,ref=957+957,val=0x9B40,seg=0,type=lab"%lit;
  "sym	id=455,name=""op_tick_62_page_56"",addrsize=absolute,scope=1,def=957+664+262,val=0x9B0F,seg=0,type=lab"%lit;
  "sym	id=456,name=""@D"",addrsize=absolute,parent=457,def=957+779+823,ref=957+957,val=0x9B0C,seg=0,type=lab"%lit;
  "sym	id=457,name=""op_tick_60_page_56"",addrsize=absolute,scope=1,def=957+779+725,val=0x9ADB,seg=0,type=lab"%lit;
  "sym	id=458,name=""@D"",addrsize=absolute,parent=459,def=957+510+1188,ref=957+957,val=0x9AD8,seg=0,type=lab"%lit;
  "sym	id=459,name=""op_tick_58_page_56"",addrsize=absolute,scope=1,def=957+510+986,val=0x9AA7,seg=0,type=lab"%lit;
  "sym	id=460,name=""@D"",addrsize=absolute,parent=461,def=957+704+801,ref=957+957,val=0x9AA4,seg=0,type=lab"%lit;
  "sym	id=461,name=""op_tick_56_page_56"",addrsize=absolute,scope=1,def=957+704+1286,val=0x9A73,seg=0,type=lab"%lit;
  "sym	id=462,name=""@D"",addrsize=absolute,parent=463,def=957+621+1022,ref=957+957,val=0x9A70,seg=0,type=lab"%lit;
  "sym	id=463,name=""op_tick_54_page_56"",addrsize=absolute,scope=1,def=957+621+1201,val=0x9A3F,seg=0,type=lab"%lit;
  "sym	id=464,name=""op_tick_52_page_56"",addrsize=absolute,scope=1,def=957+884+153,val=0x9A14,seg=0,type=lab"%lit;
  "sym	id=465,name=""op_tick_50_page_56"",addrsize=absolute,scope=1,def=957+114+962,val=0x99EC,seg=0,type=lab"%lit;
  "sym	id=466,name=""op_tick_48_page_56"",addrsize=absolute,scope=1,def=957+1026+439,val=0x99C3,seg=0,type=lab"%lit;
  "sym	id=467,name=""op_tick_46_page_56"",addrsize=absolute,scope=1,def=957+647+1044,val=0x999E,seg=0,type=lab"%lit;
  "sym	id=468,name=""op_tick_44_page_56"",addrsize=absolute,scope=1,def=957+268+546,val=0x9978,seg=0,type=lab"%lit;
  "sym	id=469,name=""op_tick_42_page_56"",addrsize=absolute,scope=1,def=957+62+67,val=0x9955,seg=0,type=lab"%lit;
  "sym	id=470,name=""op_tick_40_page_56"",addrsize=absolute,scope=1,def=957+1114+1222,val=0x9932,seg=0,type=lab"%lit;
  "sym	id=471,name=""op_tick_38_page_56"",addrsize=absolute,scope=1,def=957+609+1365,val=0x9912,seg=0,type=lab"%lit;
  "sym	id=472,name=""@D"",addrsize=absolute,parent=473,def=957+1236+1293,ref=957+957,val=0x990F,seg=0,type=lab"%lit;
  "sym	id=473,name=""op_tick_36_page_56"",addrsize=absolute,scope=1,def=957+1236+860,val=0x98DE,seg=0,type=lab"%lit;
  "sym	id=474,name=""op_tick_34_page_56"",addrsize=absolute,scope=1,def=957+1036+1004,val=0x98B8,seg=0,type=lab"%lit;
  "sym	id=475,name=""op_tick_32_page_56"",addrsize=absolute,scope=1,def=957+1029+642,val=0x989C,seg=0,type=lab"%lit;
  "sym	id=476,name=""op_tick_30_page_56"",addrsize=absolute,scope=1,def=957+1017+1037,val=0x987F,seg=0,type=lab"%lit;
  "sym	id=477,name=""op_tick_28_page_56"",addrsize=absolute,scope=1,def=957+176+212,val=0x9866,seg=0,type=lab"%lit;
  "sym	id=478,name=""op_tick_26_page_56"",addrsize=absolute,scope=1,def=957+218+580,val=0x984C,seg=0,type=lab"%lit;
  "sym	id=479,name=""op_tick_24_page_56"",addrsize=absolute,scope=1,def=957+1223+678,val=0x9835,seg=0,type=lab"%lit;
  "sym	id=480,name=""op_tick_22_page_56"",addrsize=absolute,scope=1,def=957+1307+1192,val=0x981E,seg=0,type=lab"%lit;
  "sym	id=481,name=""op_tick_20_page_56"",addrsize=absolute,scope=1,def=957+1277+32,val=0x980A,seg=0,type=lab"%lit;
  "sym	id=482,name=""@D"",addrsize=absolute,parent=483,def=957+98+504,ref=957+957,val=0x9807,seg=0,type=lab"%lit;
  "sym	id=483,name=""op_tick_18_page_56"",addrsize=absolute,scope=1,def=957+98+1202,val=0x97D6,seg=0,type=lab"%lit;
  "sym	id=484,name=""op_tick_16_page_56"",addrsize=absolute,scope=1,def=957+923+820,val=0x97BF,seg=0,type=lab"%lit;
  "sym	id=485,name=""op_tick_14_page_56"",addrsize=absolute,scope=1,def=957+304+13,val=0x97AF,seg=0,type=lab"%lit;
  "sym	id=486,name=""op_tick_12_page_56"",addrsize=absolute,scope=1,def=957+1148+767,val=0x979E,seg=0,type=lab"%lit;
  "sym	id=487,name=""op_tick_10_page_56"",addrsize=absolute,scope=1,def=957+743+943,val=0x9791,seg=0,type=lab"%lit;
  "sym	id=488,name=""op_tick_8_page_56"",addrsize=absolute,scope=1,def=957+370+821,val=0x9783,seg=0,type=lab"%lit;
  "sym	id=489,name=""_op_tick_page_56_tail_8"",addrsize=absolute,scope=1,def=957+577+630+124,val=0x977D,seg=0,type=lab"%lit;
  "sym	id=490,name=""_op_tick_page_56_tail_12"",addrsize=absolute,scope=1,def=957+577+1048+124,ref=957,val=0x977A,seg=0,type=lab"%lit;
  "sym	id=491,name=""_op_tick_6_page_56_jmp"",addrsize=absolute,scope=1,def=957+577+757,ref=957+957+957,val=0x9780,seg=0,type=lab"%lit;
  "sym	id=492,name=""_op_tick_page_56_tail_16"",addrsize=absolute,scope=1,def=957+577+178+124,ref=957,val=0x9777,seg=0,type=lab"%lit;
  "sym	id=493,name=""_op_tick_page_56_tail_20"",addrsize=absolute,scope=1,def=957+577+682+124,ref=957+957,val=0x9774,seg=0,type=lab"%lit;
  "sym	id=494,name=""_op_tick_page_56_tail_25"",addrsize=absolute,scope=1,def=957+577+1145+124,val=0x9771,seg=0,type=lab"%lit;
  "sym	id=495,name=""_op_tick_page_56_tail_29"",addrsize=absolute,scope=1,def=957+577+1264+124,val=0x976E,seg=0,type=lab"%lit;
  "sym	id=496,name=""_op_tick_page_56_tail_34"",addrsize=absolute,scope=1,def=957+577+485+124,ref=957,val=0x976B,seg=0,type=lab"%lit;
  "sym	id=497,name=""_op_tick_page_56_tail_38"",addrsize=absolute,scope=1,def=957+577+554+124,ref=957,val=0x9768,seg=0,type=lab"%lit;
  "sym	id=498,name=""_op_tick_page_56_tail_43"",addrsize=absolute,scope=1,def=957+577+1348+124,ref=957,val=0x9765,seg=0,type=lab"%lit;
  "sym	id=499,name=""_op_tick_page_56_tail_47"",addrsize=absolute,scope=1,def=957+577+776+124,val=0x9762,seg=0,type=lab"%lit;
  "sym	id=500,name=""_op_tick_page_56_tail_52"",addrsize=absolute,scope=1,def=957+577+671+124,ref=957,val=0x975F,seg=0,type=lab"%lit;
  "sym	id=501,name=""_op_tick_page_56_tail_56"",addrsize=absolute,scope=1,def=957+577+498+124,ref=957,val=0x975C,seg=0,type=lab"%lit;
  "sym	id=502,name=""_op_tick_page_56_tail_60"",addrsize=absolute,scope=1,def=957+577+1265+124,val=0x9759,seg=0,type=lab"%lit;
  "sym	id=503,name=""op_tick_6_page_56"",addrsize=absolute,scope=1,def=957+577+824,val=0x9750,seg=0,type=lab"%lit;
  "sym	id=504,name=""_op_tick_page_56_tail_7"",addrsize=absolute,scope=1,def=957+373+903+124,val=0x974A,seg=0,type=lab"%lit;
  "sym	id=505,name=""_op_tick_page_56_tail_11"",addrsize=absolute,scope=1,def=957+373+1273+124,val=0x9747,seg=0,type=lab"%lit;
  "sym	id=506,name=""_op_tick_4_page_56_jmp"",addrsize=absolute,scope=1,def=957+373+241,ref=957+957,val=0x974D,seg=0,type=lab"%lit;
  "sym	id=507,name=""_op_tick_page_56_tail_15"",addrsize=absolute,scope=1,def=957+373+585+124,ref=957,val=0x9744,seg=0,type=lab"%lit;
  "sym	id=508,name=""_op_tick_page_56_tail_19"",addrsize=absolute,scope=1,def=957+373+277+124,ref=957,val=0x9741,seg=0,type=lab"%lit;
  "sym	id=509,name=""_op_tick_page_56_tail_24"",addrsize=absolute,scope=1,def=957+373+518+124,ref=957+957,val=0x973E,seg=0,type=lab"%lit;
  "sym	id=510,name=""_op_tick_page_56_tail_28"",addrsize=absolute,scope=1,def=957+373+164+124,ref=957,val=0x973B,seg=0,type=lab"%lit;
  "sym	id=511,name=""_op_tick_page_56_tail_33"",addrsize=absolute,scope=1,def=957+373+154+124,ref=957,val=0x9738,seg=0,type=lab"%lit;
  "sym	id=512,name=""_op_tick_page_56_tail_37"",addrsize=absolute,scope=1,def=957+373+1257+124,ref=957,val=0x9735,seg=0,type=lab"%lit;
  "sym	id=513,name=""_op_tick_page_56_tail_42"",addrsize=absolute,scope=1,def=957+373+1302+124,ref=957+957,val=0x9732,seg=0,type=lab"%lit;
  "sym	id=514,name=""_op_tick_page_56_tail_46"",addrsize=absolute,scope=1,def=957+373+805+124,ref=957,val=0x972F,seg=0,type=lab"%lit;
  "sym	id=515,name=""_op_tick_page_56_tail_51"",addrsize=absolute,scope=1,def=957+373+1124+124,ref=957,val=0x972C,seg=0,type=lab"%lit;
  "sym	id=516,name=""_op_tick_page_56_tail_55"",addrsize=absolute,scope=1,def=957+373+323+124,ref=957,val=0x9729,seg=0,type=lab"%lit;
  "sym	id=517,name=""_op_tick_page_56_tail_59"",addrsize=absolute,scope=1,def=957+373+1142+124,val=0x9726,seg=0,type=lab"%lit;
  "sym	id=518,name=""op_tick_4_page_56"",addrsize=absolute,scope=1,def=957+373+1062,val=0x971C,seg=0,type=lab"%lit;
  "sym	id=519,name=""@D"",addrsize=absolute,parent=520,def=1369+138+254,ref=1369+1369,val=0x9719,seg=0,type=lab"%lit;
  "sym	id=520,name=""op_tick_66_page_55"",addrsize=absolute,scope=1,def=1369+138+697,val=0x96E8,seg=0,type=lab"%lit;
  "sym	id=521,name=""@D"",addrsize=absolute,parent=522,def=1369+1001+700,ref=1369+1369,val=0x96E5,seg=0,type=lab"%lit;
  "sym	id=522,name=""op_tick_64_page_55"",addrsize=absolute,scope=1,def=1369+1001+979,val=0x96B4,seg=0,type=lab"%lit;
  "sym	id=523,name=""@D"",addrsize=absolute,parent=524,def=1369+664+830,ref=1369+1369,val=0x96B1,seg=0,type=lab"%lit;
  "sym	id=524,name=""op_tick_62_page_55"",addrsize=absolute,scope=1,def=1369+664+262,val=0x9680,seg=0,type=lab"%lit;
  "sym	id=525,name=""@D"",addrsize=absolute,parent=526,def=1369+779+823,ref=1369+1369,val=0x967D,seg=0,type=lab"%lit;
  "sym	id=526,name=""op_tick_60_page_55"",addrsize=absolute,scope=1,def=1369+779+725,val=0x964C,seg=0,type=lab"%lit;
  "sym	id=527,name=""@D"",addrsize=absolute,parent=528,def=1369+510+1188,ref=1369+1369,val=0x9649,seg=0,type=lab"%lit;
  "sym	id=528,name=""op_tick_58_page_55"",addrsize=absolute,scope=1,def=1369+510+986,val=0x9618,seg=0,type=lab"%lit;
  "sym	id=529,name=""@D"",addrsize=absolute,parent=530,def=1369+704+801,ref=1369+1369,val=0x9615,seg=0,type=lab"%lit;
  "sym	id=530,name=""op_tick_56_page_55"",addrsize=absolute,scope=1,def=1369+704+1286,val=0x95E4,seg=0,type=lab"%lit;
  "sym	id=531,name=""@D"",addrsize=absolute,parent=532,def=1369+621+1022,ref=1369+1369,val=0x95E1,seg=0,type=lab"%lit;
  "sym	id=532,name=""op_tick_54_page_55"",addrsize=absolute,scope=1,def=1369+621+1201,val=0x95B0,seg=0,type=lab"%lit;
  "sym	id=533,name=""op_tick_52_page_55"",addrsize=absolute,scope=1,def=1369+884+153,val=0x9585,seg=0,type=lab"%lit;
  "sym	id=534,name=""op_tick_50_page_55"",addrsize=absolute,scope=1,def=1369+114+962,val=0x955D,seg=0,type=lab"%lit;
  "sym	id=535,name=""op_tick_48_page_55"",addrsize=absolute,scope=1,def=1369+1026+439,val=0x9534,seg=0,type=lab"%lit;
  "sym	id=536,name=""op_tick_46_page_55"",addrsize=absolute,scope=1,def=1369+647+1044,val=0x950F,seg=0,type=lab"%lit;
  "sym	id=537,name=""op_tick_44_page_55"",addrsize=absolute,scope=1,def=1369+268+546,val=0x94E9,seg=0,type=lab"%lit;
  "sym	id=538,name=""op_tick_42_page_55"",addrsize=absolute,scope=1,def=1369+62+67,val=0x94C6,seg=0,type=lab"%lit;
  "sym	id=539,name=""op_tick_40_page_55"",addrsize=absolute,scope=1,def=1369+1114+1222,val=0x94A3,seg=0,type=lab"%lit;
  "sym	id=540,name=""op_tick_38_page_55"",addrsize=absolute,scope=1,def=1369+609+1365,val=0x9483,seg=0,type=lab"%lit;
  "sym	id=541,name=""@D"",addrsize=absolute,parent=542,def=1369+1236+1293,ref=1369+1369,val=0x9480,seg=0,type=lab"%lit;
  "sym	id=542,name=""op_tick_36_page_55"",addrsize=absolute,scope=1,def=1369+1236+860,val=0x944F,seg=0,type=lab"%lit;
  "sym	id=543,name=""op_tick_34_page_55"",addrsize=absolute,scope=1,def=1369+1036+1004,val=0x9429,seg=0,type=lab"%lit;
  "sym	id=544,name=""op_tick_32_page_55"",addrsize=absolute,scope=1,def=1369+1029+642,val=0x940D,seg=0,type=lab"%lit;
  "sym	id=545,name=""op_tick_30_page_55"",addrsize=absolute,scope=1,def=1369+1017+1037,val=0x93F0,seg=0,type=lab"%lit;
  "sym	id=546,name=""op_tick_28_page_55"",addrsize=absolute,scope=1,def=1369+176+212,val=0x93D7,seg=0,type=lab"%lit;
  "sym	id=547,name=""op_tick_26_page_55"",addrsize=absolute,scope=1,def=1369+218+580,val=0x93BD,seg=0,type=lab"%lit;
  "sym	id=548,name=""op_tick_24_page_55"",addrsize=absolute,scope=1,def=1369+1223+678,val=0x93A6,seg=0,type=lab"%lit;
  "sym	id=549,name=""op_tick_22_page_55"",addrsize=absolute,scope=1,def=1369+1307+1192,val=0x938F,seg=0,type=lab"%lit;
  "sym	id=550,name=""op_tick_20_page_55"",addrsize=absolute,scope=1,def=1369+1277+32,val=0x937B,seg=0,type=lab"%lit;
  "sym	id=551,name=""@D"",addrsize=absolute,parent=552,def=1369+98+504,ref=1369+1369,val=0x9378,seg=0,type=lab"%lit;
  "sym	id=552,name=""op_tick_18_page_55"",addrsize=absolute,scope=1,def=1369+98+1202,val=0x9347,seg=0,type=lab"%lit;
  "sym	id=553,name=""op_tick_16_page_55"",addrsize=absolute,scope=1,def=1369+923+820,val=0x9330,seg=0,type=lab"%lit;
  "sym	id=554,name=""op_tick_14_page_55"",addrsize=absolute,scope=1,def=1369+304+13,val=0x9320,seg=0,type=lab"%lit;
  "sym	id=555,name=""op_tick_12_page_55"",addrsize=absolute,scope=1,def=1369+1148+767,val=0x930F,seg=0,type=lab"%lit;
  "sym	id=556,name=""op_tick_10_page_55"",addrsize=absolute,scope=1,def=1369+743+943,val=0x9302,seg=0,type=lab"%lit;
  "sym	id=557,name=""op_tick_8_page_55"",addrsize=absolute,scope=1,def=1369+370+821,val=0x92F4,seg=0,type=lab"%lit;
  "sym	id=558,name=""_op_tick_page_55_tail_8"",addrsize=absolute,scope=1,def=1369+577+630+124,val=0x92EE,seg=0,type=lab"%lit;
  "sym	id=559,name=""_op_tick_page_55_tail_12"",addrsize=absolute,scope=1,def=1369+577+1048+124,ref=1369,val=0x92EB,seg=0,type=lab"%lit;
  "sym	id=560,name=""_op_tick_6_page_55_jmp"",addrsize=absolute,scope=1,def=1369+577+757,ref=1369+1369+1369,val=0x92F1,seg=0,type=lab"%lit;
  "sym	id=561,name=""_op_tick_page_55_tail_16"",addrsize=absolute,scope=1,def=1369+577+178+124,ref=1369,val=0x92E8,seg=0,type=lab"%lit;
  "sym	id=562,name=""_op_tick_page_55_tail_20"",addrsize=absolute,scope=1,def=1369+577+682+124,ref=1369+1369,val=0x92E5,seg=0,type=lab"%lit;
  "sym	id=563,name=""_op_tick_page_55_tail_25"",addrsize=absolute,scope=1,def=1369+577+1145+124,val=0x92E2,seg=0,type=lab"%lit;
  "sym	id=564,name=""_op_tick_page_55_tail_29"",addrsize=absolute,scope=1,def=1369+577+1264+124,val=0x92DF,seg=0,type=lab"%lit;
  "sym	id=565,name=""_op_tick_page_55_tail_34"",addrsize=absolute,scope=1,def=1369+577+485+124,ref=1369,val=0x92DC,seg=0,type=lab"%lit;
  "sym	id=566,name=""_op_tick_page_55_tail_38"",addrsize=absolute,scope=1,def=1369+577+554+124,ref=1369,val=0x92D9,seg=0,type=lab"%lit;
  "sym	id=567,name=""_op_tick_page_55_tail_43"",addrsize=absolute,scope=1,def=1369+577+1348+124,ref=1369,val=0x92D6,seg=0,type=lab"%lit;
  "sym	id=568,name=""_op_tick_page_55_tail_47"",addrsize=absolute,scope=1,def=1369+577+776+124,val=0x92D3,seg=0,type=lab"%lit;
  "sym	id=569,name=""_op_tick_page_55_tail_52"",addrsize=absolute,scope=1,def=1369+577+671+124,ref=1369,val=0x92D0,seg=0,type=lab"%lit;
  "sym	id=570,name=""_op_tick_page_55_tail_56"",addrsize=absolute,scope=1,def=1369+577+498+124,ref=1369,val=0x92CD,seg=0,type=lab"%lit;
  "sym	id=571,name=""_op_tick_page_55_tail_60"",addrsize=absolute,scope=1,def=1369+577+1265+124,val=0x92CA,seg=0,type=lab"%lit;
  "sym	id=572,name=""op_tick_6_page_55"",addrsize=absolute,scope=1,def=1369+577+824,val=0x92C1,seg=0,type=lab"%lit;
  "sym	id=573,name=""_op_tick_page_55_tail_7"",addrsize=absolute,scope=1,def=1369+373+903+124,val=0x92BB,seg=0,type=lab"%lit;
  "sym	id=574,name=""_op_tick_page_55_tail_11"",addrsize=absolute,scope=1,def=1369+373+1273+124,val=0x92B8,seg=0,type=lab"%lit;
  "sym	id=575,name=""_op_tick_4_page_55_jmp"",addrsize=absolute,scope=1,def=1369+373+241,ref=1369+1369,val=0x92BE,seg=0,type=lab"%lit;
  "sym	id=576,name=""_op_tick_page_55_tail_15"",addrsize=absolute,scope=1,def=1369+373+585+124,ref=1369,val=0x92B5,seg=0,type=lab"%lit;
  "sym	id=577,name=""_op_tick_page_55_tail_19"",addrsize=absolute,scope=1,def=1369+373+277+124,ref=1369,val=0x92B2,seg=0,type=lab"%lit;
  "sym	id=578,name=""_op_tick_page_55_tail_24"",addrsize=absolute,scope=1,def=1369+373+518+124,ref=1369+1369,val=0x92AF,seg=0,type=lab"%lit;
  "sym	id=579,name=""_op_tick_page_55_tail_28"",addrsize=absolute,scope=1,def=1369+373+164+124,ref=1369,val=0x92AC,seg=0,type=lab"%lit;
  "sym	id=580,name=""_op_tick_page_55_tail_33"",addrsize=absolute,scope=1,def=1369+373+154+124,ref=1369,val=0x92A9,seg=0,type=lab"%lit;
  "sym	id=581,name=""_op_tick_page_55_tail_37"",addrsize=absolute,scope=1,def=1369+373+1257+124,ref=1369,val=0x92A6,seg=0,type=lab"%lit;
  "sym	id=582,name=""_op_tick_page_55_tail_42"",addrsize=absolute,scope=1,def=1369+373+1302+124,ref=1369+1369,val=0x92A3,seg=0,type=lab"%lit;
  "sym	id=583,name=""_op_tick_page_55_tail_46"",addrsize=absolute,scope=1,def=1369+373+805+124,ref=1369,val=0x92A0,seg=0,type=lab"%lit;
  "sym	id=584,name=""_op_tick_page_55_tail_51"",addrsize=absolute,scope=1,def=1369+373+1124+124,ref=1369,val=0x929D,seg=0,type=lab"%lit;
  "sym	id=585,name=""_op_tick_page_55_tail_55"",addrsize=absolute,scope=1,def=1369+373+323+124,ref=1369,val=0x929A,seg=0,type=lab"%lit;
  "sym	id=586,name=""_op_tick_page_55_tail_59"",addrsize=absolute,scope=1,def=1369+373+1142+124,val=0x9297,seg=0,type=lab"%lit;
  "sym	id=587,name=""op_tick_4_page_55"",addrsize=absolute,scope=1,def=1369+373+1062,val=0x928D,seg=0,type=lab"%lit;
  "sym	id=588,name=""@D"",addrsize=absolute,parent=589,def=1102+138+254,ref=1102+1102,val=0x928A,seg=0,type=lab"%lit;
  "sym	id=589,name=""op_tick_66_page_54"",addrsize=absolute,scope=1,def=1102+138+697,val=0x9259,seg=0,type=lab"%lit;
  "sym	id=590,name=""@D"",addrsize=absolute,parent=591,def=1102+1001+700,ref=1102+1102,val=0x9256,seg=0,type=lab"%lit;
  "sym	id=591,name=""op_tick_64_page_54"",addrsize=absolute,scope=1,def=1102+1001+979,val=0x9225,seg=0,type=lab"%lit;
  "sym	id=592,name=""@D"",addrsize=absolute,parent=593,def=1102+664+830,ref=1102+1102,val=0x9222,seg=0,type=lab"%lit;
  "sym	id=593,name=""op_tick_62_page_54"",addrsize=absolute,scope=1,def=1102+664+262,val=0x91F1,seg=0,type=lab"%lit;
  "sym	id=594,name=""@D"",addrsize=absolute,parent=595,def=1102+779+823,ref=1102+1102,val=0x91EE,seg=0,type=lab"%lit;
  "sym	id=595,name=""op_tick_60_page_54"",addrsize=absolute,scope=1,def=1102+779+725,val=0x91BD,seg=0,type=lab"%lit;
  "sym	id=596,name=""@D"",addrsize=absolute,parent=597,def=1102+510+1188,ref=1102+1102,val=0x91BA,seg=0,type=lab"%lit;
  "sym	id=597,name=""op_tick_58_page_54"",addrsize=absolute,scope=1,def=1102+510+986,val=0x9189,seg=0,type=lab"%lit;
  "sym	id=598,name=""@D"",addrsize=absolute,parent=599,def=1102+704+801,ref=1102+1102,val=0x9186,seg=0,type=lab"%lit;
  "sym	id=599,name=""op_tick_56_page_54"",addrsize=absolute,scope=1,def=1102+704+1286,val=0x9155,seg=0,type=lab"%lit;
  "sym	id=600,name=""@D"",addrsize=absolute,parent=601,def=1102+621+1022,ref=1102+1102,val=0x9152,seg=0,type=lab"%lit;
  "sym	id=601,name=""op_tick_54_page_54"",addrsize=absolute,scope=1,def=1102+621+1201,val=0x9121,seg=0,type=lab"%lit;
  "sym	id=602,name=""op_tick_52_page_54"",addrsize=absolute,scope=1,def=1102+884+153,val=0x90F6,seg=0,type=lab"%lit;
  "sym	id=603,name=""op_tick_50_page_54"",addrsize=absolute,scope=1,def=1102+114+962,val=0x90CE,seg=0,type=lab"%lit;
  "sym	id=604,name=""op_tick_48_page_54"",addrsize=absolute,scope=1,def=1102+1026+439,val=0x90A5,seg=0,type=lab"%lit;
  "sym	id=605,name=""op_tick_46_page_54"",addrsize=absolute,scope=1,def=1102+647+1044,val=0x9080,seg=0,type=lab"%lit;
  "sym	id=606,name=""op_tick_44_page_54"",addrsize=absolute,scope=1,def=1102+268+546,val=0x905A,seg=0,type=lab"%lit;
  "sym	id=607,name=""op_tick_42_page_54"",addrsize=absolute,scope=1,def=1102+62+67,val=0x9037,seg=0,type=lab"%lit;
  "sym	id=608,name=""op_tick_40_page_54"",addrsize=absolute,scope=1,def=1102+1114+1222,val=0x9014,seg=0,type=lab"%lit;
  "sym	id=609,name=""op_tick_38_page_54"",addrsize=absolute,scope=1,def=1102+609+1365,val=0x8FF4,seg=0,type=lab"%lit;
  "sym	id=610,name=""@D"",addrsize=absolute,parent=611,def=1102+1236+1293,ref=1102+1102,val=0x8FF1,seg=0,type=lab"%lit;
  "sym	id=611,name=""op_tick_36_page_54"",addrsize=absolute,scope=1,def=1102+1236+860,val=0x8FC0,seg=0,type=lab"%lit;
  "sym	id=612,name=""op_tick_34_page_54"",addrsize=absolute,scope=1,def=1102+1036+1004,val=0x8F9A,seg=0,type=lab"%lit;
  "sym	id=613,name=""op_tick_32_page_54"",addrsize=absolute,scope=1,def=1102+1029+642,val=0x8F7E,seg=0,type=lab"%lit;
  "sym	id=614,name=""op_tick_30_page_54"",addrsize=absolute,scope=1,def=1102+1017+1037,val=0x8F61,seg=0,type=lab"%lit;
  "sym	id=615,name=""op_tick_28_page_54"",addrsize=absolute,scope=1,def=1102+176+212,val=0x8F48,seg=0,type=lab"%lit;
  "sym	id=616,name=""op_tick_26_page_54"",addrsize=absolute,scope=1,def=1102+218+580,val=0x8F2E,seg=0,type=lab"%lit;
  "sym	id=617,name=""op_tick_24_page_54"",addrsize=absolute,scope=1,def=1102+1223+678,val=0x8F17,seg=0,type=lab"%lit;
  "sym	id=618,name=""op_tick_22_page_54"",addrsize=absolute,scope=1,def=1102+1307+1192,val=0x8F00,seg=0,type=lab"%lit;
  "sym	id=619,name=""op_tick_20_page_54"",addrsize=absolute,scope=1,def=1102+1277+32,val=0x8EEC,seg=0,type=lab"%lit;
  "sym	id=620,name=""@D"",addrsize=absolute,parent=621,def=1102+98+504,ref=1102+1102,val=0x8EE9,seg=0,type=lab"%lit;
  "sym	id=621,name=""op_tick_18_page_54"",addrsize=absolute,scope=1,def=1102+98+1202,val=0x8EB8,seg=0,type=lab"%lit;
  "sym	id=622,name=""op_tick_16_page_54"",addrsize=absolute,scope=1,def=1102+923+820,val=0x8EA1,seg=0,type=lab"%lit;
  "sym	id=623,name=""op_tick_14_page_54"",addrsize=absolute,scope=1,def=1102+304+13,val=0x8E91,seg=0,type=lab"%lit;
  "sym	id=624,name=""op_tick_12_page_54"",addrsize=absolute,scope=1,def=1102+1148+767,val=0x8E80,seg=0,type=lab"%lit;
  "sym	id=625,name=""op_tick_10_page_54"",addrsize=absolute,scope=1,def=1102+743+943,val=0x8E73,seg=0,type=lab"%lit;
  "sym	id=626,name=""op_tick_8_page_54"",addrsize=absolute,scope=1,def=1102+370+821,val=0x8E65,seg=0,type=lab"%lit;
  "sym	id=627,name=""_op_tick_page_54_tail_8"",addrsize=absolute,scope=1,def=1102+577+630+124,val=0x8E5F,seg=0,type=lab"%lit;
  "sym	id=628,name=""_op_tick_page_54_tail_12"",addrsize=absolute,scope=1,def=1102+577+1048+124,ref=1102,val=0x8E5C,seg=0,type=lab"%lit;
  "sym	id=629,name=""_op_tick_6_page_54_jmp"",addrsize=absolute,scope=1,def=1102+577+757,ref=1102+1102+1102,val=0x8E62,seg=0,type=lab"%lit;
  "sym	id=630,name=""_op_tick_page_54_tail_16"",addrsize=absolute,scope=1,def=1102+577+178+124,ref=1102,val=0x8E59,seg=0,type=lab"%lit;
  "sym	id=631,name=""_op_tick_page_54_tail_20"",addrsize=absolute,scope=1,def=1102+577+682+124,ref=1102+1102,val=0x8E56,seg=0,type=lab"%lit;
  "sym	id=632,name=""_op_tick_page_54_tail_25"",addrsize=absolute,scope=1,def=1102+577+1145+124,val=0x8E53,seg=0,type=lab"%lit;
  "sym	id=633,name=""_op_tick_page_54_tail_29"",addrsize=absolute,scope=1,def=1102+577+1264+124,val=0x8E50,seg=0,type=lab"%lit;
  "sym	id=634,name=""_op_tick_page_54_tail_34"",addrsize=absolute,scope=1,def=1102+577+485+124,ref=1102,val=0x8E4D,seg=0,type=lab"%lit;
  "sym	id=635,name=""_op_tick_page_54_tail_38"",addrsize=absolute,scope=1,def=1102+577+554+124,ref=1102,val=0x8E4A,seg=0,type=lab"%lit;
  "sym	id=636,name=""_op_tick_page_54_tail_43"",addrsize=absolute,scope=1,def=1102+577+1348+124,ref=1102,val=0x8E47,seg=0,type=lab"%lit;
  "sym	id=637,name=""_op_tick_page_54_tail_47"",addrsize=absolute,scope=1,def=1102+577+776+124,val=0x8E44,seg=0,type=lab"%lit;
  "sym	id=638,name=""_op_tick_page_54_tail_52"",addrsize=absolute,scope=1,def=1102+577+671+124,ref=1102,val=0x8E41,seg=0,type=lab"%lit;
  "sym	id=639,name=""_op_tick_page_54_tail_56"",addrsize=absolute,scope=1,def=1102+577+498+124,ref=1102,val=0x8E3E,seg=0,type=lab"%lit;
  "sym	id=640,name=""_op_tick_page_54_tail_60"",addrsize=absolute,scope=1,def=1102+577+1265+124,val=0x8E3B,seg=0,type=lab"%lit;
  "sym	id=641,name=""op_tick_6_page_54"",addrsize=absolute,scope=1,def=1102+577+824,val=0x8E32,seg=0,type=lab"%lit;
  "sym	id=642,name=""_op_tick_page_54_tail_7"",addrsize=absolute,scope=1,def=1102+373+903+124,val=0x8E2C,seg=0,type=lab"%lit;
  "sym	id=643,name=""_op_tick_page_54_tail_11"",addrsize=absolute,scope=1,def=1102+373+1273+124,val=0x8E29,seg=0,type=lab"%lit;
  "sym	id=644,name=""_op_tick_4_page_54_jmp"",addrsize=absolute,scope=1,def=1102+373+241,ref=1102+1102,val=0x8E2F,seg=0,type=lab"%lit;
  "sym	id=645,name=""_op_tick_page_54_tail_15"",addrsize=absolute,scope=1,def=1102+373+585+124,ref=1102,val=0x8E26,seg=0,type=lab"%lit;
  "sym	id=646,name=""_op_tick_page_54_tail_19"",addrsize=absolute,scope=1,def=1102+373+277+124,ref=1102,val=0x8E23,seg=0,type=lab"%lit;
  "sym	id=647,name=""_op_tick_page_54_tail_24"",addrsize=absolute,scope=1,def=1102+373+518+124,ref=1102+1102,val=0x8E20,seg=0,type=lab"%lit;
  "sym	id=648,name=""_op_tick_page_54_tail_28"",addrsize=absolute,scope=1,def=1102+373+164+124,ref=1102,val=0x8E1D,seg=0,type=lab"%lit;
  "sym	id=649,name=""_op_tick_page_54_tail_33"",addrsize=absolute,scope=1,def=1102+373+154+124,ref=1102,val=0x8E1A,seg=0,type=lab"%lit;
  "sym	id=650,name=""_op_tick_page_54_tail_37"",addrsize=absolute,scope=1,def=1102+373+1257+124,ref=1102,val=0x8E17,seg=0,type=lab"%lit;
  "sym	id=651,name=""_op_tick_page_54_tail_42"",addrsize=absolute,scope=1,def=1102+373+1302+124,ref=1102+1102,val=0x8E14,seg=0,type=lab"%lit;
  "sym	id=652,name=""_op_tick_page_54_tail_46"",addrsize=absolute,scope=1,def=1102+373+805+124,ref=1102,val=0x8E11,seg=0,type=lab"%lit;
  "sym	id=653,name=""_op_tick_page_54_tail_51"",addrsize=absolute,scope=1,def=1102+373+1124+124,ref=1102,val=0x8E0E,seg=0,type=lab"%lit;
  "sym	id=654,name=""_op_tick_page_54_tail_55"",addrsize=absolute,scope=1,def=1102+373+323+124,ref=1102,val=0x8E0B,seg=0,type=lab"%lit;
  "sym	id=655,name=""_op_tick_page_54_tail_59"",addrsize=absolute,scope=1,def=1102+373+1142+124,val=0x8E08,seg=0,type=lab"%lit;
  "sym	id=656,name=""op_tick_4_page_54"",addrsize=absolute,scope=1,def=1102+373+1062,val=0x8DFE,seg=0,type=lab"%lit;
  "sym	id=657,name=""@D"",addrsize=absolute,parent=658,def=1089+138+254,ref=1089+1089,val=0x8DFB,seg=0,type=lab"%lit;
  "sym	id=658,name=""op_tick_66_page_53"",addrsize=absolute,scope=1,def=1089+138+697,val=0x8DCA,seg=0,type=lab"%lit;
  "sym	id=659,name=""@D"",addrsize=absolute,parent=660,def=1089+1001+700,ref=1089+1089,val=0x8DC7,seg=0,type=lab"%lit;
  "sym	id=660,name=""op_tick_64_page_53"",addrsize=absolute,scope=1,def=1089+1001+979,val=0x8D96,seg=0,type=lab"%lit;
  "sym	id=661,name=""@D"",addrsize=absolute,parent=662,def=1089+664+830,ref=1089+1089,val=0x8D93,seg=0,type=lab"%lit;
  "sym	id=662,name=""op_tick_62_page_53"",addrsize=absolute,scope=1,def=1089+664+262,val=0x8D62,seg=0,type=lab"%lit;
  "sym	id=663,name=""@D"",addrsize=absolute,parent=664,def=1089+779+823,ref=1089+1089,val=0x8D5F,seg=0,type=lab"%lit;
  "sym	id=664,name=""op_tick_60_page_53"",addrsize=absolute,scope=1,def=1089+779+725,val=0x8D2E,seg=0,type=lab"%lit;
  "sym	id=665,name=""@D"",addrsize=absolute,parent=666,def=1089+510+1188,ref=1089+1089,val=0x8D2B,seg=0,type=lab"%lit;
  "sym	id=666,name=""op_tick_58_page_53"",addrsize=absolute,scope=1,def=1089+510+986,val=0x8CFA,seg=0,type=lab"%lit;
  "sym	id=667,name=""@D"",addrsize=absolute,parent=668,def=1089+704+801,ref=1089+1089,val=0x8CF7,seg=0,type=lab"%lit;
  "sym	id=668,name=""op_tick_56_page_53"",addrsize=absolute,scope=1,def=1089+704+1286,val=0x8CC6,seg=0,type=lab"%lit;
  "sym	id=669,name=""@D"",addrsize=absolute,parent=670,def=1089+621+1022,ref=1089+1089,val=0x8CC3,seg=0,type=lab"%lit;
  "sym	id=670,name=""op_tick_54_page_53"",addrsize=absolute,scope=1,def=1089+621+1201,val=0x8C92,seg=0,type=lab"%lit;
  "sym	id=671,name=""op_tick_52_page_53"",addrsize=absolute,scope=1,def=1089+884+153,val=0x8C67,seg=0,type=lab"%lit;
  "sym	id=672,name=""op_tick_50_page_53"",addrsize=absolute,scope=1,def=1089+114+962,val=0x8C3F,seg=0,type=lab"%lit;
  "sym	id=673,name=""op_tick_48_page_53"",addrsize=absolute,scope=1,def=1089+1026+439,val=0x8C16,seg=0,type=lab"%lit;
  "sym	id=674,name=""op_tick_46_page_53"",addrsize=absolute,scope=1,def=1089+647+1044,val=0x8BF1,seg=0,type=lab"%lit;
  "sym	id=675,name=""op_tick_44_page_53"",addrsize=absolute,scope=1,def=1089+268+546,val=0x8BCB,seg=0,type=lab"%lit;
  "sym	id=676,name=""op_tick_42_page_53"",addrsize=absolute,scope=1,def=1089+62+67,val=0x8BA8,seg=0,type=lab"%lit;
  "sym	id=677,name=""op_tick_40_page_53"",addrsize=absolute,scope=1,def=1089+1114+1222,val=0x8B85,seg=0,type=lab"%lit;
  "sym	id=678,name=""op_tick_38_page_53"",addrsize=absolute,scope=1,def=1089+609+1365,val=0x8B65,seg=0,type=lab"%lit;
  "sym	id=679,name=""@D"",addrsize=absolute,parent=680,def=1089+1236+1293,ref=1089+1089,val=0x8B62,seg=0,type=lab"%lit;
  "sym	id=680,name=""op_tick_36_page_53"",addrsize=absolute,scope=1,def=1089+1236+860,val=0x8B31,seg=0,type=lab"%lit;
  "sym	id=681,name=""op_tick_34_page_53"",addrsize=absolute,scope=1,def=1089+1036+1004,val=0x8B0B,seg=0,type=lab"%lit;
  "sym	id=682,name=""op_tick_32_page_53"",addrsize=absolute,scope=1,def=1089+1029+642,val=0x8AEF,seg=0,type=lab"%lit;
  "sym	id=683,name=""op_tick_30_page_53"",addrsize=absolute,scope=1,def=1089+1017+1037,val=0x8AD2,seg=0,type=lab"%lit;
  "sym	id=684,name=""op_tick_28_page_53"",addrsize=absolute,scope=1,def=1089+176+212,val=0x8AB9,seg=0,type=lab"%lit;
  "sym	id=685,name=""op_tick_26_page_53"",addrsize=absolute,scope=1,def=1089+218+580,val=0x8A9F,seg=0,type=lab"%lit;
  "sym	id=686,name=""op_tick_24_page_53"",addrsize=absolute,scope=1,def=1089+1223+678,val=0x8A88,seg=0,type=lab"%lit;
  "sym	id=687,name=""op_tick_22_page_53"",addrsize=absolute,scope=1,def=1089+1307+1192,val=0x8A71,seg=0,type=lab"%lit;
  "sym	id=688,name=""op_tick_20_page_53"",addrsize=absolute,scope=1,def=1089+1277+32,val=0x8A5D,seg=0,type=lab"%lit;
  "sym	id=689,name=""@D"",addrsize=absolute,parent=690,def=1089+98+504,ref=1089+1089,val=0x8A5A,seg=0,type=lab"%lit;
  "sym	id=690,name=""op_tick_18_page_53"",addrsize=absolute,scope=1,def=1089+98+1202,val=0x8A29,seg=0,type=lab"%lit;
  "sym	id=691,name=""op_tick_16_page_53"",addrsize=absolute,scope=1,def=1089+923+820,val=0x8A12,seg=0,type=lab"%lit;
  "sym	id=692,name=""op_tick_14_page_53"",addrsize=absolute,scope=1,def=1089+304+13,val=0x8A02,seg=0,type=lab"%lit;
  "sym	id=693,name=""op_tick_12_page_53"",addrsize=absolute,scope=1,def=1089+1148+767,val=0x89F1,seg=0,type=lab"%lit;
  "sym	id=694,name=""op_tick_10_page_53"",addrsize=absolute,scope=1,def=1089+743+943,val=0x89E4,seg=0,type=lab"%lit;
  "sym	id=695,name=""op_tick_8_page_53"",addrsize=absolute,scope=1,def=1089+370+821,val=0x89D6,seg=0,type=lab"%lit;
  "sym	id=696,name=""_op_tick_page_53_tail_8"",addrsize=absolute,scope=1,def=1089+577+630+124,val=0x89D0,seg=0,type=lab"%lit;
  "sym	id=697,name=""_op_tick_page_53_tail_12"",addrsize=absolute,scope=1,def=1089+577+1048+124,ref=1089,val=0x89CD,seg=0,type=lab"%lit;
  "sym	id=698,name=""_op_tick_6_page_53_jmp"",addrsize=absolute,scope=1,def=1089+577+757,ref=1089+1089+1089,val=0x89D3,seg=0,type=lab"%lit;
  "sym	id=699,name=""_op_tick_page_53_tail_16"",addrsize=absolute,scope=1,def=1089+577+178+124,ref=1089,val=0x89CA,seg=0,type=lab"%lit;
  "sym	id=700,name=""_op_tick_page_53_tail_20"",addrsize=absolute,scope=1,def=1089+577+682+124,ref=1089+1089,val=0x89C7,seg=0,type=lab"%lit;
  "sym	id=701,name=""_op_tick_page_53_tail_25"",addrsize=absolute,scope=1,def=1089+577+1145+124,val=0x89C4,seg=0,type=lab"%lit;
  "sym	id=702,name=""_op_tick_page_53_tail_29"",addrsize=absolute,scope=1,def=1089+577+1264+124,val=0x89C1,seg=0,type=lab"%lit;
  "sym	id=703,name=""_op_tick_page_53_tail_34"",addrsize=absolute,scope=1,def=1089+577+485+124,ref=1089,val=0x89BE,seg=0,type=lab"%lit;
  "sym	id=704,name=""_op_tick_page_53_tail_38"",addrsize=absolute,scope=1,def=1089+577+554+124,ref=1089,val=0x89BB,seg=0,type=lab"%lit;
  "sym	id=705,name=""_op_tick_page_53_tail_43"",addrsize=absolute,scope=1,def=1089+577+1348+124,ref=1089,val=0x89B8,seg=0,type=lab"%lit;
  "sym	id=706,name=""_op_tick_page_53_tail_47"",addrsize=absolute,scope=1,def=1089+577+776+124,val=0x89B5,seg=0,type=lab"%lit;
  "sym	id=707,name=""_op_tick_page_53_tail_52"",addrsize=absolute,scope=1,def=1089+577+671+124,ref=1089,val=0x89B2,seg=0,type=lab"%lit;
  "sym	id=708,name=""_op_tick_page_53_tail_56"",addrsize=absolute,scope=1,def=1089+577+498+124,ref=1089,val=0x89AF,seg=0,type=lab"%lit;
  "sym	id=709,name=""_op_tick_page_53_tail_60"",addrsize=absolute,scope=1,def=1089+577+1265+124,val=0x89AC,seg=0,type=lab"%lit;
  "sym	id=710,name=""op_tick_6_page_53"",addrsize=absolute,scope=1,def=1089+577+824,val=0x89A3,seg=0,type=lab"%lit;
  "sym	id=711,name=""_op_tick_page_53_tail_7"",addrsize=absolute,scope=1,def=1089+373+903+124,val=0x899D,seg=0,type=lab"%lit;
  "sym	id=712,name=""_op_tick_page_53_tail_11"",addrsize=absolute,scope=1,def=1089+373+1273+124,val=0x899A,seg=0,type=lab"%lit;
  "sym	id=713,name=""_op_tick_4_page_53_jmp"",addrsize=absolute,scope=1,def=1089+373+241,ref=1089+1089,val=0x89A0,seg=0,type=lab"%lit;
  "sym	id=714,name=""_op_tick_page_53_tail_15"",addrsize=absolute,scope=1,def=1089+373+585+124,ref=1089,val=0x8997,seg=0,type=lab"%lit;
  "sym	id=715,name=""_op_tick_page_53_tail_19"",addrsize=absolute,scope=1,def=1089+373+277+124,ref=1089,val=0x8994,seg=0,type=lab"%lit;
  "sym	id=716,name=""_op_tick_page_53_tail_24"",addrsize=absolute,scope=1,def=1089+373+518+124,ref=1089+1089,val=0x8991,seg=0,type=lab"%lit;
  "sym	id=717,name=""_op_tick_page_53_tail_28"",addrsize=absolute,scope=1,def=1089+373+164+124,ref=1089,val=0x898E,seg=0,type=lab"%lit;
  "sym	id=718,name=""_op_tick_page_53_tail_33"",addrsize=absolute,scope=1,def=1089+373+154+124,ref=1089,val=0x898B,seg=0,type=lab"%lit;
  "sym	id=719,name=""_op_tick_page_53_tail_37"",addrsize=absolute,scope=1,def=1089+373+1257+124,ref=1089,val=0x8988,seg=0,type=lab"%lit;
  "sym	id=720,name=""_op_tick_page_53_tail_42"",addrsize=absolute,scope=1,def=1089+373+1302+124,ref=1089+1089,val=0x8985,seg=0,type=lab"%lit;
  "sym	id=721,name=""_op_tick_page_53_tail_46"",addrsize=absolute,scope=1,def=1089+373+805+124,ref=1089,val=0x8982,seg=0,type=lab"%lit;
  "sym	id=722,name=""_op_tick_page_53_tail_51"",addrsize=absolute,scope=1,def=1089+373+1124+124,ref=1089,val=0x897F,seg=0,type=lab"%lit;
  "sym	id=723,name=""_op_tick_page_53_tail_55"",addrsize=absolute,scope=1,def=1089+373+323+124,ref=1089,val=0x897C,seg=0,type=lab"%lit;
  "sym	id=724,name=""_op_tick_page_53_tail_59"",addrsize=absolute,scope=1,def=1089+373+1142+124,val=0x8979,seg=0,type=lab"%lit;
  "sym	id=725,name=""op_tick_4_page_53"",addrsize=absolute,scope=1,def=1089+373+1062,val=0x896F,seg=0,type=lab"%lit;
  "sym	id=726,name=""@D"",addrsize=absolute,parent=727,def=777+138+254,ref=777+777,val=0x896C,seg=0,type=lab"%lit;
  "sym	id=727,name=""op_tick_66_page_52"",addrsize=absolute,scope=1,def=777+138+697,val=0x893B,seg=0,type=lab"%lit;
  "sym	id=728,name=""@D"",addrsize=absolute,parent=729,def=777+1001+700,ref=777+777,val=0x8938,seg=0,type=lab"%lit;
  "sym	id=729,name=""op_tick_64_page_52"",addrsize=absolute,scope=1,def=777+1001+979,val=0x8907,seg=0,type=lab"%lit;
  "sym	id=730,name=""@D"",addrsize=absolute,parent=731,def=777+664+830,ref=777+777,val=0x8904,seg=0,type=lab"%lit;
  "sym	id=731,name=""op_tick_62_page_52"",addrsize=absolute,scope=1,def=777+664+262,val=0x88D3,seg=0,type=lab"%lit;
  "sym	id=732,name=""@D"",addrsize=absolute,parent=733,def=777+779+823,ref=777+777,val=0x88D0,seg=0,type=lab"%lit;
  "sym	id=733,name=""op_tick_60_page_52"",addrsize=absolute,scope=1,def=777+779+725,val=0x889F,seg=0,type=lab"%lit;
  "sym	id=734,name=""@D"",addrsize=absolute,parent=735,def=777+510+1188,ref=777+777,val=0x889C,seg=0,type=lab"%lit;
  "sym	id=735,name=""op_tick_58_page_52"",addrsize=absolute,scope=1,def=777+510+986,val=0x886B,seg=0,type=lab"%lit;
  "sym	id=736,name=""@D"",addrsize=absolute,parent=737,def=777+704+801,ref=777+777,val=0x8868,seg=0,type=lab"%lit;
  "sym	id=737,name=""op_tick_56_page_52"",addrsize=absolute,scope=1,def=777+704+1286,val=0x8837,seg=0,type=lab"%lit;
  "sym	id=738,name=""@D"",addrsize=absolute,parent=739,def=777+621+1022,ref=777+777,val=0x8834,seg=0,type=lab"%lit;
  "sym	id=739,name=""op_tick_54_page_52"",addrsize=absolute,scope=1,def=777+621+1201,val=0x8803,seg=0,type=lab"%lit;
  "sym	id=740,name=""op_tick_52_page_52"",addrsize=absolute,scope=1,def=777+884+153,val=0x87D8,seg=0,type=lab"%lit;
  "sym	id=741,name=""op_tick_50_page_52"",addrsize=absolute,scope=1,def=777+114+962,val=0x87B0,seg=0,type=lab"%lit;
  "sym	id=742,name=""op_tick_48_page_52"",addrsize=absolute,scope=1,def=777+1026+439,val=0x8787,seg=0,type=lab"%lit;
  "sym	id=743,name=""op_tick_46_page_52"",addrsize=absolute,scope=1,def=777+647+1044,val=0x8762,seg=0,type=lab"%lit;
  "sym	id=744,name=""op_tick_44_page_52"",addrsize=absolute,scope=1,def=777+268+546,val=0x873C,seg=0,type=lab"%lit;
  "sym	id=745,name=""op_tick_42_page_52"",addrsize=absolute,scope=1,def=777+62+67,val=0x8719,seg=0,type=lab"%lit;
  "sym	id=746,name=""op_tick_40_page_52"",addrsize=absolute,scope=1,def=777+1114+1222,val=0x86F6,seg=0,type=lab"%lit;
  "sym	id=747,name=""op_tick_38_page_52"",addrsize=absolute,scope=1,def=777+609+1365,val=0x86D6,seg=0,type=lab"%lit;
  "sym	id=748,name=""@D"",addrsize=absolute,parent=749,def=777+1236+1293,ref=777+777,val=0x86D3,seg=0,type=lab"%lit;
  "sym	id=749,name=""op_tick_36_page_52"",addrsize=absolute,scope=1,def=777+1236+860,val=0x86A2,seg=0,type=lab"%lit;
  "sym	id=750,name=""op_tick_34_page_52"",addrsize=absolute,scope=1,def=777+1036+1004,val=0x867C,seg=0,type=lab"%lit;
  "sym	id=751,name=""op_tick_32_page_52"",addrsize=absolute,scope=1,def=777+1029+642,val=0x8660,seg=0,type=lab"%lit;
  "sym	id=752,name=""op_tick_30_page_52"",addrsize=absolute,scope=1,def=777+1017+1037,val=0x8643,seg=0,type=lab"%lit;
  "sym	id=753,name=""op_tick_28_page_52"",addrsize=absolute,scope=1,def=777+176+212,val=0x862A,seg=0,type=lab"%lit;
  "sym	id=754,name=""op_tick_26_page_52"",addrsize=absolute,scope=1,def=777+218+580,val=0x8610,seg=0,type=lab"%lit;
  "sym	id=755,name=""op_tick_24_page_52"",addrsize=absolute,scope=1,def=777+1223+678,val=0x85F9,seg=0,type=lab"%lit;
  "sym	id=756,name=""op_tick_22_page_52"",addrsize=absolute,scope=1,def=777+1307+1192,val=0x85E2,seg=0,type=lab"%lit;
  "sym	id=757,name=""op_tick_20_page_52"",addrsize=absolute,scope=1,def=777+1277+32,val=0x85CE,seg=0,type=lab"%lit;
  "sym	id=758,name=""@D"",addrsize=absolute,parent=759,def=777+98+504,ref=777+777,val=0x85CB,seg=0,type=lab"%lit;
  "sym	id=759,name=""op_tick_18_page_52"",addrsize=absolute,scope=1,def=777+98+1202,val=0x859A,seg=0,type=lab"%lit;
  "sym	id=760,name=""op_tick_16_page_52"",addrsize=absolute,scope=1,def=777+923+820,val=0x8583,seg=0,type=lab"%lit;
  "sym	id=761,name=""op_tick_14_page_52"",addrsize=absolute,scope=1,def=777+304+13,val=0x8573,seg=0,type=lab"%lit;
  "sym	id=762,name=""op_tick_12_page_52"",addrsize=absolute,scope=1,def=777+1148+767,val=0x8562,seg=0,type=lab"%lit;
  "sym	id=763,name=""op_tick_10_page_52"",addrsize=absolute,scope=1,def=777+743+943,val=0x8555,seg=0,type=lab"%lit;
  "sym	id=764,name=""op_tick_8_page_52"",addrsize=absolute,scope=1,def=777+370+821,val=0x8547,seg=0,type=lab"%lit;
  "sym	id=765,name=""_op_tick_page_52_tail_8"",addrsize=absolute,scope=1,def=777+577+630+124,val=0x8541,seg=0,type=lab"%lit;
  "sym	id=766,name=""_op_tick_page_52_tail_12"",addrsize=absolute,scope=1,def=777+577+1048+124,ref=777,val=0x853E,seg=0,type=lab"%lit;
  "sym	id=767,name=""_op_tick_6_page_52_jmp"",addrsize=absolute,scope=1,def=777+577+757,ref=777+777+777,val=0x8544,seg=0,type=lab"%lit;
  "sym	id=768,name=""_op_tick_page_52_tail_16"",addrsize=absolute,scope=1,def=777+577+178+124,ref=777,val=0x853B,seg=0,type=lab"%lit;
  "sym	id=769,name=""_op_tick_page_52_tail_20"",addrsize=absolute,scope=1,def=777+577+682+124,ref=777+777,val=0x8538,seg=0,type=lab"%lit;
  "sym	id=770,name=""_op_tick_page_52_tail_25"",addrsize=absolute,scope=1,def=777+577+1145+124,val=0x8535,seg=0,type=lab"%lit;
  "sym	id=771,name=""_op_tick_page_52_tail_29"",addrsize=absolute,scope=1,def=777+577+1264+124,val=0x8532,seg=0,type=lab"%lit;
  "sym	id=772,name=""_op_tick_page_52_tail_34"",addrsize=absolute,scope=1,def=777+577+485+124,ref=777,val=0x852F,seg=0,type=lab"%lit;
  "sym	id=773,name=""_op_tick_page_52_tail_38"",addrsize=absolute,scope=1,def=777+577+554+124,ref=777,val=0x852C,seg=0,type=lab"%lit;
  "sym	id=774,name=""_op_tick_page_52_tail_43"",addrsize=absolute,scope=1,def=777+577+1348+124,ref=777,val=0x8529,seg=0,type=lab"%lit;
  "sym	id=775,name=""_op_tick_page_52_tail_47"",addrsize=absolute,scope=1,def=777+577+776+124,val=0x8526,seg=0,type=lab"%lit;
  "sym	id=776,name=""_op_tick_page_52_tail_52"",addrsize=absolute,scope=1,def=777+577+671+124,ref=777,val=0x8523,seg=0,type=lab"%lit;
  "sym	id=777,name=""_op_tick_page_52_tail_56"",addrsize=absolute,scope=1,def=777+577+498+124,ref=777,val=0x8520,seg=0,type=lab"%lit;
  "sym	id=778,name=""_op_tick_page_52_tail_60"",addrsize=absolute,scope=1,def=777+577+1265+124,val=0x851D,seg=0,type=lab"%lit;
  "sym	id=779,name=""op_tick_6_page_52"",addrsize=absolute,scope=1,def=777+577+824,val=0x8514,seg=0,type=lab"%lit;
  "sym	id=780,name=""_op_tick_page_52_tail_7"",addrsize=absolute,scope=1,def=777+373+903+124,val=0x850E,seg=0,type=lab"%lit;
  "sym	id=781,name=""_op_tick_page_52_tail_11"",addrsize=absolute,scope=1,def=777+373+1273+124,val=0x850B,seg=0,type=lab"%lit;
  "sym	id=782,name=""_op_tick_4_page_52_jmp"",addrsize=absolute,scope=1,def=777+373+241,ref=777+777,val=0x8511,seg=0,type=lab"%lit;
  "sym	id=783,name=""_op_tick_page_52_tail_15"",addrsize=absolute,scope=1,def=777+373+585+124,ref=777,val=0x8508,seg=0,type=lab"%lit;
  "sym	id=784,name=""_op_tick_page_52_tail_19"",addrsize=absolute,scope=1,def=777+373+277+124,ref=777,val=0x8505,seg=0,type=lab"%lit;
  "sym	id=785,name=""_op_tick_page_52_tail_24"",addrsize=absolute,scope=1,def=777+373+518+124,ref=777+777,val=0x8502,seg=0,type=lab"%lit;
  "sym	id=786,name=""_op_tick_page_52_tail_28"",addrsize=absolute,scope=1,def=777+373+164+124,ref=777,val=0x84FF,seg=0,type=lab"%lit;
  "sym	id=787,name=""_op_tick_page_52_tail_33"",addrsize=absolute,scope=1,def=777+373+154+124,ref=777,val=0x84FC,seg=0,type=lab"%lit;
  "sym	id=788,name=""_op_tick_page_52_tail_37"",addrsize=absolute,scope=1,def=777+373+1257+124,ref=777,val=0x84F9,seg=0,type=lab"%lit;
  "sym	id=789,name=""_op_tick_page_52_tail_42"",addrsize=absolute,scope=1,def=777+373+1302+124,ref=777+777,val=0x84F6,seg=0,type=lab"%lit;
  "sym	id=790,name=""_op_tick_page_52_tail_46"",addrsize=absolute,scope=1,def=777+373+805+124,ref=777,val=0x84F3,seg=0,type=lab"%lit;
  "sym	id=791,name=""_op_tick_page_52_tail_51"",addrsize=absolute,scope=1,def=777+373+1124+124,ref=777,val=0x84F0,seg=0,type=lab"%lit;
  "sym	id=792,name=""_op_tick_page_52_tail_55"",addrsize=absolute,scope=1,def=777+373+323+124,ref=777,val=0x84ED,seg=0,type=lab"%lit;
  "sym	id=793,name=""_op_tick_page_52_tail_59"",addrsize=absolute,scope=1,def=777+373+1142+124,val=0x84EA,seg=0,type=lab"%lit;
  "sym	id=794,name=""op_tick_4_page_52"",addrsize=absolute,scope=1,def=777+373+1062,val=0x84E0,seg=0,type=lab"%lit;
  "sym	id=795,name=""@D"",addrsize=absolute,parent=796,def=100+138+254,ref=100+100,val=0x84DD,seg=0,type=lab"%lit;
  "sym	id=796,name=""op_tick_66_page_51"",addrsize=absolute,scope=1,def=100+138+697,val=0x84AC,seg=0,type=lab"%lit;
  "sym	id=797,name=""@D"",addrsize=absolute,parent=798,def=100+1001+700,ref=100+100,val=0x84A9,seg=0,type=lab"%lit;
  "sym	id=798,name=""op_tick_64_page_51"",addrsize=absolute,scope=1,def=100+1001+979,val=0x8478,seg=0,type=lab"%lit;
  "sym	id=799,name=""@D"",addrsize=absolute,parent=800,def=100+664+830,ref=100+100,val=0x8475,seg=0,type=lab"%lit;
  "sym	id=800,name=""op_tick_62_page_51"",addrsize=absolute,scope=1,def=100+664+262,val=0x8444,seg=0,type=lab"%lit;
  "sym	id=801,name=""@D"",addrsize=absolute,parent=802,def=100+779+823,ref=100+100,val=0x8441,seg=0,type=lab"%lit;
  "sym	id=802,name=""op_tick_60_page_51"",addrsize=absolute,scope=1,def=100+779+725,val=0x8410,seg=0,type=lab"%lit;
  "sym	id=803,name=""@D"",addrsize=absolute,parent=804,def=100+510+1188,ref=100+100,val=0x840D,seg=0,type=lab"%lit;
  "sym	id=804,name=""op_tick_58_page_51"",addrsize=absolute,scope=1,def=100+510+986,val=0x83DC,seg=0,type=lab"%lit;
  "sym	id=805,name=""@D"",addrsize=absolute,parent=806,def=100+704+801,ref=100+100,val=0x83D9,seg=0,type=lab"%lit;
  "sym	id=806,name=""op_tick_56_page_51"",addrsize=absolute,scope=1,def=100+704+1286,val=0x83A8,seg=0,type=lab"%lit;
  "sym	id=807,name=""@D"",addrsize=absolute,parent=808,def=100+621+1022,ref=100+100,val=0x83A5,seg=0,type=lab"%lit;
  "sym	id=808,name=""op_tick_54_page_51"",addrsize=absolute,scope=1,def=100+621+1201,val=0x8374,seg=0,type=lab"%lit;
  "sym	id=809,name=""op_tick_52_page_51"",addrsize=absolute,scope=1,def=100+884+153,val=0x8349,seg=0,type=lab"%lit;
  "sym	id=810,name=""op_tick_50_page_51"",addrsize=absolute,scope=1,def=100+114+962,val=0x8321,seg=0,type=lab"%lit;
  "sym	id=811,name=""op_tick_48_page_51"",addrsize=absolute,scope=1,def=100+1026+439,val=0x82F8,seg=0,type=lab"%lit;
  "sym	id=812,name=""op_tick_46_page_51"",addrsize=absolute,scope=1,def=100+647+1044,val=0x82D3,seg=0,type=lab"%lit;
  "sym	id=813,name=""op_tick_44_page_51"",addrsize=absolute,scope=1,def=100+268+546,val=0x82AD,seg=0,type=lab"%lit;
  "sym	id=814,name=""op_tick_42_page_51"",addrsize=absolute,scope=1,def=100+62+67,val=0x828A,seg=0,type=lab"%lit;
  "sym	id=815,name=""op_tick_40_page_51"",addrsize=absolute,scope=1,def=100+1114+1222,val=0x8267,seg=0,type=lab"%lit;
  "sym	id=816,name=""op_tick_38_page_51"",addrsize=absolute,scope=1,def=100+609+1365,val=0x8247,seg=0,type=lab"%lit;
  "sym	id=817,name=""@D"",addrsize=absolute,parent=818,def=100+1236+1293,ref=100+100,val=0x8244,seg=0,type=lab"%lit;
  "sym	id=818,name=""op_tick_36_page_51"",addrsize=absolute,scope=1,def=100+1236+860,val=0x8213,seg=0,type=lab"%lit;
  "sym	id=819,name=""op_tick_34_page_51"",addrsize=absolute,scope=1,def=100+1036+1004,val=0x81ED,seg=0,type=lab"%lit;
  "sym	id=820,name=""op_tick_32_page_51"",addrsize=absolute,scope=1,def=100+1029+642,val=0x81D1,seg=0,type=lab"%lit;
  "sym	id=821,name=""op_tick_30_page_51"",addrsize=absolute,scope=1,def=100+1017+1037,val=0x81B4,seg=0,type=lab"%lit;
  "sym	id=822,name=""op_tick_28_page_51"",addrsize=absolute,scope=1,def=100+176+212,val=0x819B,seg=0,type=lab"%lit;
  "sym	id=823,name=""op_tick_26_page_51"",addrsize=absolute,scope=1,def=100+218+580,val=0x8181,seg=0,type=lab"%lit;
  "sym	id=824,name=""op_tick_24_page_51"",addrsize=absolute,scope=1,def=100+1223+678,val=0x816A,seg=0,type=lab"%lit;
  "sym	id=825,name=""op_tick_22_page_51"",addrsize=absolute,scope=1,def=100+1307+1192,val=0x8153,seg=0,type=lab"%lit;
  "sym	id=826,name=""op_tick_20_page_51"",addrsize=absolute,scope=1,def=100+1277+32,val=0x813F,seg=0,type=lab"%lit;
  "sym	id=827,name=""@D"",addrsize=absolute,parent=828,def=100+98+504,ref=100+100,val=0x813C,seg=0,type=lab"%lit;
  "sym	id=828,name=""op_tick_18_page_51"",addrsize=absolute,scope=1,def=100+98+1202,val=0x810B,seg=0,type=lab"%lit;
  "sym	id=829,name=""op_tick_16_page_51"",addrsize=absolute,scope=1,def=100+923+820,val=0x80F4,seg=0,type=lab"%lit;
  "sym	id=830,name=""op_tick_14_page_51"",addrsize=absolute,scope=1,def=100+304+13,val=0x80E4,seg=0,type=lab"%lit;
  "sym	id=831,name=""op_tick_12_page_51"",addrsize=absolute,scope=1,def=100+1148+767,val=0x80D3,seg=0,type=lab"%lit;
  "sym	id=832,name=""op_tick_10_page_51"",addrsize=absolute,scope=1,def=100+743+943,val=0x80C6,seg=0,type=lab"%lit;
  "sym	id=833,name=""op_tick_8_page_51"",addrsize=absolute,scope=1,def=100+370+821,val=0x80B8,seg=0,type=lab"%lit;
  "sym	id=834,name=""_op_tick_page_51_tail_8"",addrsize=absolute,scope=1,def=100+577+630+124,val=0x80B2,seg=0,type=lab"%lit;
  "sym	id=835,name=""_op_tick_page_51_tail_12"",addrsize=absolute,scope=1,def=100+577+1048+124,ref=100,val=0x80AF,seg=0,type=lab"%lit;
  "sym	id=836,name=""_op_tick_6_page_51_jmp"",addrsize=absolute,scope=1,def=100+577+757,ref=100+100+100,val=0x80B5,seg=0,type=lab"%lit;
  "sym	id=837,name=""_op_tick_page_51_tail_16"",addrsize=absolute,scope=1,def=100+577+178+124,ref=100,val=0x80AC,seg=0,type=lab"%lit;
  "sym	id=838,name=""_op_tick_page_51_tail_20"",addrsize=absolute,scope=1,def=100+577+682+124,ref=100+100,val=0x80A9,seg=0,type=lab"%lit;
  "sym	id=839,name=""_op_tick_page_51_tail_25"",addrsize=absolute,scope=1,def=100+577+1145+124,val=0x80A6,seg=0,type=lab"%lit;
  "sym	id=840,name=""_op_tick_page_51_tail_29"",addrsize=absolute,scope=1,def=100+577+1264+124,val=0x80A3,seg=0,type=lab"%lit;
  "sym	id=841,name=""_op_tick_page_51_tail_34"",addrsize=absolute,scope=1,def=100+577+485+124,ref=100,val=0x80A0,seg=0,type=lab"%lit;
  "sym	id=842,name=""_op_tick_page_51_tail_38"",addrsize=absolute,scope=1,def=100+577+554+124,ref=100,val=0x809D,seg=0,type=lab"%lit;
  "sym	id=843,name=""_op_tick_page_51_tail_43"",addrsize=absolute,scope=1,def=100+577+1348+124,ref=100,val=0x809A,seg=0,type=lab"%lit;
  "sym	id=844,name=""_op_tick_page_51_tail_47"",addrsize=absolute,scope=1,def=100+577+776+124,val=0x8097,seg=0,type=lab"%lit;
  "sym	id=845,name=""_op_tick_page_51_tail_52"",addrsize=absolute,scope=1,def=100+577+671+124,ref=100,val=0x8094,seg=0,type=lab"%lit;
  "sym	id=846,name=""_op_tick_page_51_tail_56"",addrsize=absolute,scope=1,def=100+577+498+124,ref=100,val=0x8091,seg=0,type=lab"%lit;
  "sym	id=847,name=""_op_tick_page_51_tail_60"",addrsize=absolute,scope=1,def=100+577+1265+124,val=0x808E,seg=0,type=lab"%lit;
  "sym	id=848,name=""op_tick_6_page_51"",addrsize=absolute,scope=1,def=100+577+824,val=0x8085,seg=0,type=lab"%lit;
  "sym	id=849,name=""_op_tick_page_51_tail_7"",addrsize=absolute,scope=1,def=100+373+903+124,val=0x807F,seg=0,type=lab"%lit;
  "sym	id=850,name=""_op_tick_page_51_tail_11"",addrsize=absolute,scope=1,def=100+373+1273+124,val=0x807C,seg=0,type=lab"%lit;
  "sym	id=851,name=""_op_tick_4_page_51_jmp"",addrsize=absolute,scope=1,def=100+373+241,ref=100+100,val=0x8082,seg=0,type=lab"%lit;
  "sym	id=852,name=""_op_tick_page_51_tail_15"",addrsize=absolute,scope=1,def=100+373+585+124,ref=100,val=0x8079,seg=0,type=lab"%lit;
  "sym	id=853,name=""_op_tick_page_51_tail_19"",addrsize=absolute,scope=1,def=100+373+277+124,ref=100,val=0x8076,seg=0,type=lab"%lit;
  "sym	id=854,name=""_op_tick_page_51_tail_24"",addrsize=absolute,scope=1,def=100+373+518+124,ref=100+100,val=0x8073,seg=0,type=lab"%lit;
  "sym	id=855,name=""_op_tick_page_51_tail_28"",addrsize=absolute,scope=1,def=100+373+164+124,ref=100,val=0x8070,seg=0,type=lab"%lit;
  "sym	id=856,name=""_op_tick_page_51_tail_33"",addrsize=absolute,scope=1,def=100+373+154+124,ref=100,val=0x806D,seg=0,type=lab"%lit;
  "sym	id=857,name=""_op_tick_page_51_tail_37"",addrsize=absolute,scope=1,def=100+373+1257+124,ref=100,val=0x806A,seg=0,type=lab"%lit;
  "sym	id=858,name=""_op_tick_page_51_tail_42"",addrsize=absolute,scope=1,def=100+373+1302+124,ref=100+100,val=0x8067,seg=0,type=lab"%lit;
  "sym	id=859,name=""_op_tick_page_51_tail_46"",addrsize=absolute,scope=1,def=100+373+805+124,ref=100,val=0x8064,seg=0,type=lab"%lit;
  "sym	id=860,name=""_op_tick_page_51_tail_51"",addrsize=absolute,scope=1,def=100+373+1124+124,ref=100,val=0x8061,seg=0,type=lab"%lit;
  "sym	id=861,name=""_op_tick_page_51_tail_55"",addrsize=absolute,scope=1,def=100+373+323+124,ref=100,val=0x805E,seg=0,type=lab"%lit;
  "sym	id=862,name=""_op_tick_page_51_tail_59"",addrsize=absolute,scope=1,def=100+373+1142+124,val=0x805B,seg=0,type=lab"%lit;
  "sym	id=863,name=""op_tick_4_page_51"",addrsize=absolute,scope=1,def=100+373+1062,val=0x8051,seg=0,type=lab"%lit;
  "sym	id=864,name=""@D"",addrsize=absolute,parent=865,def=1378+138+254,ref=1378+1378,val=0x804E,seg=0,type=lab"%lit;
  "sym	id=865,name=""op_tick_66_page_50"",addrsize=absolute,scope=1,def=1378+138+697,val=0x801D,seg=0,type=lab"%lit;
  "sym	id=866,name=""@D"",addrsize=absolute,parent=867,def=1378+1001+700,ref=1378+1378,val=0x801A,seg=0,type=lab"%lit;
  "sym	id=867,name=""op_tick_64_page_50"",addrsize=absolute,scope=1,def=1378+1001+979,val=0x7FE9,seg=0,type=lab"%lit;
  "sym	id=868,name=""@D"",addrsize=absolute,parent=869,def=1378+664+830,ref=1378+1378,val=0x7FE6,seg=0,type=lab"%lit;
  "sym	id=869,name=""op_tick_62_page_50"",addrsize=absolute,scope=1,def=1378+664+262,val=0x7FB5,seg=0,type=lab"%lit;
  "sym	id=870,name=""@D"",addrsize=absolute,parent=871,def=1378+779+823,ref=1378+1378,val=0x7FB2,seg=0,type=lab"%lit;
  "sym	id=871,name=""op_tick_60_page_50"",addrsize=absolute,scope=1,def=1378+779+725,val=0x7F81,seg=0,type=lab"%lit;
  "sym	id=872,name=""@D"",addrsize=absolute,parent=873,def=1378+510+1188,ref=1378+1378,val=0x7F7E,seg=0,type=lab"%lit;
  "sym	id=873,name=""op_tick_58_page_50"",addrsize=absolute,scope=1,def=1378+510+986,val=0x7F4D,seg=0,type=lab"%lit;
  "sym	id=874,name=""@D"",addrsize=absolute,parent=875,def=1378+704+801,ref=1378+1378,val=0x7F4A,seg=0,type=lab"%lit;
  "sym	id=875,name=""op_tick_56_page_50"",addrsize=absolute,scope=1,def=1378+704+1286,val=0x7F19,seg=0,type=lab"%lit;
  "sym	id=876,name=""@D"",addrsize=absolute,parent=877,def=1378+621+1022,ref=1378+1378,val=0x7F16,seg=0,type=lab"%lit;
  "sym	id=877,name=""op_tick_54_page_50"",addrsize=absolute,scope=1,def=1378+621+1201,val=0x7EE5,seg=0,type=lab"%lit;
  "sym	id=878,name=""op_tick_52_page_50"",addrsize=absolute,scope=1,def=1378+884+153,val=0x7EBA,seg=0,type=lab"%lit;
  "sym	id=879,name=""op_tick_50_page_50"",addrsize=absolute,scope=1,def=1378+114+962,val=0x7E92,seg=0,type=lab"%lit;
  "sym	id=880,name=""op_tick_48_page_50"",addrsize=absolute,scope=1,def=1378+1026+439,val=0x7E69,seg=0,type=lab"%lit;
  "sym	id=881,name=""op_tick_46_page_50"",addrsize=absolute,scope=1,def=1378+647+1044,val=0x7E44,seg=0,type=lab"%lit;
  "sym	id=882,name=""op_tick_44_page_50"",addrsize=absolute,scope=1,def=1378+268+546,val=0x7E1E,seg=0,type=lab"%lit;
  "sym	id=883,name=""op_tick_42_page_50"",addrsize=absolute,scope=1,def=1378+62+67,val=0x7DFB,seg=0,type=lab"%lit;
  "sym	id=884,name=""op_tick_40_page_50"",addrsize=absolute,scope=1,def=1378+1114+1222,val=0x7DD8,seg=0,type=lab"%lit;
  "sym	id=885,name=""op_tick_38_page_50"",addrsize=absolute,scope=1,def=1378+609+1365,val=0x7DB8,seg=0,type=lab"%lit;
  "sym	id=886,name=""@D"",addrsize=absolute,parent=887,def=1378+1236+1293,ref=1378+1378,val=0x7DB5,seg=0,type=lab"%lit;
  "sym	id=887,name=""op_tick_36_page_50"",addrsize=absolute,scope=1,def=1378+1236+860,val=0x7D84,seg=0,type=lab"%lit;
  "sym	id=888,name=""op_tick_34_page_50"",addrsize=absolute,scope=1,def=1378+1036+1004,val=0x7D5E,seg=0,type=lab"%lit;
  "sym	id=889,name=""op_tick_32_page_50"",addrsize=absolute,scope=1,def=1378+1029+642,val=0x7D42,seg=0,type=lab"%lit;
  "sym	id=890,name=""op_tick_30_page_50"",addrsize=absolute,scope=1,def=1378+1017+1037,val=0x7D25,seg=0,type=lab"%lit;
  "sym	id=891,name=""op_tick_28_page_50"",addrsize=absolute,scope=1,def=1378+176+212,val=0x7D0C,seg=0,type=lab"%lit;
  "sym	id=892,name=""op_tick_26_page_50"",addrsize=absolute,scope=1,def=1378+218+580,val=0x7CF2,seg=0,type=lab"%lit;
  "sym	id=893,name=""op_tick_24_page_50"",addrsize=absolute,scope=1,def=1378+1223+678,val=0x7CDB,seg=0,type=lab"%lit;
  "sym	id=894,name=""op_tick_22_page_50"",addrsize=absolute,scope=1,def=1378+1307+1192,val=0x7CC4,seg=0,type=lab"%lit;
  "sym	id=895,name=""op_tick_20_page_50"",addrsize=absolute,scope=1,def=1378+1277+32,val=0x7CB0,seg=0,type=lab"%lit;
  "sym	id=896,name=""@D"",addrsize=absolute,parent=897,def=1378+98+504,ref=1378+1378,val=0x7CAD,seg=0,type=lab"%lit;
  "sym	id=897,name=""op_tick_18_page_50"",addrsize=absolute,scope=1,def=1378+98+1202,val=0x7C7C,seg=0,type=lab"%lit;
  "sym	id=898,name=""op_tick_16_page_50"",addrsize=absolute,scope=1,def=1378+923+820,val=0x7C65,seg=0,type=lab"%lit;
  "sym	id=899,name=""op_tick_14_page_50"",addrsize=absolute,scope=1,def=1378+304+13,val=0x7C55,seg=0,type=lab"%lit;
  "sym	id=900,name=""op_tick_12_page_50"",addrsize=absolute,scope=1,def=1378+1148+767,val=0x7C44,seg=0,type=lab"%lit;
  "sym	id=901,name=""op_tick_10_page_50"",addrsize=absolute,scope=1,def=1378+743+943,val=0x7C37,seg=0,type=lab"%lit;
  "sym	id=902,name=""op_tick_8_page_50"",addrsize=absolute,scope=1,def=1378+370+821,val=0x7C29,seg=0,type=lab"%lit;
  "sym	id=903,name=""_op_tick_page_50_tail_8"",addrsize=absolute,scope=1,def=1378+577+630+124,val=0x7C23,seg=0,type=lab"%lit;
  "sym	id=904,name=""_op_tick_page_50_tail_12"",addrsize=absolute,scope=1,def=1378+577+1048+124,ref=1378,val=0x7C20,seg=0,type=lab"%lit;
  "sym	id=905,name=""_op_tick_6_page_50_jmp"",addrsize=absolute,scope=1,def=1378+577+757,ref=1378+1378+1378,val=0x7C26,seg=0,type=lab"%lit;
  "sym	id=906,name=""_op_tick_page_50_tail_16"",addrsize=absolute,scope=1,def=1378+577+178+124,ref=1378,val=0x7C1D,seg=0,type=lab"%lit;
  "sym	id=907,name=""_op_tick_page_50_tail_20"",addrsize=absolute,scope=1,def=1378+577+682+124,ref=1378+1378,val=0x7C1A,seg=0,type=lab"%lit;
  "sym	id=908,name=""_op_tick_page_50_tail_25"",addrsize=absolute,scope=1,def=1378+577+1145+124,val=0x7C17,seg=0,type=lab"%lit;
  "sym	id=909,name=""_op_tick_page_50_tail_29"",addrsize=absolute,scope=1,def=1378+577+1264+124,val=0x7C14,seg=0,type=lab"%lit;
  "sym	id=910,name=""_op_tick_page_50_tail_34"",addrsize=absolute,scope=1,def=1378+577+485+124,ref=1378,val=0x7C11,seg=0,type=lab"%lit;
  "sym	id=911,name=""_op_tick_page_50_tail_38"",addrsize=absolute,scope=1,def=1378+577+554+124,ref=1378,val=0x7C0E,seg=0,type=lab"%lit;
  "sym	id=912,name=""_op_tick_page_50_tail_43"",addrsize=absolute,scope=1,def=1378+577+1348+124,ref=1378,val=0x7C0B,seg=0,type=lab"%lit;
  "sym	id=913,name=""_op_tick_page_50_tail_47"",addrsize=absolute,scope=1,def=1378+577+776+124,val=0x7C08,seg=0,type=lab"%lit;
  "sym	id=914,name=""_op_tick_page_50_tail_52"",addrsize=absolute,scope=1,def=1378+577+671+124,ref=1378,val=0x7C05,seg=0,type=lab"%lit;
  "sym	id=915,name=""_op_tick_page_50_tail_56"",addrsize=absolute,scope=1,def=1378+577+498+124,ref=1378,val=0x7C02,seg=0,type=lab"%lit;
  "sym	id=916,name=""_op_tick_page_50_tail_60"",addrsize=absolute,scope=1,def=1378+577+1265+124,val=0x7BFF,seg=0,type=lab"%lit;
  "sym	id=917,name=""op_tick_6_page_50"",addrsize=absolute,scope=1,def=1378+577+824,val=0x7BF6,seg=0,type=lab"%lit;
  "sym	id=918,name=""_op_tick_page_50_tail_7"",addrsize=absolute,scope=1,def=1378+373+903+124,val=0x7BF0,seg=0,type=lab"%lit;
  "sym	id=919,name=""_op_tick_page_50_tail_11"",addrsize=absolute,scope=1,def=1378+373+1273+124,val=0x7BED,seg=0,type=lab"%lit;
  "sym	id=920,name=""_op_tick_4_page_50_jmp"",addrsize=absolute,scope=1,def=1378+373+241,ref=1378+1378,val=0x7BF3,seg=0,type=lab"%lit;
  "sym	id=921,name=""_op_tick_page_50_tail_15"",addrsize=absolute,scope=1,def=1378+373+585+124,ref=1378,val=0x7BEA,seg=0,type=lab"%lit;
  "sym	id=922,name=""_op_tick_page_50_tail_19"",addrsize=absolute,scope=1,def=1378+373+277+124,ref=1378,val=0x7BE7,seg=0,type=lab"%lit;
  "sym	id=923,name=""_op_tick_page_50_tail_24"",addrsize=absolute,scope=1,def=1378+373+518+124,ref=1378+1378,val=0x7BE4,seg=0,type=lab"%lit;
  "sym	id=924,name=""_op_tick_page_50_tail_28"",addrsize=absolute,scope=1,def=1378+373+164+124,ref=1378,val=0x7BE1,seg=0,type=lab"%lit;
  "sym	id=925,name=""_op_tick_page_50_tail_33"",addrsize=absolute,scope=1,def=1378+373+154+124,ref=1378,val=0x7BDE,seg=0,type=lab"%lit;
  "sym	id=926,name=""_op_tick_page_50_tail_37"",addrsize=absolute,scope=1,def=1378+373+1257+124,ref=1378,val=0x7BDB,seg=0,type=lab"%lit;
  "sym	id=927,name=""_op_tick_page_50_tail_42"",addrsize=absolute,scope=1,def=1378+373+1302+124,ref=1378+1378,val=0x7BD8,seg=0,type=lab"%lit;
  "sym	id=928,name=""_op_tick_page_50_tail_46"",addrsize=absolute,scope=1,def=1378+373+805+124,ref=1378,val=0x7BD5,seg=0,type=lab"%lit;
  "sym	id=929,name=""_op_tick_page_50_tail_51"",addrsize=absolute,scope=1,def=1378+373+1124+124,ref=1378,val=0x7BD2,seg=0,type=lab"%lit;
  "sym	id=930,name=""_op_tick_page_50_tail_55"",addrsize=absolute,scope=1,def=1378+373+323+124,ref=1378,val=0x7BCF,seg=0,type=lab"%lit;
  "sym	id=931,name=""_op_tick_page_50_tail_59"",addrsize=absolute,scope=1,def=1378+373+1142+124,val=0x7BCC,seg=0,type=lab"%lit;
  "sym	id=932,name=""op_tick_4_page_50"",addrsize=absolute,scope=1,def=1378+373+1062,val=0x7BC2,seg=0,type=lab"%lit;
  "sym	id=933,name=""@D"",addrsize=absolute,parent=934,def=219+138+254,ref=219+219,val=0x7BBF,seg=0,type=lab"%lit;
  "sym	id=934,name=""op_tick_66_page_49"",addrsize=absolute,scope=1,def=219+138+697,val=0x7B8E,seg=0,type=lab"%lit;
  "sym	id=935,name=""@D"",addrsize=absolute,parent=936,def=219+1001+700,ref=219+219,val=0x7B8B,seg=0,type=lab"%lit;
  "sym	id=936,name=""op_tick_64_page_49"",addrsize=absolute,scope=1,def=219+1001+979,val=0x7B5A,seg=0,type=lab"%lit;
  "sym	id=937,name=""@D"",addrsize=absolute,parent=938,def=219+664+830,ref=219+219,val=0x7B57,seg=0,type=lab"%lit;
  "sym	id=938,name=""op_tick_62_page_49"",addrsize=absolute,scope=1,def=219+664+262,val=0x7B26,seg=0,type=lab"%lit;
  "sym	id=939,name=""@D"",addrsize=absolute,parent=940,def=219+779+823,ref=219+219,val=0x7B23,seg=0,type=lab"%lit;
  "sym	id=940,name=""op_tick_60_page_49"",addrsize=absolute,scope=1,def=219+779+725,val=0x7AF2,seg=0,type=lab"%lit;
  "sym	id=941,name=""@D"",addrsize=absolute,parent=942,def=219+510+1188,ref=219+219,val=0x7AEF,seg=0,type=lab"%lit;
  "sym	id=942,name=""op_tick_58_page_49"",addrsize=absolute,scope=1,def=219+510+986,val=0x7ABE,seg=0,type=lab"%lit;
  "sym	id=943,name=""@D"",addrsize=absolute,parent=944,def=219+704+801,ref=219+219,val=0x7ABB,seg=0,type=lab"%lit;
  "sym	id=944,name=""op_tick_56_page_49"",addrsize=absolute,scope=1,def=219+704+1286,val=0x7A8A,seg=0,type=lab"%lit;
  "sym	id=945,name=""@D"",addrsize=absolute,parent=946,def=219+621+1022,ref=219+219,val=0x7A87,seg=0,type=lab"%lit;
  "sym	id=946,name=""op_tick_54_page_49"",addrsize=absolute,scope=1,def=219+621+1201,val=0x7A56,seg=0,type=lab"%lit;
  "sym	id=947,name=""op_tick_52_page_49"",addrsize=absolute,scope=1,def=219+884+153,val=0x7A2B,seg=0,type=lab"%lit;
  "sym	id=948,name=""op_tick_50_page_49"",addrsize=absolute,scope=1,def=219+114+962,val=0x7A03,seg=0,type=lab"%lit;
  "sym	id=949,name=""op_tick_48_page_49"",addrsize=absolute,scope=1,def=219+1026+439,val=0x79DA,seg=0,type=lab"%lit;
  "sym	id=950,name=""op_tick_46_page_49"",addrsize=absolute,scope=1,def=219+647+1044,val=0x79B5,seg=0,type=lab"%lit;
  "sym	id=951,name=""op_tick_44_page_49"",addrsize=absolute,scope=1,def=219+268+546,val=0x798F,seg=0,type=lab"%lit;
  "sym	id=952,name=""op_tick_42_page_49"",addrsize=absolute,scope=1,def=219+62+67,val=0x796C,seg=0,type=lab"%lit;
  "sym	id=953,name=""op_tick_40_page_49"",addrsize=absolute,scope=1,def=219+1114+1222,val=0x7949,seg=0,type=lab"%lit;
  "sym	id=954,name=""op_tick_38_page_49"",addrsize=absolute,scope=1,def=219+609+1365,val=0x7929,seg=0,type=lab"%lit;
  "sym	id=955,name=""@D"",addrsize=absolute,parent=956,def=219+1236+1293,ref=219+219,val=0x7926,seg=0,type=lab"%lit;
  "sym	id=956,name=""op_tick_36_page_49"",addrsize=absolute,scope=1,def=219+1236+860,val=0x78F5,seg=0,type=lab"%lit;
  "sym	id=957,name=""op_tick_34_page_49"",addrsize=absolute,scope=1,def=219+1036+1004,val=0x78CF,seg=0,type=lab"%lit;
  "sym	id=958,name=""op_tick_32_page_49"",addrsize=absolute,scope=1,def=219+1029+642,val=0x78B3,seg=0,type=lab"%lit;
  "sym	id=959,name=""op_tick_30_page_49"",addrsize=absolute,scope=1,def=219+1017+1037,val=0x7896,seg=0,type=lab"%lit;
  "sym	id=960,name=""op_tick_28_page_49"",addrsize=absolute,scope=1,def=219+176+212,val=0x787D,seg=0,type=lab"%lit;
  "sym	id=961,name=""op_tick_26_page_49"",addrsize=absolute,scope=1,def=219+218+580,val=0x7863,seg=0,type=lab"%lit;
  "sym	id=962,name=""op_tick_24_page_49"",addrsize=absolute,scope=1,def=219+1223+678,val=0x784C,seg=0,type=lab"%lit;
  "sym	id=963,name=""op_tick_22_page_49"",addrsize=absolute,scope=1,def=219+1307+1192,val=0x7835,seg=0,type=lab"%lit;
  "sym	id=964,name=""op_tick_20_page_49"",addrsize=absolute,scope=1,def=219+1277+32,val=0x7821,seg=0,type=lab"%lit;
  "sym	id=965,name=""@D"",addrsize=absolute,parent=966,def=219+98+504,ref=219+219,val=0x781E,seg=0,type=lab"%lit;
  "sym	id=966,name=""op_tick_18_page_49"",addrsize=absolute,scope=1,def=219+98+1202,val=0x77ED,seg=0,type=lab"%lit;
  "sym	id=967,name=""op_tick_16_page_49"",addrsize=absolute,scope=1,def=219+923+820,val=0x77D6,seg=0,type=lab"%lit;
  "sym	id=968,name=""op_tick_14_page_49"",addrsize=absolute,scope=1,def=219+304+13,val=0x77C6,seg=0,type=lab"%lit;
  "sym	id=969,name=""op_tick_12_page_49"",addrsize=absolute,scope=1,def=219+1148+767,val=0x77B5,seg=0,type=lab"%lit;
  "sym	id=970,name=""op_tick_10_page_49"",addrsize=absolute,scope=1,def=219+743+943,val=0x77A8,seg=0,type=lab"%lit;
  "sym	id=971,name=""op_tick_8_page_49"",addrsize=absolute,scope=1,def=219+370+821,val=0x779A,seg=0,type=lab"%lit;
  "sym	id=972,name=""_op_tick_page_49_tail_8"",addrsize=absolute,scope=1,def=219+577+630+124,val=0x7794,seg=0,type=lab"%lit;
  "sym	id=973,name=""_op_tick_page_49_tail_12"",addrsize=absolute,scope=1,def=219+577+1048+124,ref=219,val=0x7791,seg=0,type=lab"%lit;
  "sym	id=974,name=""_op_tick_6_page_49_jmp"",addrsize=absolute,scope=1,def=219+577+757,ref=219+219+219,val=0x7797,seg=0,type=lab"%lit;
  "sym	id=975,name=""_op_tick_page_49_tail_16"",addrsize=absolute,scope=1,def=219+577+178+124,ref=219,val=0x778E,seg=0,type=lab"%lit;
  "sym	id=976,name=""_op_tick_page_49_tail_20"",addrsize=absolute,scope=1,def=219+577+682+124,ref=219+219,val=0x778B,seg=0,type=lab"%lit;
  "sym	id=977,name=""_op_tick_page_49_tail_25"",addrsize=absolute,scope=1,def=219+577+1145+124,val=0x7788,seg=0,type=lab"%lit;
  "sym	id=978,name=""_op_tick_page_49_tail_29"",addrsize=absolute,scope=1,def=219+577+1264+124,val=0x7785,seg=0,type=lab"%lit;
  "sym	id=979,name=""_op_tick_page_49_tail_34"",addrsize=absolute,scope=1,def=219+577+485+124,ref=219,val=0x7782,seg=0,type=lab"%lit;
  "sym	id=980,name=""_op_tick_page_49_tail_38"",addrsize=absolute,scope=1,def=219+577+554+124,ref=219,val=0x777F,seg=0,type=lab"%lit;
  "sym	id=981,name=""_op_tick_page_49_tail_43"",addrsize=absolute,scope=1,def=219+577+1348+124,ref=219,val=0x777C,seg=0,type=lab"%lit;
  "sym	id=982,name=""_op_tick_page_49_tail_47"",addrsize=absolute,scope=1,def=219+577+776+124,val=0x7779,seg=0,type=lab"%lit;
  "sym	id=983,name=""_op_tick_page_49_tail_52"",addrsize=absolute,scope=1,def=219+577+671+124,ref=219,val=0x7776,seg=0,type=lab"%lit;
  "sym	id=984,name=""_op_tick_page_49_tail_56"",addrsize=absolute,scope=1,def=219+577+498+124,ref=219,val=0x7773,seg=0,type=lab"%lit;
  "sym	id=985,name=""_op_tick_page_49_tail_60"",addrsize=absolute,scope=1,def=219+577+1265+124,val=0x7770,seg=0,type=lab"%lit;
  "sym	id=986,name=""op_tick_6_page_49"",addrsize=absolute,scope=1,def=219+577+824,val=0x7767,seg=0,type=lab"%lit;
  "sym	id=987,name=""_op_tick_page_49_tail_7"",addrsize=absolute,scope=1,def=219+373+903+124,val=0x7761,seg=0,type=lab"%lit;
  "sym	id=988,name=""_op_tick_page_49_tail_11"",addrsize=absolute,scope=1,def=219+373+1273+124,val=0x775E,seg=0,type=lab"%lit;
  "sym	id=989,name=""_op_tick_4_page_49_jmp"",addrsize=absolute,scope=1,def=219+373+241,ref=219+219,val=0x7764,seg=0,type=lab"%lit;
  "sym	id=990,name=""_op_tick_page_49_tail_15"",addrsize=absolute,scope=1,def=219+373+585+124,ref=219,val=0x775B,seg=0,type=lab"%lit;
  "sym	id=991,name=""_op_tick_page_49_tail_19"",addrsize=absolute,scope=1,def=219+373+277+124,ref=219,val=0x7758,seg=0,type=lab"%lit;
  "sym	id=992,name=""_op_tick_page_49_tail_24"",addrsize=absolute,scope=1,def=219+373+518+124,ref=219+219,val=0x7755,seg=0,type=lab"%lit;
  "sym	id=993,name=""_op_tick_page_49_tail_28"",addrsize=absolute,scope=1,def=219+373+164+124,ref=219,val=0x7752,seg=0,type=lab"%lit;
  "sym	id=994,name=""_op_tick_page_49_tail_33"",addrsize=absolute,scope=1,def=219+373+154+124,ref=219,val=0x774F,seg=0,type=lab"%lit;
  "sym	id=995,name=""_op_tick_page_49_tail_37"",addrsize=absolute,scope=1,def=219+373+1257+124,ref=219,val=0x774C,seg=0,type=lab"%lit;
  "sym	id=996,name=""_op_tick_page_49_tail_42"",addrsize=absolute,scope=1,def=219+373+1302+124,ref=219+219,val=0x7749,seg=0,type=lab"%lit;
  "sym	id=997,name=""_op_tick_page_49_tail_46"",addrsize=absolute,scope=1,def=219+373+805+124,ref=219,val=0x7746,seg=0,type=lab"%lit;
  "sym	id=998,name=""_op_tick_page_49_tail_51"",addrsize=absolute,scope=1,def=219+373+1124+124,ref=219,val=0x7743,seg=0,type=lab"%lit;
  "sym	id=999,name=""_op_tick_page_49_tail_55"",addrsize=absolute,scope=1,def=219+373+323+124,ref=219,val=0x7740,seg=0,type=lab"%lit;
  "sym	id=1000,name=""_op_tick_page_49_tail_59"",addrsize=absolute,scope=1,def=219+373+1142+124,val=0x773D,seg=0,type=lab"%lit;
  "sym	id=1001,name=""op_tick_4_page_49"",addrsize=absolute,scope=1,def=219+373+1062,val=0x7733,seg=0,type=lab"%lit;
  "sym	id=1002,name=""@D"",addrsize=absolute,parent=1003,def=948+138+254,ref=948+948,val=0x7730,seg=0,type=lab"%lit;
  "sym	id=1003,name=""op_tick_66_page_48"",addrsize=absolute,scope=1,def=948+138+697,val=0x76FF,seg=0,type=lab"%lit;
  "sym	id=1004,name=""@D"",addrsize=absolute,parent=1005,def=948+1001+700,ref=948+948,val=0x76FC,seg=0,type=lab"%lit;
  "sym	id=1005,name=""op_tick_64_page_48"",addrsize=absolute,scope=1,def=948+1001+979,val=0x76CB,seg=0,type=lab"%lit;
  "sym	id=1006,name=""@D"",addrsize=absolute,parent=1007,def=948+664+830,ref=948+948,val=0x76C8,seg=0,type=lab"%lit;
  "sym	id=1007,name=""op_tick_62_page_48"",addrsize=absolute,scope=1,def=948+664+262,val=0x7697,seg=0,type=lab"%lit;
  "sym	id=1008,name=""@D"",addrsize=absolute,parent=1009,def=948+779+823,ref=948+948,val=0x7694,seg=0,type=lab"%lit;
  "sym	id=1009,name=""op_tick_60_page_48"",addrsize=absolute,scope=1,def=948+779+725,val=0x7663,seg=0,type=lab"%lit;
  "sym	id=1010,name=""@D"",addrsize=absolute,parent=1011,def=948+510+1188,ref=948+948,val=0x7660,seg=0,type=lab"%lit;
  "sym	id=1011,name=""op_tick_58_page_48"",addrsize=absolute,scope=1,def=948+510+986,val=0x762F,seg=0,type=lab"%lit;
  "sym	id=1012,name=""@D"",addrsize=absolute,parent=1013,def=948+704+801,ref=948+948,val=0x762C,seg=0,type=lab"%lit;
  "sym	id=1013,name=""op_tick_56_page_48"",addrsize=absolute,scope=1,def=948+704+1286,val=0x75FB,seg=0,type=lab"%lit;
  "sym	id=1014,name=""@D"",addrsize=absolute,parent=1015,def=948+621+1022,ref=948+948,val=0x75F8,seg=0,type=lab"%lit;
  "sym	id=1015,name=""op_tick_54_page_48"",addrsize=absolute,scope=1,def=948+621+1201,val=0x75C7,seg=0,type=lab"%lit;
  "sym	id=1016,name=""op_tick_52_page_48"",addrsize=absolute,scope=1,def=948+884+153,val=0x759C,seg=0,type=lab"%lit;
  "sym	id=1017,name=""op_tick_50_page_48"",addrsize=absolute,scope=1,def=948+114+962,val=0x7574,seg=0,type=lab"%lit;
  "sym	id=1018,name=""op_tick_48_page_48"",addrsize=absolute,scope=1,def=948+1026+439,val=0x754B,seg=0,type=lab"%lit;
  "sym	id=1019,name=""op_tick_46_page_48"",addrsize=absolute,scope=1,def=948+647+1044,val=0x7526,seg=0,type=lab"%lit;
  "sym	id=1020,name=""op_tick_44_page_48"",addrsize=absolute,scope=1,def=948+268+546,val=0x7500,seg=0,type=lab"%lit;
  "sym	id=1021,name=""op_tick_42_page_48"",addrsize=absolute,scope=1,def=948+62+67,val=0x74DD,seg=0,type=lab"%lit;
  "sym	id=1022,name=""op_tick_40_page_48"",addrsize=absolute,scope=1,def=948+1114+1222,val=0x74BA,seg=0,type=lab"%lit;
  "sym	id=1023,name=""op_tick_38_page_48"",addrsize=absolute,scope=1,def=948+609+1365,val=0x749A,seg=0,type=lab"%lit;
  "sym	id=1024,name=""@D"",addrsize=absolute,parent=1025,def=948+1236+1293,ref=948+948,val=0x7497,seg=0,type=lab"%lit;
  "sym	id=1025,name=""op_tick_36_page_48"",addrsize=absolute,scope=1,def=948+1236+860,val=0x7466,seg=0,type=lab"%lit;
  "sym	id=1026,name=""op_tick_34_page_48"",addrsize=absolute,scope=1,def=948+1036+1004,val=0x7440,seg=0,type=lab"%lit;
  "sym	id=1027,name=""op_tick_32_page_48"",addrsize=absolute,scope=1,def=948+1029+642,val=0x7424,seg=0,type=lab"%lit;
  "sym	id=1028,name=""op_tick_30_page_48"",addrsize=absolute,scope=1,def=948+1017+1037,val=0x7407,seg=0,type=lab"%lit;
  "sym	id=1029,name=""op_tick_28_page_48"",addrsize=absolute,scope=1,def=948+176+212,val=0x73EE,seg=0,type=lab"%lit;
  "sym	id=1030,name=""op_tick_26_page_48"",addrsize=absolute,scope=1,def=948+218+580,val=0x73D4,seg=0,type=lab"%lit;
  "sym	id=1031,name=""op_tick_24_page_48"",addrsize=absolute,scope=1,def=948+1223+678,val=0x73BD,seg=0,type=lab"%lit;
  "sym	id=1032,name=""op_tick_22_page_48"",addrsize=absolute,scope=1,def=948+1307+1192,val=0x73A6,seg=0,type=lab"%lit;
  "sym	id=1033,name=""op_tick_20_page_48"",addrsize=absolute,scope=1,def=948+1277+32,val=0x7392,seg=0,type=lab"%lit;
  "sym	id=1034,name=""@D"",addrsize=absolute,parent=1035,def=948+98+504,ref=948+948,val=0x738F,seg=0,type=lab"%lit;
  "sym	id=1035,name=""op_tick_18_page_48"",addrsize=absolute,scope=1,def=948+98+1202,val=0x735E,seg=0,type=lab"%lit;
  "sym	id=1036,name=""op_tick_16_page_48"",addrsize=absolute,scope=1,def=948+923+820,val=0x7347,seg=0,type=lab"%lit;
  "sym	id=1037,name=""op_tick_14_page_48"",addrsize=absolute,scope=1,def=948+304+13,val=0x7337,seg=0,type=lab"%lit;
  "sym	id=1038,name=""op_tick_12_page_48"",addrsize=absolute,scope=1,def=948+1148+767,val=0x7326,seg=0,type=lab"%lit;
  "sym	id=1039,name=""op_tick_10_page_48"",addrsize=absolute,scope=1,def=948+743+943,val=0x7319,seg=0,type=lab"%lit;
  "sym	id=1040,name=""op_tick_8_page_48"",addrsize=absolute,scope=1,def=948+370+821,val=0x730B,seg=0,type=lab"%lit;
  "sym	id=1041,name=""_op_tick_page_48_tail_8"",addrsize=absolute,scope=1,def=948+577+630+124,val=0x7305,seg=0,type=lab"%lit;
  "sym	id=1042,name=""_op_tick_page_48_tail_12"",addrsize=absolute,scope=1,def=948+577+1048+124,ref=948,val=0x7302,seg=0,type=lab"%lit;
  "sym	id=1043,name=""_op_tick_6_page_48_jmp"",addrsize=absolute,scope=1,def=948+577+757,ref=948+948+948,val=0x7308,seg=0,type=lab"%lit;
  "sym	id=1044,name=""_op_tick_page_48_tail_16"",addrsize=absolute,scope=1,def=948+577+178+124,ref=948,val=0x72FF,seg=0,type=lab"%lit;
  "sym	id=1045,name=""_op_tick_page_48_tail_20"",addrsize=absolute,scope=1,def=948+577+682+124,ref=948+948,val=0x72FC,seg=0,type=lab"%lit;
  "sym	id=1046,name=""_op_tick_page_48_tail_25"",addrsize=absolute,scope=1,def=948+577+1145+124,val=0x72F9,seg=0,type=lab"%lit;
  "sym	id=1047,name=""_op_tick_page_48_tail_29"",addrsize=absolute,scope=1,def=948+577+1264+124,val=0x72F6,seg=0,type=lab"%lit;
  "sym	id=1048,name=""_op_tick_page_48_tail_34"",addrsize=absolute,scope=1,def=948+577+485+124,ref=948,val=0x72F3,seg=0,type=lab"%lit;
  "sym	id=1049,name=""_op_tick_page_48_tail_38"",addrsize=absolute,scope=1,def=948+577+554+124,ref=948,val=0x72F0,seg=0,type=lab"%lit;
  "sym	id=1050,name=""_op_tick_page_48_tail_43"",addrsize=absolute,scope=1,def=948+577+1348+124,ref=948,val=0x72ED,seg=0,type=lab"%lit;
  "sym	id=1051,name=""_op_tick_page_48_tail_47"",addrsize=absolute,scope=1,def=948+577+776+124,val=0x72EA,seg=0,type=lab"%lit;
  "sym	id=1052,name=""_op_tick_page_48_tail_52"",addrsize=absolute,scope=1,def=948+577+671+124,ref=948,val=0x72E7,seg=0,type=lab"%lit;
  "sym	id=1053,name=""_op_tick_page_48_tail_56"",addrsize=absolute,scope=1,def=948+577+498+124,ref=948,val=0x72E4,seg=0,type=lab"%lit;
  "sym	id=1054,name=""_op_tick_page_48_tail_60"",addrsize=absolute,scope=1,def=948+577+1265+124,val=0x72E1,seg=0,type=lab"%lit;
  "sym	id=1055,name=""op_tick_6_page_48"",addrsize=absolute,scope=1,def=948+577+824,val=0x72D8,seg=0,type=lab"%lit;
  "sym	id=1056,name=""_op_tick_page_48_tail_7"",addrsize=absolute,scope=1,def=948+373+903+124,val=0x72D2,seg=0,type=lab"%lit;
  "sym	id=1057,name=""_op_tick_page_48_tail_11"",addrsize=absolute,scope=1,def=948+373+1273+124,val=0x72CF,seg=0,type=lab"%lit;
  "sym	id=1058,name=""_op_tick_4_page_48_jmp"",addrsize=absolute,scope=1,def=948+373+241,ref=948+948,val=0x72D5,seg=0,type=lab"%lit;
  "sym	id=1059,name=""_op_tick_page_48_tail_15"",addrsize=absolute,scope=1,def=948+373+585+124,ref=948,val=0x72CC,seg=0,type=lab"%lit;
  "sym	id=1060,name=""_op_tick_page_48_tail_19"",addrsize=absolute,scope=1,def=948+373+277+124,ref=948,val=0x72C9,seg=0,type=lab"%lit;
  "sym	id=1061,name=""_op_tick_page_48_tail_24"",addrsize=absolute,scope=1,def=948+373+518+124,ref=948+948,val=0x72C6,seg=0,type=lab"%lit;
  "sym	id=1062,name=""_op_tick_page_48_tail_28"",addrsize=absolute,scope=1,def=948+373+164+124,ref=948,val=0x72C3,seg=0,type=lab"%lit;
  "sym	id=1063,name=""_op_tick_page_48_tail_33"",addrsize=absolute,scope=1,def=948+373+154+124,ref=948,val=0x72C0,seg=0,type=lab"%lit;
  "sym	id=1064,name=""_op_tick_page_48_tail_37"",addrsize=absolute,scope=1,def=948+373+1257+124,ref=948,val=0x72BD,seg=0,type=lab"%lit;
  "sym	id=1065,name=""_op_tick_page_48_tail_42"",addrsize=absolute,scope=1,def=948+373+1302+124,ref=948+948,val=0x72BA,seg=0,type=lab"%lit;
  "sym	id=1066,name=""_op_tick_page_48_tail_46"",addrsize=absolute,scope=1,def=948+373+805+124,ref=948,val=0x72B7,seg=0,type=lab"%lit;
  "sym	id=1067,name=""_op_tick_page_48_tail_51"",addrsize=absolute,scope=1,def=948+373+1124+124,ref=948,val=0x72B4,seg=0,type=lab"%lit;
  "sym	id=1068,name=""_op_tick_page_48_tail_55"",addrsize=absolute,scope=1,def=948+373+323+124,ref=948,val=0x72B1,seg=0,type=lab"%lit;
  "sym	id=1069,name=""_op_tick_page_48_tail_59"",addrsize=absolute,scope=1,def=948+373+1142+124,val=0x72AE,seg=0,type=lab"%lit;
  "sym	id=1070,name=""op_tick_4_page_48"",addrsize=absolute,scope=1,def=948+373+1062,val=0x72A4,seg=0,type=lab"%lit;
  "sym	id=1071,name=""@D"",addrsize=absolute,parent=1072,def=468+138+254,ref=468+468,val=0x72A1,seg=0,type=lab"%lit;
  "sym	id=1072,name=""op_tick_66_page_47"",addrsize=absolute,scope=1,def=468+138+697,val=0x7270,seg=0,type=lab"%lit;
  "sym	id=1073,name=""@D"",addrsize=absolute,parent=1074,def=468+1001+700,ref=468+468,val=0x726D,seg=0,type=lab"%lit;
  "sym	id=1074,name=""op_tick_64_page_47"",addrsize=absolute,scope=1,def=468+1001+979,val=0x723C,seg=0,type=lab"%lit;
  "sym	id=1075,name=""@D"",addrsize=absolute,parent=1076,def=468+664+830,ref=468+468,val=0x7239,seg=0,type=lab"%lit;
  "sym	id=1076,name=""op_tick_62_page_47"",addrsize=absolute,scope=1,def=468+664+262,val=0x7208,seg=0,type=lab"%lit;
  "sym	id=1077,name=""@D"",addrsize=absolute,parent=1078,def=468+779+823,ref=468+468,val=0x7205,seg=0,type=lab"%lit;
  "sym	id=1078,name=""op_tick_60_page_47"",addrsize=absolute,scope=1,def=468+779+725,val=0x71D4,seg=0,type=lab"%lit;
  "sym	id=1079,name=""@D"",addrsize=absolute,parent=1080,def=468+510+1188,ref=468+468,val=0x71D1,seg=0,type=lab"%lit;
  "sym	id=1080,name=""op_tick_58_page_47"",addrsize=absolute,scope=1,def=468+510+986,val=0x71A0,seg=0,type=lab"%lit;
  "sym	id=1081,name=""@D"",addrsize=absolute,parent=1082,def=468+704+801,ref=468+468,val=0x719D,seg=0,type=lab"%lit;
  "sym	id=1082,name=""op_tick_56_page_47"",addrsize=absolute,scope=1,def=468+704+1286,val=0x716C,seg=0,type=lab"%lit;
  "sym	id=1083,name=""@D"",addrsize=absolute,parent=1084,def=468+621+1022,ref=468+468,val=0x7169,seg=0,type=lab"%lit;
  "sym	id=1084,name=""op_tick_54_page_47"",addrsize=absolute,scope=1,def=468+621+1201,val=0x7138,seg=0,type=lab"%lit;
  "sym	id=1085,name=""op_tick_52_page_47"",addrsize=absolute,scope=1,def=468+884+153,val=0x710D,seg=0,type=lab"%lit;
  "sym	id=1086,name=""op_tick_50_page_47"",addrsize=absolute,scope=1,def=468+114+962,val=0x70E5,seg=0,type=lab"%lit;
  "sym	id=1087,name=""op_tick_48_page_47"",addrsize=absolute,scope=1,def=468+1026+439,val=0x70BC,seg=0,type=lab"%lit;
  "sym	id=1088,name=""op_tick_46_page_47"",addrsize=absolute,scope=1,def=468+647+1044,val=0x7097,seg=0,type=lab"%lit;
  "sym	id=1089,name=""op_tick_44_page_47"",addrsize=absolute,scope=1,def=468+268+546,val=0x7071,seg=0,type=lab"%lit;
  "sym	id=1090,name=""op_tick_42_page_47"",addrsize=absolute,scope=1,def=468+62+67,val=0x704E,seg=0,type=lab"%lit;
  "sym	id=1091,name=""op_tick_40_page_47"",addrsize=absolute,scope=1,def=468+1114+1222,val=0x702B,seg=0,type=lab"%lit;
  "sym	id=1092,name=""op_tick_38_page_47"",addrsize=absolute,scope=1,def=468+609+1365,val=0x700B,seg=0,type=lab"%lit;
  "sym	id=1093,name=""@D"",addrsize=absolute,parent=1094,def=468+1236+1293,ref=468+468,val=0x7008,seg=0,type=lab"%lit;
  "sym	id=1094,name=""op_tick_36_page_47"",addrsize=absolute,scope=1,def=468+1236+860,val=0x6FD7,seg=0,type=lab"%lit;
  "sym	id=1095,name=""op_tick_34_page_47"",addrsize=absolute,scope=1,def=468+1036+1004,val=0x6FB1,seg=0,type=lab"%lit;
  "sym	id=1096,name=""op_tick_32_page_47"",addrsize=absolute,scope=1,def=468+1029+642,val=0x6F95,seg=0,type=lab"%lit;
  "sym	id=1097,name=""op_tick_30_page_47"",addrsize=absolute,scope=1,def=468+1017+1037,val=0x6F78,seg=0,type=lab"%lit;
  "sym	id=1098,name=""op_tick_28_page_47"",addrsize=absolute,scope=1,def=468+176+212,val=0x6F5F,seg=0,type=lab"%lit;
  "sym	id=1099,name=""op_tick_26_page_47"",addrsize=absolute,scope=1,def=468+218+580,val=0x6F45,seg=0,type=lab"%lit;
  "sym	id=1100,name=""op_tick_24_page_47"",addrsize=absolute,scope=1,def=468+1223+678,val=0x6F2E,seg=0,type=lab"%lit;
  "sym	id=1101,name=""op_tick_22_page_47"",addrsize=absolute,scope=1,def=468+1307+1192,val=0x6F17,seg=0,type=lab"%lit;
  "sym	id=1102,name=""op_tick_20_page_47"",addrsize=absolute,scope=1,def=468+1277+32,val=0x6F03,seg=0,type=lab"%lit;
  "sym	id=1103,name=""@D"",addrsize=absolute,parent=1104,def=468+98+504,ref=468+468,val=0x6F00,seg=0,type=lab"%lit;
  "sym	id=1104,name=""op_tick_18_page_47"",addrsize=absolute,scope=1,def=468+98+1202,val=0x6ECF,seg=0,type=lab"%lit;
  "sym	id=1105,name=""op_tick_16_page_47"",addrsize=absolute,scope=1,def=468+923+820,val=0x6EB8,seg=0,type=lab"%lit;
  "sym	id=1106,name=""op_tick_14_page_47"",addrsize=absolute,scope=1,def=468+304+13,val=0x6EA8,seg=0,type=lab"%lit;
  "sym	id=1107,name=""op_tick_12_page_47"",addrsize=absolute,scope=1,def=468+1148+767,val=0x6E97,seg=0,type=lab"%lit;
  "sym	id=1108,name=""op_tick_10_page_47"",addrsize=absolute,scope=1,def=468+743+943,val=0x6E8A,seg=0,type=lab"%lit;
  "sym	id=1109,name=""op_tick_8_page_47"",addrsize=absolute,scope=1,def=468+370+821,val=0x6E7C,seg=0,type=lab"%lit;
  "sym	id=1110,name=""_op_tick_page_47_tail_8"",addrsize=absolute,scope=1,def=468+577+630+124,val=0x6E76,seg=0,type=lab"%lit;
  "sym	id=1111,name=""_op_tick_page_47_tail_12"",addrsize=absolute,scope=1,def=468+577+1048+124,ref=468,val=0x6E73,seg=0,type=lab"%lit;
  "sym	id=1112,name=""_op_tick_6_page_47_jmp"",addrsize=absolute,scope=1,def=468+577+757,ref=468+468+468,val=0x6E79,seg=0,type=lab"%lit;
  "sym	id=1113,name=""_op_tick_page_47_tail_16"",addrsize=absolute,scope=1,def=468+577+178+124,ref=468,val=0x6E70,seg=0,type=lab"%lit;
  "sym	id=1114,name=""_op_tick_page_47_tail_20"",addrsize=absolute,scope=1,def=468+577+682+124,ref=468+468,val=0x6E6D,seg=0,type=lab"%lit;
  "sym	id=1115,name=""_op_tick_page_47_tail_25"",addrsize=absolute,scope=1,def=468+577+1145+124,val=0x6E6A,seg=0,type=lab"%lit;
  "sym	id=1116,name=""_op_tick_page_47_tail_29"",addrsize=absolute,scope=1,def=468+577+1264+124,val=0x6E67,seg=0,type=lab"%lit;
  "sym	id=1117,name=""_op_tick_page_47_tail_34"",addrsize=absolute,scope=1,def=468+577+485+124,ref=468,val=0x6E64,seg=0,type=lab"%lit;
  "sym	id=1118,name=""_op_tick_page_47_tail_38"",addrsize=absolute,scope=1,def=468+577+554+124,ref=468,val=0x6E61,seg=0,type=lab"%lit;
  "sym	id=1119,name=""_op_tick_page_47_tail_43"",addrsize=absolute,scope=1,def=468+577+1348+124,ref=468,val=0x6E5E,seg=0,type=lab"%lit;
  "sym	id=1120,name=""_op_tick_page_47_tail_47"",addrsize=absolute,scope=1,def=468+577+776+124,val=0x6E5B,seg=0,type=lab"%lit;
  "sym	id=1121,name=""_op_tick_page_47_tail_52"",addrsize=absolute,scope=1,def=468+577+671+124,ref=468,val=0x6E58,seg=0,type=lab"%lit;
  "sym	id=1122,name=""_op_tick_page_47_tail_56"",addrsize=absolute,scope=1,def=468+577+498+124,ref=468,val=0x6E55,seg=0,type=lab"%lit;
  "sym	id=1123,name=""_op_tick_page_47_tail_60"",addrsize=absolute,scope=1,def=468+577+1265+124,val=0x6E52,seg=0,type=lab"%lit;
  "sym	id=1124,name=""op_tick_6_page_47"",addrsize=absolute,scope=1,def=468+577+824,val=0x6E49,seg=0,type=lab"%lit;
  "sym	id=1125,name=""_op_tick_page_47_tail_7"",addrsize=absolute,scope=1,def=468+373+903+124,val=0x6E43,seg=0,type=lab"%lit;
  "sym	id=1126,name=""_op_tick_page_47_tail_11"",addrsize=absolute,scope=1,def=468+373+1273+124,val=0x6E40,seg=0,type=lab"%lit;
  "sym	id=1127,name=""_op_tick_4_page_47_jmp"",addrsize=absolute,scope=1,def=468+373+241,ref=468+468,val=0x6E46,seg=0,type=lab"%lit;
  "sym	id=1128,name=""_op_tick_page_47_tail_15"",addrsize=absolute,scope=1,def=468+373+585+124,ref=468,val=0x6E3D,seg=0,type=lab"%lit;
  "sym	id=1129,name=""_op_tick_page_47_tail_19"",addrsize=absolute,scope=1,def=468+373+277+124,ref=468,val=0x6E3A,seg=0,type=lab"%lit;
  "sym	id=1130,name=""_op_tick_page_47_tail_24"",addrsize=absolute,scope=1,def=468+373+518+124,ref=468+468,val=0x6E37,seg=0,type=lab"%lit;
  "sym	id=1131,name=""_op_tick_page_47_tail_28"",addrsize=absolute,scope=1,def=468+373+164+124,ref=468,val=0x6E34,seg=0,type=lab"%lit;
  "sym	id=1132,name=""_op_tick_page_47_tail_33"",addrsize=absolute,scope=1,def=468+373+154+124,ref=468,val=0x6E31,seg=0,type=lab"%lit;
  "sym	id=1133,name=""_op_tick_page_47_tail_37"",addrsize=absolute,scope=1,def=468+373+1257+124,ref=468,val=0x6E2E,seg=0,type=lab"%lit;
  "sym	id=1134,name=""_op_tick_page_47_tail_42"",addrsize=absolute,scope=1,def=468+373+1302+124,ref=468+468,val=0x6E2B,seg=0,type=lab"%lit;
  "sym	id=1135,name=""_op_tick_page_47_tail_46"",addrsize=absolute,scope=1,def=468+373+805+124,ref=468,val=0x6E28,seg=0,type=lab"%lit;
  "sym	id=1136,name=""_op_tick_page_47_tail_51"",addrsize=absolute,scope=1,def=468+373+1124+124,ref=468,val=0x6E25,seg=0,type=lab"%lit;
  "sym	id=1137,name=""_op_tick_page_47_tail_55"",addrsize=absolute,scope=1,def=468+373+323+124,ref=468,val=0x6E22,seg=0,type=lab"%lit;
  "sym	id=1138,name=""_op_tick_page_47_tail_59"",addrsize=absolute,scope=1,def=468+373+1142+124,val=0x6E1F,seg=0,type=lab"%lit;
  "sym	id=1139,name=""op_tick_4_page_47"",addrsize=absolute,scope=1,def=468+373+1062,val=0x6E15,seg=0,type=lab"%lit;
  "sym	id=1140,name=""@D"",addrsize=absolute,parent=1141,def=1337+138+254,ref=1337+1337,val=0x6E12,seg=0,type=lab"%lit;
  "sym	id=1141,name=""op_tick_66_page_46"",addrsize=absolute,scope=1,def=1337+138+697,val=0x6DE1,seg=0,type=lab"%lit;
  "sym	id=1142,name=""@D"",addrsize=absolute,parent=1143,def=1337+1001+700,ref=1337+1337,val=0x6DDE,seg=0,type=lab"%lit;
  "sym	id=1143,name=""op_tick_64_page_46"",addrsize=absolute,scope=1,def=1337+1001+979,val=0x6DAD,seg=0,type=lab"%lit;
  "sym	id=1144,name=""@D"",addrsize=absolute,parent=1145,def=1337+664+830,ref=1337+1337,val=0x6DAA,seg=0,type=lab"%lit;
  "sym	id=1145,name=""op_tick_62_page_46"",addrsize=absolute,scope=1,def=1337+664+262,val=0x6D79,seg=0,type=lab"%lit;
  "sym	id=1146,name=""@D"",addrsize=absolute,parent=1147,def=1337+779+823,ref=1337+1337,val=0x6D76,seg=0,type=lab"%lit;
  "sym	id=1147,name=""op_tick_60_page_46"",addrsize=absolute,scope=1,def=1337+779+725,val=0x6D45,seg=0,type=lab"%lit;
  "sym	id=1148,name=""@D"",addrsize=absolute,parent=1149,def=1337+510+1188,ref=1337+1337,val=0x6D42,seg=0,type=lab"%lit;
  "sym	id=1149,name=""op_tick_58_page_46"",addrsize=absolute,scope=1,def=1337+510+986,val=0x6D11,seg=0,type=lab"%lit;
  "sym	id=1150,name=""@D"",addrsize=absolute,parent=1151,def=1337+704+801,ref=1337+1337,val=0x6D0E,seg=0,type=lab"%lit;
  "sym	id=1151,name=""op_tick_56_page_46"",addrsize=absolute,scope=1,def=1337+704+1286,val=0x6CDD,seg=0,type=lab"%lit;
  "sym	id=1152,name=""@D"",addrsize=absolute,parent=1153,def=1337+621+1022,ref=1337+1337,val=0x6CDA,seg=0,type=lab"%lit;
  "sym	id=1153,name=""op_tick_54_page_46"",addrsize=absolute,scope=1,def=1337+621+1201,val=0x6CA9,seg=0,type=lab"%lit;
  "sym	id=1154,name=""op_tick_52_page_46"",addrsize=absolute,scope=1,def=1337+884+153,val=0x6C7E,seg=0,type=lab"%lit;
  "sym	id=1155,name=""op_tick_50_page_46"",addrsize=absolute,scope=1,def=1337+114+962,val=0x6C56,seg=0,type=lab"%lit;
  "sym	id=1156,name=""op_tick_48_page_46"",addrsize=absolute,scope=1,def=1337+1026+439,val=0x6C2D,seg=0,type=lab"%lit;
  "sym	id=1157,name=""op_tick_46_page_46"",addrsize=absolute,scope=1,def=1337+647+1044,val=0x6C08,seg=0,type=lab"%lit;
  "sym	id=1158,name=""op_tick_44_page_46"",addrsize=absolute,scope=1,def=1337+268+546,val=0x6BE2,seg=0,type=lab"%lit;
  "sym	id=1159,name=""op_tick_42_page_46"",addrsize=absolute,scope=1,def=1337+62+67,val=0x6BBF,seg=0,type=lab"%lit;
  "sym	id=1160,name=""op_tick_40_page_46"",addrsize=absolute,scope=1,def=1337+1114+1222,val=0x6B9C,seg=0,type=lab"%lit;
  "sym	id=1161,name=""op_tick_38_page_46"",addrsize=absolute,scope=1,def=1337+609+1365,val=0x6B7C,seg=0,type=lab"%lit;
  "sym	id=1162,name=""@D"",addrsize=absolute,parent=1163,def=1337+1236+1293,ref=1337+1337,val=0x6B79,seg=0,type=lab"%lit;
  "sym	id=1163,name=""op_tick_36_page_46"",addrsize=absolute,scope=1,def=1337+1236+860,val=0x6B48,seg=0,type=lab"%lit;
  "sym	id=1164,name=""op_tick_34_page_46"",addrsize=absolute,scope=1,def=1337+1036+1004,val=0x6B22,seg=0,type=lab"%lit;
  "sym	id=1165,name=""op_tick_32_page_46"",addrsize=absolute,scope=1,def=1337+1029+642,val=0x6B06,seg=0,type=lab"%lit;
  "sym	id=1166,name=""op_tick_30_page_46"",addrsize=absolute,scope=1,def=1337+1017+1037,val=0x6AE9,seg=0,type=lab"%lit;
  "sym	id=1167,name=""op_tick_28_page_46"",addrsize=absolute,scope=1,def=1337+176+212,val=0x6AD0,seg=0,type=lab"%lit;
  "sym	id=1168,name=""op_tick_26_page_46"",addrsize=absolute,scope=1,def=1337+218+580,val=0x6AB6,seg=0,type=lab"%lit;
  "sym	id=1169,name=""op_tick_24_page_46"",addrsize=absolute,scope=1,def=1337+1223+678,val=0x6A9F,seg=0,type=lab"%lit;
  "sym	id=1170,name=""op_tick_22_page_46"",addrsize=absolute,scope=1,def=1337+1307+1192,val=0x6A88,seg=0,type=lab"%lit;
  "sym	id=1171,name=""op_tick_20_page_46"",addrsize=absolute,scope=1,def=1337+1277+32,val=0x6A74,seg=0,type=lab"%lit;
  "sym	id=1172,name=""@D"",addrsize=absolute,parent=1173,def=1337+98+504,ref=1337+1337,val=0x6A71,seg=0,type=lab"%lit;
  "sym	id=1173,name=""op_tick_18_page_46"",addrsize=absolute,scope=1,def=1337+98+1202,val=0x6A40,seg=0,type=lab"%lit;
  "sym	id=1174,name=""op_tick_16_page_46"",addrsize=absolute,scope=1,def=1337+923+820,val=0x6A29,seg=0,type=lab"%lit;
  "sym	id=1175,name=""op_tick_14_page_46"",addrsize=absolute,scope=1,def=1337+304+13,val=0x6A19,seg=0,type=lab"%lit;
  "sym	id=1176,name=""op_tick_12_page_46"",addrsize=absolute,scope=1,def=1337+1148+767,val=0x6A08,seg=0,type=lab"%lit;
  "sym	id=1177,name=""op_tick_10_page_46"",addrsize=absolute,scope=1,def=1337+743+943,val=0x69FB,seg=0,type=lab"%lit;
  "sym	id=1178,name=""op_tick_8_page_46"",addrsize=absolute,scope=1,def=1337+370+821,val=0x69ED,seg=0,type=lab"%lit;
  "sym	id=1179,name=""_op_tick_page_46_tail_8"",addrsize=absolute,scope=1,def=1337+577+630+124,val=0x69E7,seg=0,type=lab"%lit;
  "sym	id=1180,name=""_op_tick_page_46_tail_12"",addrsize=absolute,scope=1,def=1337+577+1048+124,ref=1337,val=0x69E4,seg=0,type=lab"%lit;
  "sym	id=1181,name=""_op_tick_6_page_46_jmp"",addrsize=absolute,scope=1,def=1337+577+757,ref=1337+1337+1337,val=0x69EA,seg=0,type=lab"%lit;
  "sym	id=1182,name=""_op_tick_page_46_tail_16"",addrsize=absolute,scope=1,def=1337+577+178+124,ref=1337,val=0x69E1,seg=0,type=lab"%lit;
  "sym	id=1183,name=""_op_tick_page_46_tail_20"",addrsize=absolute,scope=1,def=1337+577+682+124,ref=1337+1337,val=0x69DE,seg=0,type=lab"%lit;
  "sym	id=1184,name=""_op_tick_page_46_tail_25"",addrsize=absolute,scope=1,def=1337+577+1145+124,val=0x69DB,seg=0,type=lab"%lit;
  "sym	id=1185,name=""_op_tick_page_46_tail_29"",addrsize=absolute,scope=1,def=1337+577+1264+124,val=0x69D8,seg=0,type=lab"%lit;
  "sym	id=1186,name=""_op_tick_page_46_tail_34"",addrsize=absolute,scope=1,def=1337+577+485+124,ref=1337,val=0x69D5,seg=0,type=lab"%lit;
  "sym	id=1187,name=""_op_tick_page_46_tail_38"",addrsize=absolute,scope=1,def=1337+577+554+124,ref=1337,val=0x69D2,seg=0,type=lab"%lit;
  "sym	id=1188,name=""_op_tick_page_46_tail_43"",addrsize=absolute,scope=1,def=1337+577+1348+124,ref=1337,val=0x69CF,seg=0,type=lab"%lit;
  "sym	id=1189,name=""_op_tick_page_46_tail_47"",addrsize=absolute,scope=1,def=1337+577+776+124,val=0x69CC,seg=0,type=lab"%lit;
  "sym	id=1190,name=""_op_tick_page_46_tail_52"",addrsize=absolute,scope=1,def=1337+577+671+124,ref=1337,val=0x69C9,seg=0,type=lab"%lit;
  "sym	id=1191,name=""_op_tick_page_46_tail_56"",addrsize=absolute,scope=1,def=1337+577+498+124,ref=1337,val=0x69C6,seg=0,type=lab"%lit;
  "sym	id=1192,name=""_op_tick_page_46_tail_60"",addrsize=absolute,scope=1,def=1337+577+1265+124,val=0x69C3,seg=0,type=lab"%lit;
  "sym	id=1193,name=""op_tick_6_page_46"",addrsize=absolute,scope=1,def=1337+577+824,val=0x69BA,seg=0,type=lab"%lit;
  "sym	id=1194,name=""_op_tick_page_46_tail_7"",addrsize=absolute,scope=1,def=1337+373+903+124,val=0x69B4,seg=0,type=lab"%lit;
  "sym	id=1195,name=""_op_tick_page_46_tail_11"",addrsize=absolute,scope=1,def=1337+373+1273+124,val=0x69B1,seg=0,type=lab"%lit;
  "sym	id=1196,name=""_op_tick_4_page_46_jmp"",addrsize=absolute,scope=1,def=1337+373+241,ref=1337+1337,val=0x69B7,seg=0,type=lab"%lit;
  "sym	id=1197,name=""_op_tick_page_46_tail_15"",addrsize=absolute,scope=1,def=1337+373+585+124,ref=1337,val=0x69AE,seg=0,type=lab"%lit;
  "sym	id=1198,name=""_op_tick_page_46_tail_19"",addrsize=absolute,scope=1,def=1337+373+277+124,ref=1337,val=0x69AB,seg=0,type=lab"%lit;
  "sym	id=1199,name=""_op_tick_page_46_tail_24"",addrsize=absolute,scope=1,def=1337+373+518+124,ref=1337+1337,val=0x69A8,seg=0,type=lab"%lit;
  "sym	id=1200,name=""_op_tick_page_46_tail_28"",addrsize=absolute,scope=1,def=1337+373+164+124,ref=1337,val=0x69A5,seg=0,type=lab"%lit;
  "sym	id=1201,name=""_op_tick_page_46_tail_33"",addrsize=absolute,scope=1,def=1337+373+154+124,ref=1337,val=0x69A2,seg=0,type=lab"%lit;
  "sym	id=1202,name=""_op_tick_page_46_tail_37"",addrsize=absolute,scope=1,def=1337+373+1257+124,ref=1337,val=0x699F,seg=0,type=lab"%lit;
  "sym	id=1203,name=""_op_tick_page_46_tail_42"",addrsize=absolute,scope=1,def=1337+373+1302+124,ref=1337+1337,val=0x699C,seg=0,type=lab"%lit;
  "sym	id=1204,name=""_op_tick_page_46_tail_46"",addrsize=absolute,scope=1,def=1337+373+805+124,ref=1337,val=0x6999,seg=0,type=lab"%lit;
  "sym	id=1205,name=""_op_tick_page_46_tail_51"",addrsize=absolute,scope=1,def=1337+373+1124+124,ref=1337,val=0x6996,seg=0,type=lab"%lit;
  "sym	id=1206,name=""_op_tick_page_46_tail_55"",addrsize=absolute,scope=1,def=1337+373+323+124,ref=1337,val=0x6993,seg=0,type=lab"%lit;
  "sym	id=1207,name=""_op_tick_page_46_tail_59"",addrsize=absolute,scope=1,def=1337+373+1142+124,val=0x6990,seg=0,type=lab"%lit;
  "sym	id=1208,name=""op_tick_4_page_46"",addrsize=absolute,scope=1,def=1337+373+1062,val=0x6986,seg=0,type=lab"%lit;
  "sym	id=1209,name=""@D"",addrsize=absolute,parent=1210,def=568+138+254,ref=568+568,val=0x6983,seg=0,type=lab"%lit;
  "sym	id=1210,name=""op_tick_66_page_45"",addrsize=absolute,scope=1,def=568+138+697,val=0x6952,seg=0,type=lab"%lit;
  "sym	id=1211,name=""@D"",addrsize=absolute,parent=1212,def=568+1001+700,ref=568+568,val=0x694F,seg=0,type=lab"%lit;
  "sym	id=1212,name=""op_tick_64_page_45"",addrsize=absolute,scope=1,def=568+1001+979,val=0x691E,seg=0,type=lab"%lit;
  "sym	id=1213,name=""@D"",addrsize=absolute,parent=1214,def=568+664+830,ref=568+568,val=0x691B,seg=0,type=lab"%lit;
  "sym	id=1214,name=""op_tick_62_page_45"",addrsize=absolute,scope=1,def=568+664+262,val=0x68EA,seg=0,type=lab"%lit;
  "sym	id=1215,name=""@D"",addrsize=absolute,parent=1216,def=568+779+823,ref=568+568,val=0x68E7,seg=0,type=lab"%lit;
  "sym	id=1216,name=""op_tick_60_page_45"",addrsize=absolute,scope=1,def=568+779+725,val=0x68B6,seg=0,type=lab"%lit;
  "sym	id=1217,name=""@D"",addrsize=absolute,parent=1218,def=568+510+1188,ref=568+568,val=0x68B3,seg=0,type=lab"%lit;
  "sym	id=1218,name=""op_tick_58_page_45"",addrsize=absolute,scope=1,def=568+510+986,val=0x6882,seg=0,type=lab"%lit;
  "sym	id=1219,name=""@D"",addrsize=absolute,parent=1220,def=568+704+801,ref=568+568,val=0x687F,seg=0,type=lab"%lit;
  "sym	id=1220,name=""op_tick_56_page_45"",addrsize=absolute,scope=1,def=568+704+1286,val=0x684E,seg=0,type=lab"%lit;
  "sym	id=1221,name=""@D"",addrsize=absolute,parent=1222,def=568+621+1022,ref=568+568,val=0x684B,seg=0,type=lab"%lit;
  "sym	id=1222,name=""op_tick_54_page_45"",addrsize=absolute,scope=1,def=568+621+1201,val=0x681A,seg=0,type=lab"%lit;
  "sym	id=1223,name=""op_tick_52_page_45"",addrsize=absolute,scope=1,def=568+884+153,val=0x67EF,seg=0,type=lab"%lit;
  "sym	id=1224,name=""op_tick_50_page_45"",addrsize=absolute,scope=1,def=568+114+962,val=0x67C7,seg=0,type=lab"%lit;
  "sym	id=1225,name=""op_tick_48_page_45"",addrsize=absolute,scope=1,def=568+1026+439,val=0x679E,seg=0,type=lab"%lit;
  "sym	id=1226,name=""op_tick_46_page_45"",addrsize=absolute,scope=1,def=568+647+1044,val=0x6779,seg=0,type=lab"%lit;
  "sym	id=1227,name=""op_tick_44_page_45"",addrsize=absolute,scope=1,def=568+268+546,val=0x6753,seg=0,type=lab"%lit;
  "sym	id=1228,name=""op_tick_42_page_45"",addrsize=absolute,scope=1,def=568+62+67,val=0x6730,seg=0,type=lab"%lit;
  "sym	id=1229,name=""op_tick_40_page_45"",addrsize=absolute,scope=1,def=568+1114+1222,val=0x670D,seg=0,type=lab"%lit;
  "sym	id=1230,name=""op_tick_38_page_45"",addrsize=absolute,scope=1,def=568+609+1365,val=0x66ED,seg=0,type=lab"%lit;
  "sym	id=1231,name=""@D"",addrsize=absolute,parent=1232,def=568+1236+1293,ref=568+568,val=0x66EA,seg=0,type=lab"%lit;
  "sym	id=1232,name=""op_tick_36_page_45"",addrsize=absolute,scope=1,def=568+1236+860,val=0x66B9,seg=0,type=lab"%lit;
  "sym	id=1233,name=""op_tick_34_page_45"",addrsize=absolute,scope=1,def=568+1036+1004,val=0x6693,seg=0,type=lab"%lit;
  "sym	id=1234,name=""op_tick_32_page_45"",addrsize=absolute,scope=1,def=568+1029+642,val=0x6677,seg=0,type=lab"%lit;
  "sym	id=1235,name=""op_tick_30_page_45"",addrsize=absolute,scope=1,def=568+1017+1037,val=0x665A,seg=0,type=lab"%lit;
  "sym	id=1236,name=""op_tick_28_page_45"",addrsize=absolute,scope=1,def=568+176+212,val=0x6641,seg=0,type=lab"%lit;
  "sym	id=1237,name=""op_tick_26_page_45"",addrsize=absolute,scope=1,def=568+218+580,val=0x6627,seg=0,type=lab"%lit;
  "sym	id=1238,name=""op_tick_24_page_45"",addrsize=absolute,scope=1,def=568+1223+678,val=0x6610,seg=0,type=lab"%lit;
  "sym	id=1239,name=""op_tick_22_page_45"",addrsize=absolute,scope=1,def=568+1307+1192,val=0x65F9,seg=0,type=lab"%lit;
  "sym	id=1240,name=""op_tick_20_page_45"",addrsize=absolute,scope=1,def=568+1277+32,val=0x65E5,seg=0,type=lab"%lit;
  "sym	id=1241,name=""@D"",addrsize=absolute,parent=1242,def=568+98+504,ref=568+568,val=0x65E2,seg=0,type=lab"%lit;
  "sym	id=1242,name=""op_tick_18_page_45"",addrsize=absolute,scope=1,def=568+98+1202,val=0x65B1,seg=0,type=lab"%lit;
  "sym	id=1243,name=""op_tick_16_page_45"",addrsize=absolute,scope=1,def=568+923+820,val=0x659A,seg=0,type=lab"%lit;
  "sym	id=1244,name=""op_tick_14_page_45"",addrsize=absolute,scope=1,def=568+304+13,val=0x658A,seg=0,type=lab"%lit;
  "sym	id=1245,name=""op_tick_12_page_45"",addrsize=absolute,scope=1,def=568+1148+767,val=0x6579,seg=0,type=lab"%lit;
  "sym	id=1246,name=""op_tick_10_page_45"",addrsize=absolute,scope=1,def=568+743+943,val=0x656C,seg=0,type=lab"%lit;
  "sym	id=1247,name=""op_tick_8_page_45"",addrsize=absolute,scope=1,def=568+370+821,val=0x655E,seg=0,type=lab"%lit;
  "sym	id=1248,name=""_op_tick_page_45_tail_8"",addrsize=absolute,scope=1,def=568+577+630+124,val=0x6558,seg=0,type=lab"%lit;
  "sym	id=1249,name=""_op_tick_page_45_tail_12"",addrsize=absolute,scope=1,def=568+577+1048+124,ref=568,val=0x6555,seg=0,type=lab"%lit;
  "sym	id=1250,name=""_op_tick_6_page_45_jmp"",addrsize=absolute,scope=1,def=568+577+757,ref=568+568+568,val=0x655B,seg=0,type=lab"%lit;
  "sym	id=1251,name=""_op_tick_page_45_tail_16"",addrsize=absolute,scope=1,def=568+577+178+124,ref=568,val=0x6552,seg=0,type=lab"%lit;
  "sym	id=1252,name=""_op_tick_page_45_tail_20"",addrsize=absolute,scope=1,def=568+577+682+124,ref=568+568,val=0x654F,seg=0,type=lab"%lit;
  "sym	id=1253,name=""_op_tick_page_45_tail_25"",addrsize=absolute,scope=1,def=568+577+1145+124,val=0x654C,seg=0,type=lab"%lit;
  "sym	id=1254,name=""_op_tick_page_45_tail_29"",addrsize=absolute,scope=1,def=568+577+1264+124,val=0x6549,seg=0,type=lab"%lit;
  "sym	id=1255,name=""_op_tick_page_45_tail_34"",addrsize=absolute,scope=1,def=568+577+485+124,ref=568,val=0x6546,seg=0,type=lab"%lit;
  "sym	id=1256,name=""_op_tick_page_45_tail_38"",addrsize=absolute,scope=1,def=568+577+554+124,ref=568,val=0x6543,seg=0,type=lab"%lit;
  "sym	id=1257,name=""_op_tick_page_45_tail_43"",addrsize=absolute,scope=1,def=568+577+1348+124,ref=568,val=0x6540,seg=0,type=lab"%lit;
  "sym	id=1258,name=""_op_tick_page_45_tail_47"",addrsize=absolute,scope=1,def=568+577+776+124,val=0x653D,seg=0,type=lab"%lit;
  "sym	id=1259,name=""_op_tick_page_45_tail_52"",addrsize=absolute,scope=1,def=568+577+671+124,ref=568,val=0x653A,seg=0,type=lab"%lit;
  "sym	id=1260,name=""_op_tick_page_45_tail_56"",addrsize=absolute,scope=1,def=568+577+498+124,ref=568,val=0x6537,seg=0,type=lab"%lit;
  "sym	id=1261,name=""_op_tick_page_45_tail_60"",addrsize=absolute,scope=1,def=568+577+1265+124,val=0x6534,seg=0,type=lab"%lit;
  "sym	id=1262,name=""op_tick_6_page_45"",addrsize=absolute,scope=1,def=568+577+824,val=0x652B,seg=0,type=lab"%lit;
  "sym	id=1263,name=""_op_tick_page_45_tail_7"",addrsize=absolute,scope=1,def=568+373+903+124,val=0x6525,seg=0,type=lab"%lit;
  "sym	id=1264,name=""_op_tick_page_45_tail_11"",addrsize=absolute,scope=1,def=568+373+1273+124,val=0x6522,seg=0,type=lab"%lit;
  "sym	id=1265,name=""_op_tick_4_page_45_jmp"",addrsize=absolute,scope=1,def=568+373+241,ref=568+568,val=0x6528,seg=0,type=lab"%lit;
  "sym	id=1266,name=""_op_tick_page_45_tail_15"",addrsize=absolute,scope=1,def=568+373+585+124,ref=568,val=0x651F,seg=0,type=lab"%lit;
  "sym	id=1267,name=""_op_tick_page_45_tail_19"",addrsize=absolute,scope=1,def=568+373+277+124,ref=568,val=0x651C,seg=0,type=lab"%lit;
  "sym	id=1268,name=""_op_tick_page_45_tail_24"",addrsize=absolute,scope=1,def=568+373+518+124,ref=568+568,val=0x6519,seg=0,type=lab"%lit;
  "sym	id=1269,name=""_op_tick_page_45_tail_28"",addrsize=absolute,scope=1,def=568+373+164+124,ref=568,val=0x6516,seg=0,type=lab"%lit;
  "sym	id=1270,name=""_op_tick_page_45_tail_33"",addrsize=absolute,scope=1,def=568+373+154+124,ref=568,val=0x6513,seg=0,type=lab"%lit;
  "sym	id=1271,name=""_op_tick_page_45_tail_37"",addrsize=absolute,scope=1,def=568+373+1257+124,ref=568,val=0x6510,seg=0,type=lab"%lit;
  "sym	id=1272,name=""_op_tick_page_45_tail_42"",addrsize=absolute,scope=1,def=568+373+1302+124,ref=568+568,val=0x650D,seg=0,type=lab"%lit;
  "sym	id=1273,name=""_op_tick_page_45_tail_46"",addrsize=absolute,scope=1,def=568+373+805+124,ref=568,val=0x650A,seg=0,type=lab"%lit;
  "sym	id=1274,name=""_op_tick_page_45_tail_51"",addrsize=absolute,scope=1,def=568+373+1124+124,ref=568,val=0x6507,seg=0,type=lab"%lit;
  "sym	id=1275,name=""_op_tick_page_45_tail_55"",addrsize=absolute,scope=1,def=568+373+323+124,ref=568,val=0x6504,seg=0,type=lab"%lit;
  "sym	id=1276,name=""_op_tick_page_45_tail_59"",addrsize=absolute,scope=1,def=568+373+1142+124,val=0x6501,seg=0,type=lab"%lit;
  "sym	id=1277,name=""op_tick_4_page_45"",addrsize=absolute,scope=1,def=568+373+1062,val=0x64F7,seg=0,type=lab"%lit;
  "sym	id=1278,name=""@D"",addrsize=absolute,parent=1279,def=607+138+254,ref=607+607,val=0x64F4,seg=0,type=lab"%lit;
  "sym	id=1279,name=""op_tick_66_page_44"",addrsize=absolute,scope=1,def=607+138+697,val=0x64C3,seg=0,type=lab"%lit;
  "sym	id=1280,name=""@D"",addrsize=absolute,parent=1281,def=607+1001+700,ref=607+607,val=0x64C0,seg=0,type=lab"%lit;
  "sym	id=1281,name=""op_tick_64_page_44"",addrsize=absolute,scope=1,def=607+1001+979,val=0x648F,seg=0,type=lab"%lit;
  "sym	id=1282,name=""@D"",addrsize=absolute,parent=1283,def=607+664+830,ref=607+607,val=0x648C,seg=0,type=lab"%lit;
  "sym	id=1283,name=""op_tick_62_page_44"",addrsize=absolute,scope=1,def=607+664+262,val=0x645B,seg=0,type=lab"%lit;
  "sym	id=1284,name=""@D"",addrsize=absolute,parent=1285,def=607+779+823,ref=607+607,val=0x6458,seg=0,type=lab"%lit;
  "sym	id=1285,name=""op_tick_60_page_44"",addrsize=absolute,scope=1,def=607+779+725,val=0x6427,seg=0,type=lab"%lit;
  "sym	id=1286,name=""@D"",addrsize=absolute,parent=1287,def=607+510+1188,ref=607+607,val=0x6424,seg=0,type=lab"%lit;
  "sym	id=1287,name=""op_tick_58_page_44"",addrsize=absolute,scope=1,def=607+510+986,val=0x63F3,seg=0,type=lab"%lit;
  "sym	id=1288,name=""@D"",addrsize=absolute,parent=1289,def=607+704+801,ref=607+607,val=0x63F0,seg=0,type=lab"%lit;
  "sym	id=1289,name=""op_tick_56_page_44"",addrsize=absolute,scope=1,def=607+704+1286,val=0x63BF,seg=0,type=lab"%lit;
  "sym	id=1290,name=""@D"",addrsize=absolute,parent=1291,def=607+621+1022,ref=607+607,val=0x63BC,seg=0,type=lab"%lit;
  "sym	id=1291,name=""op_tick_54_page_44"",addrsize=absolute,scope=1,def=607+621+1201,val=0x638B,seg=0,type=lab"%lit;
  "sym	id=1292,name=""op_tick_52_page_44"",addrsize=absolute,scope=1,def=607+884+153,val=0x6360,seg=0,type=lab"%lit;
  "sym	id=1293,name=""op_tick_50_page_44"",addrsize=absolute,scope=1,def=607+114+962,val=0x6338,seg=0,type=lab"%lit;
  "sym	id=1294,name=""op_tick_48_page_44"",addrsize=absolute,scope=1,def=607+1026+439,val=0x630F,seg=0,type=lab"%lit;
  "sym	id=1295,name=""op_tick_46_page_44"",addrsize=absolute,scope=1,def=607+647+1044,val=0x62EA,seg=0,type=lab"%lit;
  "sym	id=1296,name=""op_tick_44_page_44"",addrsize=absolute,scope=1,def=607+268+546,val=0x62C4,seg=0,type=lab"%lit;
  "sym	id=1297,name=""op_tick_42_page_44"",addrsize=absolute,scope=1,def=607+62+67,val=0x62A1,seg=0,type=lab"%lit;
  "sym	id=1298,name=""op_tick_40_page_44"",addrsize=absolute,scope=1,def=607+1114+1222,val=0x627E,seg=0,type=lab"%lit;
  "sym	id=1299,name=""op_tick_38_page_44"",addrsize=absolute,scope=1,def=607+609+1365,val=0x625E,seg=0,type=lab"%lit;
  "sym	id=1300,name=""@D"",addrsize=absolute,parent=1301,def=607+1236+1293,ref=607+607,val=0x625B,seg=0,type=lab"%lit;
  "sym	id=1301,name=""op_tick_36_page_44"",addrsize=absolute,scope=1,def=607+1236+860,val=0x622A,seg=0,type=lab"%lit;
  "sym	id=1302,name=""op_tick_34_page_44"",addrsize=absolute,scope=1,def=607+1036+1004,val=0x6204,seg=0,type=lab"%lit;
  "sym	id=1303,name=""op_tick_32_page_44"",addrsize=absolute,scope=1,def=607+1029+642,val=0x61E8,seg=0,type=lab"%lit;
  "sym	id=1304,name=""op_tick_30_page_44"",addrsize=absolute,scope=1,def=607+1017+1037,val=0x61CB,seg=0,type=lab"%lit;
  "sym	id=1305,name=""op_tick_28_page_44"",addrsize=absolute,scope=1,def=607+176+212,val=0x61B2,seg=0,type=lab"%lit;
  "sym	id=1306,name=""op_tick_26_page_44"",addrsize=absolute,scope=1,def=607+218+580,val=0x6198,seg=0,type=lab"%lit;
  "sym	id=1307,name=""op_tick_24_page_44"",addrsize=absolute,scope=1,def=607+1223+678,val=0x6181,seg=0,type=lab"%lit;
  "sym	id=1308,name=""op_tick_22_page_44"",addrsize=absolute,scope=1,def=607+1307+1192,val=0x616A,seg=0,type=lab"%lit;
  "sym	id=1309,name=""op_tick_20_page_44"",addrsize=absolute,scope=1,def=607+1277+32,val=0x6156,seg=0,type=lab"%lit;
  "sym	id=1310,name=""@D"",addrsize=absolute,parent=1311,def=607+98+504,ref=607+607,val=0x6153,seg=0,type=lab"%lit;
  "sym	id=1311,name=""op_tick_18_page_44"",addrsize=absolute,scope=1,def=607+98+1202,val=0x6122,seg=0,type=lab"%lit;
  "sym	id=1312,name=""op_tick_16_page_44"",addrsize=absolute,scope=1,def=607+923+820,val=0x610B,seg=0,type=lab"%lit;
  "sym	id=1313,name=""op_tick_14_page_44"",addrsize=absolute,scope=1,def=607+304+13,val=0x60FB,seg=0,type=lab"%lit;
  "sym	id=1314,name=""op_tick_12_page_44"",addrsize=absolute,scope=1,def=607+1148+767,val=0x60EA,seg=0,type=lab"%lit;
  "sym	id=1315,name=""op_tick_10_page_44"",addrsize=absolute,scope=1,def=607+743+943,val=0x60DD,seg=0,type=lab"%lit;
  "sym	id=1316,name=""op_tick_8_page_44"",addrsize=absolute,scope=1,def=607+370+821,val=0x60CF,seg=0,type=lab"%lit;
  "sym	id=1317,name=""_op_tick_page_44_tail_8"",addrsize=absolute,scope=1,def=607+577+630+124,val=0x60C9,seg=0,type=lab"%lit;
  "sym	id=1318,name=""_op_tick_page_44_tail_12"",addrsize=absolute,scope=1,def=607+577+1048+124,ref=607,val=0x60C6,seg=0,type=lab"%lit;
  "sym	id=1319,name=""_op_tick_6_page_44_jmp"",addrsize=absolute,scope=1,def=607+577+757,ref=607+607+607,val=0x60CC,seg=0,type=lab"%lit;
  "sym	id=1320,name=""_op_tick_page_44_tail_16"",addrsize=absolute,scope=1,def=607+577+178+124,ref=607,val=0x60C3,seg=0,type=lab"%lit;
  "sym	id=1321,name=""_op_tick_page_44_tail_20"",addrsize=absolute,scope=1,def=607+577+682+124,ref=607+607,val=0x60C0,seg=0,type=lab"%lit;
  "sym	id=1322,name=""_op_tick_page_44_tail_25"",addrsize=absolute,scope=1,def=607+577+1145+124,val=0x60BD,seg=0,type=lab"%lit;
  "sym	id=1323,name=""_op_tick_page_44_tail_29"",addrsize=absolute,scope=1,def=607+577+1264+124,val=0x60BA,seg=0,type=lab"%lit;
  "sym	id=1324,name=""_op_tick_page_44_tail_34"",addrsize=absolute,scope=1,def=607+577+485+124,ref=607,val=0x60B7,seg=0,type=lab"%lit;
  "sym	id=1325,name=""_op_tick_page_44_tail_38"",addrsize=absolute,scope=1,def=607+577+554+124,ref=607,val=0x60B4,seg=0,type=lab"%lit;
  "sym	id=1326,name=""_op_tick_page_44_tail_43"",addrsize=absolute,scope=1,def=607+577+1348+124,ref=607,val=0x60B1,seg=0,type=lab"%lit;
  "sym	id=1327,name=""_op_tick_page_44_tail_47"",addrsize=absolute,scope=1,def=607+577+776+124,val=0x60AE,seg=0,type=lab"%lit;
  "sym	id=1328,name=""_op_tick_page_44_tail_52"",addrsize=absolute,scope=1,def=607+577+671+124,ref=607,val=0x60AB,seg=0,type=lab"%lit;
  "sym	id=1329,name=""_op_tick_page_44_tail_56"",addrsize=absolute,scope=1,def=607+577+498+124,ref=607,val=0x60A8,seg=0,type=lab"%lit;
  "sym	id=1330,name=""_op_tick_page_44_tail_60"",addrsize=absolute,scope=1,def=607+577+1265+124,val=0x60A5,seg=0,type=lab"%lit;
  "sym	id=1331,name=""op_tick_6_page_44"",addrsize=absolute,scope=1,def=607+577+824,val=0x609C,seg=0,type=lab"%lit;
  "sym	id=1332,name=""_op_tick_page_44_tail_7"",addrsize=absolute,scope=1,def=607+373+903+124,val=0x6096,seg=0,type=lab"%lit;
  "sym	id=1333,name=""_op_tick_page_44_tail_11"",addrsize=absolute,scope=1,def=607+373+1273+124,val=0x6093,seg=0,type=lab"%lit;
  "sym	id=1334,name=""_op_tick_4_page_44_jmp"",addrsize=absolute,scope=1,def=607+373+241,ref=607+607,val=0x6099,seg=0,type=lab"%lit;
  "sym	id=1335,name=""_op_tick_page_44_tail_15"",addrsize=absolute,scope=1,def=607+373+585+124,ref=607,val=0x6090,seg=0,type=lab"%lit;
  "sym	id=1336,name=""_op_tick_page_44_tail_19"",addrsize=absolute,scope=1,def=607+373+277+124,ref=607,val=0x608D,seg=0,type=lab"%lit;
  "sym	id=1337,name=""_op_tick_page_44_tail_24"",addrsize=absolute,scope=1,def=607+373+518+124,ref=607+607,val=0x608A,seg=0,type=lab"%lit;
  "sym	id=1338,name=""_op_tick_page_44_tail_28"",addrsize=absolute,scope=1,def=607+373+164+124,ref=607,val=0x6087,seg=0,type=lab"%lit;
  "sym	id=1339,name=""_op_tick_page_44_tail_33"",addrsize=absolute,scope=1,def=607+373+154+124,ref=607,val=0x6084,seg=0,type=lab"%lit;
  "sym	id=1340,name=""_op_tick_page_44_tail_37"",addrsize=absolute,scope=1,def=607+373+1257+124,ref=607,val=0x6081,seg=0,type=lab"%lit;
  "sym	id=1341,name=""_op_tick_page_44_tail_42"",addrsize=absolute,scope=1,def=607+373+1302+124,ref=607+607,val=0x607E,seg=0,type=lab"%lit;
  "sym	id=1342,name=""_op_tick_page_44_tail_46"",addrsize=absolute,scope=1,def=607+373+805+124,ref=607,val=0x607B,seg=0,type=lab"%lit;
  "sym	id=1343,name=""_op_tick_page_44_tail_51"",addrsize=absolute,scope=1,def=607+373+1124+124,ref=607,val=0x6078,seg=0,type=lab"%lit;
  "sym	id=1344,name=""_op_tick_page_44_tail_55"",addrsize=absolute,scope=1,def=607+373+323+124,ref=607,val=0x6075,seg=0,type=lab"%lit;
  "sym	id=1345,name=""_op_tick_page_44_tail_59"",addrsize=absolute,scope=1,def=607+373+1142+124,val=0x6072,seg=0,type=lab"%lit;
  "sym	id=1346,name=""op_tick_4_page_44"",addrsize=absolute,scope=1,def=607+373+1062,val=0x6068,seg=0,type=lab"%lit;
  "sym	id=1347,name=""@D"",addrsize=absolute,parent=1348,def=1296+138+254,ref=1296+1296,val=0x6065,seg=0,type=lab"%lit;
  "sym	id=1348,name=""op_tick_66_page_43"",addrsize=absolute,scope=1,def=1296+138+697,val=0x6034,seg=0,type=lab"%lit;
  "sym	id=1349,name=""@D"",addrsize=absolute,parent=1350,def=1296+1001+700,ref=1296+1296,val=0x6031,seg=0,type=lab"%lit;
  "sym	id=1350,name=""op_tick_64_page_43"",addrsize=absolute,scope=1,def=1296+1001+979,val=0x6000,seg=0,type=lab"%lit;
  "sym	id=1351,name=""@D"",addrsize=absolute,parent=1352,def=1296+664+830,ref=1296+1296,val=0x5FFD,seg=0,type=lab"%lit;
  "sym	id=1352,name=""op_tick_62_page_43"",addrsize=absolute,scope=1,def=1296+664+262,val=0x5FCC,seg=0,type=lab"%lit;
  "sym	id=1353,name=""@D"",addrsize=absolute,parent=1354,def=1296+779+823,ref=1296+1296,val=0x5FC9,seg=0,type=lab"%lit;
  "sym	id=1354,name=""op_tick_60_page_43"",addrsize=absolute,scope=1,def=1296+779+725,val=0x5F98,seg=0,type=lab"%lit;
  "sym	id=1355,name=""@D"",addrsize=absolute,parent=1356,def=1296+510+1188,ref=1296+1296,val=0x5F95,seg=0,type=lab"%lit;
  "sym	id=1356,name=""op_tick_58_page_43"",addrsize=absolute,scope=1,def=1296+510+986,val=0x5F64,seg=0,type=lab"%lit;
  "sym	id=1357,name=""@D"",addrsize=absolute,parent=1358,def=1296+704+801,ref=1296+1296,val=0x5F61,seg=0,type=lab"%lit;
  "sym	id=1358,name=""op_tick_56_page_43"",addrsize=absolute,scope=1,def=1296+704+1286,val=0x5F30,seg=0,type=lab"%lit;
  "sym	id=1359,name=""@D"",addrsize=absolute,parent=1360,def=1296+621+1022,ref=1296+1296,val=0x5F2D,seg=0,type=lab"%lit;
  "sym	id=1360,name=""op_tick_54_page_43"",addrsize=absolute,scope=1,def=1296+621+1201,val=0x5EFC,seg=0,type=lab"%lit;
  "sym	id=1361,name=""op_tick_52_page_43"",addrsize=absolute,scope=1,def=1296+884+153,val=0x5ED1,seg=0,type=lab"%lit;
  "sym	id=1362,name=""op_tick_50_page_43"",addrsize=absolute,scope=1,def=1296+114+962,val=0x5EA9,seg=0,type=lab"%lit;
  "sym	id=1363,name=""op_tick_48_page_43"",addrsize=absolute,scope=1,def=1296+1026+439,val=0x5E80,seg=0,type=lab"%lit;
  "sym	id=1364,name=""op_tick_46_page_43"",addrsize=absolute,scope=1,def=1296+647+1044,val=0x5E5B,seg=0,type=lab"%lit;
  "sym	id=1365,name=""op_tick_44_page_43"",addrsize=absolute,scope=1,def=1296+268+546,val=0x5E35,seg=0,type=lab"%lit;
  "sym	id=1366,name=""op_tick_42_page_43"",addrsize=absolute,scope=1,def=1296+62+67,val=0x5E12,seg=0,type=lab"%lit;
  "sym	id=1367,name=""op_tick_40_page_43"",addrsize=absolute,scope=1,def=1296+1114+1222,val=0x5DEF,seg=0,type=lab"%lit;
  "sym	id=1368,name=""op_tick_38_page_43"",addrsize=absolute,scope=1,def=1296+609+1365,val=0x5DCF,seg=0,type=lab"%lit;
  "sym	id=1369,name=""@D"",addrsize=absolute,parent=1370,def=1296+1236+1293,ref=1296+1296,val=0x5DCC,seg=0,type=lab"%lit;
  "sym	id=1370,name=""op_tick_36_page_43"",addrsize=absolute,scope=1,def=1296+1236+860,val=0x5D9B,seg=0,type=lab"%lit;
  "sym	id=1371,name=""op_tick_34_page_43"",addrsize=absolute,scope=1,def=1296+1036+1004,val=0x5D75,seg=0,type=lab"%lit;
  "sym	id=1372,name=""op_tick_32_page_43"",addrsize=absolute,scope=1,def=1296+1029+642,val=0x5D59,seg=0,type=lab"%lit;
  "sym	id=1373,name=""op_tick_30_page_43"",addrsize=absolute,scope=1,def=1296+1017+1037,val=0x5D3C,seg=0,type=lab"%lit;
  "sym	id=1374,name=""op_tick_28_page_43"",addrsize=absolute,scope=1,def=1296+176+212,val=0x5D23,seg=0,type=lab"%lit;
  "sym	id=1375,name=""op_tick_26_page_43"",addrsize=absolute,scope=1,def=1296+218+580,val=0x5D09,seg=0,type=lab"%lit;
  "sym	id=1376,name=""op_tick_24_page_43"",addrsize=absolute,scope=1,def=1296+1223+678,val=0x5CF2,seg=0,type=lab"%lit;
  "sym	id=1377,name=""op_tick_22_page_43"",addrsize=absolute,scope=1,def=1296+1307+1192,val=0x5CDB,seg=0,type=lab"%lit;
  "sym	id=1378,name=""op_tick_20_page_43"",addrsize=absolute,scope=1,def=1296+1277+32,val=0x5CC7,seg=0,type=lab"%lit;
  "sym	id=1379,name=""@D"",addrsize=absolute,parent=1380,def=1296+98+504,ref=1296+1296,val=0x5CC4,seg=0,type=lab"%lit;
  "sym	id=1380,name=""op_tick_18_page_43"",addrsize=absolute,scope=1,def=1296+98+1202,val=0x5C93,seg=0,type=lab"%lit;
  "sym	id=1381,name=""op_tick_16_page_43"",addrsize=absolute,scope=1,def=1296+923+820,val=0x5C7C,seg=0,type=lab"%lit;
  "sym	id=1382,name=""op_tick_14_page_43"",addrsize=absolute,scope=1,def=1296+304+13,val=0x5C6C,seg=0,type=lab"%lit;
  "sym	id=1383,name=""op_tick_12_page_43"",addrsize=absolute,scope=1,def=1296+1148+767,val=0x5C5B,seg=0,type=lab"%lit;
  "sym	id=1384,name=""op_tick_10_page_43"",addrsize=absolute,scope=1,def=1296+743+943,val=0x5C4E,seg=0,type=lab"%lit;
  "sym	id=1385,name=""op_tick_8_page_43"",addrsize=absolute,scope=1,def=1296+370+821,val=0x5C40,seg=0,type=lab"%lit;
  "sym	id=1386,name=""_op_tick_page_43_tail_8"",addrsize=absolute,scope=1,def=1296+577+630+124,val=0x5C3A,seg=0,type=lab"%lit;
  "sym	id=1387,name=""_op_tick_page_43_tail_12"",addrsize=absolute,scope=1,def=1296+577+1048+124,ref=1296,val=0x5C37,seg=0,type=lab"%lit;
  "sym	id=1388,name=""_op_tick_6_page_43_jmp"",addrsize=absolute,scope=1,def=1296+577+757,ref=1296+1296+1296,val=0x5C3D,seg=0,type=lab"%lit;
  "sym	id=1389,name=""_op_tick_page_43_tail_16"",addrsize=absolute,scope=1,def=1296+577+178+124,ref=1296,val=0x5C34,seg=0,type=lab"%lit;
  "sym	id=1390,name=""_op_tick_page_43_tail_20"",addrsize=absolute,scope=1,def=1296+577+682+124,ref=1296+1296,val=0x5C31,seg=0,type=lab"%lit;
  "sym	id=1391,name=""_op_tick_page_43_tail_25"",addrsize=absolute,scope=1,def=1296+577+1145+124,val=0x5C2E,seg=0,type=lab"%lit;
  "sym	id=1392,name=""_op_tick_page_43_tail_29"",addrsize=absolute,scope=1,def=1296+577+1264+124,val=0x5C2B,seg=0,type=lab"%lit;
  "sym	id=1393,name=""_op_tick_page_43_tail_34"",addrsize=absolute,scope=1,def=1296+577+485+124,ref=1296,val=0x5C28,seg=0,type=lab"%lit;
  "sym	id=1394,name=""_op_tick_page_43_tail_38"",addrsize=absolute,scope=1,def=1296+577+554+124,ref=1296,val=0x5C25,seg=0,type=lab"%lit;
  "sym	id=1395,name=""_op_tick_page_43_tail_43"",addrsize=absolute,scope=1,def=1296+577+1348+124,ref=1296,val=0x5C22,seg=0,type=lab"%lit;
  "sym	id=1396,name=""_op_tick_page_43_tail_47"",addrsize=absolute,scope=1,def=1296+577+776+124,val=0x5C1F,seg=0,type=lab"%lit;
  "sym	id=1397,name=""_op_tick_page_43_tail_52"",addrsize=absolute,scope=1,def=1296+577+671+124,ref=1296,val=0x5C1C,seg=0,type=lab"%lit;
  "sym	id=1398,name=""_op_tick_page_43_tail_56"",addrsize=absolute,scope=1,def=1296+577+498+124,ref=1296,val=0x5C19,seg=0,type=lab"%lit;
  "sym	id=1399,name=""_op_tick_page_43_tail_60"",addrsize=absolute,scope=1,def=1296+577+1265+124,val=0x5C16,seg=0,type=lab"%lit;
  "sym	id=1400,name=""op_tick_6_page_43"",addrsize=absolute,scope=1,def=1296+577+824,val=0x5C0D,seg=0,type=lab"%lit;
  "sym	id=1401,name=""_op_tick_page_43_tail_7"",addrsize=absolute,scope=1,def=1296+373+903+124,val=0x5C07,seg=0,type=lab"%lit;
  "sym	id=1402,name=""_op_tick_page_43_tail_11"",addrsize=absolute,scope=1,def=1296+373+1273+124,val=0x5C04,seg=0,type=lab"%lit;
  "sym	id=1403,name=""_op_tick_4_page_43_jmp"",addrsize=absolute,scope=1,def=1296+373+241,ref=1296+1296,val=0x5C0A,seg=0,type=lab"%lit;
  "sym	id=1404,name=""_op_tick_page_43_tail_15"",addrsize=absolute,scope=1,def=1296+373+585+124,ref=1296,val=0x5C01,seg=0,type=lab"%lit;
  "sym	id=1405,name=""_op_tick_page_43_tail_19"",addrsize=absolute,scope=1,def=1296+373+277+124,ref=1296,val=0x5BFE,seg=0,type=lab"%lit;
  "sym	id=1406,name=""_op_tick_page_43_tail_24"",addrsize=absolute,scope=1,def=1296+373+518+124,ref=1296+1296,val=0x5BFB,seg=0,type=lab"%lit;
  "sym	id=1407,name=""_op_tick_page_43_tail_28"",addrsize=absolute,scope=1,def=1296+373+164+124,ref=1296,val=0x5BF8,seg=0,type=lab"%lit;
  "sym	id=1408,name=""_op_tick_page_43_tail_33"",addrsize=absolute,scope=1,def=1296+373+154+124,ref=1296,val=0x5BF5,seg=0,type=lab"%lit;
  "sym	id=1409,name=""_op_tick_page_43_tail_37"",addrsize=absolute,scope=1,def=1296+373+1257+124,ref=1296,val=0x5BF2,seg=0,type=lab"%lit;
  "sym	id=1410,name=""_op_tick_page_43_tail_42"",addrsize=absolute,scope=1,def=1296+373+1302+124,ref=1296+1296,val=0x5BEF,seg=0,type=lab"%lit;
  "sym	id=1411,name=""_op_tick_page_43_tail_46"",addrsize=absolute,scope=1,def=1296+373+805+124,ref=1296,val=0x5BEC,seg=0,type=lab"%lit;
  "sym	id=1412,name=""_op_tick_page_43_tail_51"",addrsize=absolute,scope=1,def=1296+373+1124+124,ref=1296,val=0x5BE9,seg=0,type=lab"%lit;
  "sym	id=1413,name=""_op_tick_page_43_tail_55"",addrsize=absolute,scope=1,def=1296+373+323+124,ref=1296,val=0x5BE6,seg=0,type=lab"%lit;
  "sym	id=1414,name=""_op_tick_page_43_tail_59"",addrsize=absolute,scope=1,def=1296+373+1142+124,val=0x5BE3,seg=0,type=lab"%lit;
  "sym	id=1415,name=""op_tick_4_page_43"",addrsize=absolute,scope=1,def=1296+373+1062,val=0x5BD9,seg=0,type=lab"%lit;
  "sym	id=1416,name=""@D"",addrsize=absolute,parent=1417,def=875+138+254,ref=875+875,val=0x5BD6,seg=0,type=lab"%lit;
  "sym	id=1417,name=""op_tick_66_page_42"",addrsize=absolute,scope=1,def=875+138+697,val=0x5BA5,seg=0,type=lab"%lit;
  "sym	id=1418,name=""@D"",addrsize=absolute,parent=1419,def=875+1001+700,ref=875+875,val=0x5BA2,seg=0,type=lab"%lit;
  "sym	id=1419,name=""op_tick_64_page_42"",addrsize=absolute,scope=1,def=875+1001+979,val=0x5B71,seg=0,type=lab"%lit;
  "sym	id=1420,name=""@D"",addrsize=absolute,parent=1421,def=875+664+830,ref=875+875,val=0x5B6E,seg=0,type=lab"%lit;
  "sym	id=1421,name=""op_tick_62_page_42"",addrsize=absolute,scope=1,def=875+664+262,val=0x5B3D,seg=0,type=lab"%lit;
  "sym	id=1422,name=""@D"",addrsize=absolute,parent=1423,def=875+779+823,ref=875+875,val=0x5B3A,seg=0,type=lab"%lit;
  "sym	id=1423,name=""op_tick_60_page_42"",addrsize=absolute,scope=1,def=875+779+725,val=0x5B09,seg=0,type=lab"%lit;
  "sym	id=1424,name=""@D"",addrsize=absolute,parent=1425,def=875+510+1188,ref=875+875,val=0x5B06,seg=0,type=lab"%lit;
  "sym	id=1425,name=""op_tick_58_page_42"",addrsize=absolute,scope=1,def=875+510+986,val=0x5AD5,seg=0,type=lab"%lit;
  "sym	id=1426,name=""@D"",addrsize=absolute,parent=1427,def=875+704+801,ref=875+875,val=0x5AD2,seg=0,type=lab"%lit;
  "sym	id=1427,name=""op_tick_56_page_42"",addrsize=absolute,scope=1,def=875+704+1286,val=0x5AA1,seg=0,type=lab"%lit;
  "sym	id=1428,name=""@D"",addrsize=absolute,parent=1429,def=875+621+1022,ref=875+875,val=0x5A9E,seg=0,type=lab"%lit;
  "sym	id=1429,name=""op_tick_54_page_42"",addrsize=absolute,scope=1,def=875+621+1201,val=0x5A6D,seg=0,type=lab"%lit;
  "sym	id=1430,name=""op_tick_52_page_42"",addrsize=absolute,scope=1,def=875+884+153,val=0x5A42,seg=0,type=lab"%lit;
  "sym	id=1431,name=""op_tick_50_page_42"",addrsize=absolute,scope=1,def=875+114+962,val=0x5A1A,seg=0,type=lab"%lit;
  "sym	id=1432,name=""op_tick_48_page_42"",addrsize=absolute,scope=1,def=875+1026+439,val=0x59F1,seg=0,type=lab"%lit;
  "sym	id=1433,name=""op_tick_46_page_42"",addrsize=absolute,scope=1,def=875+647+1044,val=0x59CC,seg=0,type=lab"%lit;
  "sym	id=1434,name=""op_tick_44_page_42"",addrsize=absolute,scope=1,def=875+268+546,val=0x59A6,seg=0,type=lab"%lit;
  "sym	id=1435,name=""op_tick_42_page_42"",addrsize=absolute,scope=1,def=875+62+67,val=0x5983,seg=0,type=lab"%lit;
  "sym	id=1436,name=""op_tick_40_page_42"",addrsize=absolute,scope=1,def=875+1114+1222,val=0x5960,seg=0,type=lab"%lit;
  "sym	id=1437,name=""op_tick_38_page_42"",addrsize=absolute,scope=1,def=875+609+1365,val=0x5940,seg=0,type=lab"%lit;
  "sym	id=1438,name=""@D"",addrsize=absolute,parent=1439,def=875+1236+1293,ref=875+875,val=0x593D,seg=0,type=lab"%lit;
  "sym	id=1439,name=""op_tick_36_page_42"",addrsize=absolute,scope=1,def=875+1236+860,val=0x590C,seg=0,type=lab"%lit;
  "sym	id=1440,name=""op_tick_34_page_42"",addrsize=absolute,scope=1,def=875+1036+1004,val=0x58E6,seg=0,type=lab"%lit;
  "sym	id=1441,name=""op_tick_32_page_42"",addrsize=absolute,scope=1,def=875+1029+642,val=0x58CA,seg=0,type=lab"%lit;
  "sym	id=1442,name=""op_tick_30_page_42"",addrsize=absolute,scope=1,def=875+1017+1037,val=0x58AD,seg=0,type=lab"%lit;
  "sym	id=1443,name=""op_tick_28_page_42"",addrsize=absolute,scope=1,def=875+176+212,val=0x5894,seg=0,type=lab"%lit;
  "sym	id=1444,name=""op_tick_26_page_42"",addrsize=absolute,scope=1,def=875+218+580,val=0x587A,seg=0,type=lab"%lit;
  "sym	id=1445,name=""op_tick_24_page_42"",addrsize=absolute,scope=1,def=875+1223+678,val=0x5863,seg=0,type=lab"%lit;
  "sym	id=1446,name=""op_tick_22_page_42"",addrsize=absolute,scope=1,def=875+1307+1192,val=0x584C,seg=0,type=lab"%lit;
  "sym	id=1447,name=""op_tick_20_page_42"",addrsize=absolute,scope=1,def=875+1277+32,val=0x5838,seg=0,type=lab"%lit;
  "sym	id=1448,name=""@D"",addrsize=absolute,parent=1449,def=875+98+504,ref=875+875,val=0x5835,seg=0,type=lab"%lit;
  "sym	id=1449,name=""op_tick_18_page_42"",addrsize=absolute,scope=1,def=875+98+1202,val=0x5804,seg=0,type=lab"%lit;
  "sym	id=1450,name=""op_tick_16_page_42"",addrsize=absolute,scope=1,def=875+923+820,val=0x57ED,seg=0,type=lab"%lit;
  "sym	id=1451,name=""op_tick_14_page_42"",addrsize=absolute,scope=1,def=875+304+13,val=0x57DD,seg=0,type=lab"%lit;
  "sym	id=1452,name=""op_tick_12_page_42"",addrsize=absolute,scope=1,def=875+1148+767,val=0x57CC,seg=0,type=lab"%lit;
  "sym	id=1453,name=""op_tick_10_page_42"",addrsize=absolute,scope=1,def=875+743+943,val=0x57BF,seg=0,type=lab"%lit;
  "sym	id=1454,name=""op_tick_8_page_42"",addrsize=absolute,scope=1,def=875+370+821,val=0x57B1,seg=0,type=lab"%lit;
  "sym	id=1455,name=""_op_tick_page_42_tail_8"",addrsize=absolute,scope=1,def=875+577+630+124,val=0x57AB,seg=0,type=lab"%lit;
  "sym	id=1456,name=""_op_tick_page_42_tail_12"",addrsize=absolute,scope=1,def=875+577+1048+124,ref=875,val=0x57A8,seg=0,type=lab"%lit;
  "sym	id=1457,name=""_op_tick_6_page_42_jmp"",addrsize=absolute,scope=1,def=875+577+757,ref=875+875+875,val=0x57AE,seg=0,type=lab"%lit;
  "sym	id=1458,name=""_op_tick_page_42_tail_16"",addrsize=absolute,scope=1,def=875+577+178+124,ref=875,val=0x57A5,seg=0,type=lab"%lit;
  "sym	id=1459,name=""_op_tick_page_42_tail_20"",addrsize=absolute,scope=1,def=875+577+682+124,ref=875+875,val=0x57A2,seg=0,type=lab"%lit;
  "sym	id=1460,name=""_op_tick_page_42_tail_25"",addrsize=absolute,scope=1,def=875+577+1145+124,val=0x579F,seg=0,type=lab"%lit;
  "sym	id=1461,name=""_op_tick_page_42_tail_29"",addrsize=absolute,scope=1,def=875+577+1264+124,val=0x579C,seg=0,type=lab"%lit;
  "sym	id=1462,name=""_op_tick_page_42_tail_34"",addrsize=absolute,scope=1,def=875+577+485+124,ref=875,val=0x5799,seg=0,type=lab"%lit;
  "sym	id=1463,name=""_op_tick_page_42_tail_38"",addrsize=absolute,scope=1,def=875+577+554+124,ref=875,val=0x5796,seg=0,type=lab"%lit;
  "sym	id=1464,name=""_op_tick_page_42_tail_43"",addrsize=absolute,scope=1,def=875+577+1348+124,ref=875,val=0x5793,seg=0,type=lab"%lit;
  "sym	id=1465,name=""_op_tick_page_42_tail_47"",addrsize=absolute,scope=1,def=875+577+776+124,val=0x5790,seg=0,type=lab"%lit;
  "sym	id=1466,name=""_op_tick_page_42_tail_52"",addrsize=absolute,scope=1,def=875+577+671+124,ref=875,val=0x578D,seg=0,type=lab"%lit;
  "sym	id=1467,name=""_op_tick_page_42_tail_56"",addrsize=absolute,scope=1,def=875+577+498+124,ref=875,val=0x578A,seg=0,type=lab"%lit;
  "sym	id=1468,name=""_op_tick_page_42_tail_60"",addrsize=absolute,scope=1,def=875+577+1265+124,val=0x5787,seg=0,type=lab"%lit;
  "sym	id=1469,name=""op_tick_6_page_42"",addrsize=absolute,scope=1,def=875+577+824,val=0x577E,seg=0,type=lab"%lit;
  "sym	id=1470,name=""_op_tick_page_42_tail_7"",addrsize=absolute,scope=1,def=875+373+903+124,val=0x5778,seg=0,type=lab"%lit;
  "sym	id=1471,name=""_op_tick_page_42_tail_11"",addrsize=absolute,scope=1,def=875+373+1273+124,val=0x5775,seg=0,type=lab"%lit;
  "sym	id=1472,name=""_op_tick_4_page_42_jmp"",addrsize=absolute,scope=1,def=875+373+241,ref=875+875,val=0x577B,seg=0,type=lab"%lit;
  "sym	id=1473,name=""_op_tick_page_42_tail_15"",addrsize=absolute,scope=1,def=875+373+585+124,ref=875,val=0x5772,seg=0,type=lab"%lit;
  "sym	id=1474,name=""_op_tick_page_42_tail_19"",addrsize=absolute,scope=1,def=875+373+277+124,ref=875,val=0x576F,seg=0,type=lab"%lit;
  "sym	id=1475,name=""_op_tick_page_42_tail_24"",addrsize=absolute,scope=1,def=875+373+518+124,ref=875+875,val=0x576C,seg=0,type=lab"%lit;
  "sym	id=1476,name=""_op_tick_page_42_tail_28"",addrsize=absolute,scope=1,def=875+373+164+124,ref=875,val=0x5769,seg=0,type=lab"%lit;
  "sym	id=1477,name=""_op_tick_page_42_tail_33"",addrsize=absolute,scope=1,def=875+373+154+124,ref=875,val=0x5766,seg=0,type=lab"%lit;
  "sym	id=1478,name=""_op_tick_page_42_tail_37"",addrsize=absolute,scope=1,def=875+373+1257+124,ref=875,val=0x5763,seg=0,type=lab"%lit;
  "sym	id=1479,name=""_op_tick_page_42_tail_42"",addrsize=absolute,scope=1,def=875+373+1302+124,ref=875+875,val=0x5760,seg=0,type=lab"%lit;
  "sym	id=1480,name=""_op_tick_page_42_tail_46"",addrsize=absolute,scope=1,def=875+373+805+124,ref=875,val=0x575D,seg=0,type=lab"%lit;
  "sym	id=1481,name=""_op_tick_page_42_tail_51"",addrsize=absolute,scope=1,def=875+373+1124+124,ref=875,val=0x575A,seg=0,type=lab"%lit;
  "sym	id=1482,name=""_op_tick_page_42_tail_55"",addrsize=absolute,scope=1,def=875+373+323+124,ref=875,val=0x5757,seg=0,type=lab"%lit;
  "sym	id=1483,name=""_op_tick_page_42_tail_59"",addrsize=absolute,scope=1,def=875+373+1142+124,val=0x5754,seg=0,type=lab"%lit;
  "sym	id=1484,name=""op_tick_4_page_42"",addrsize=absolute,scope=1,def=875+373+1062,val=0x574A,seg=0,type=lab"%lit;
  "sym	id=1485,name=""@D"",addrsize=absolute,parent=1486,def=28+138+254,ref=28+28,val=0x5747,seg=0,type=lab"%lit;
  "sym	id=1486,name=""op_tick_66_page_41"",addrsize=absolute,scope=1,def=28+138+697,val=0x5716,seg=0,type=lab"%lit;
  "sym	id=1487,name=""@D"",addrsize=absolute,parent=1488,def=28+1001+700,ref=28+28,val=0x5713,seg=0,type=lab"%lit;
  "sym	id=1488,name=""op_tick_64_page_41"",addrsize=absolute,scope=1,def=28+1001+979,val=0x56E2,seg=0,type=lab"%lit;
  "sym	id=1489,name=""@D"",addrsize=absolute,parent=1490,def=28+664+830,ref=28+28,val=0x56DF,seg=0,type=lab"%lit;
  "sym	id=1490,name=""op_tick_62_page_41"",addrsize=absolute,scope=1,def=28+664+262,val=0x56AE,seg=0,type=lab"%lit;
  "sym	id=1491,name=""@D"",addrsize=absolute,parent=1492,def=28+779+823,ref=28+28,val=0x56AB,seg=0,type=lab"%lit;
  "sym	id=1492,name=""op_tick_60_page_41"",addrsize=absolute,scope=1,def=28+779+725,val=0x567A,seg=0,type=lab"%lit;
  "sym	id=1493,name=""@D"",addrsize=absolute,parent=1494,def=28+510+1188,ref=28+28,val=0x5677,seg=0,type=lab"%lit;
  "sym	id=1494,name=""op_tick_58_page_41"",addrsize=absolute,scope=1,def=28+510+986,val=0x5646,seg=0,type=lab"%lit;
  "sym	id=1495,name=""@D"",addrsize=absolute,parent=1496,def=28+704+801,ref=28+28,val=0x5643,seg=0,type=lab"%lit;
  "sym	id=1496,name=""op_tick_56_page_41"",addrsize=absolute,scope=1,def=28+704+1286,val=0x5612,seg=0,type=lab"%lit;
  "sym	id=1497,name=""@D"",addrsize=absolute,parent=1498,def=28+621+1022,ref=28+28,val=0x560F,seg=0,type=lab"%lit;
  "sym	id=1498,name=""op_tick_54_page_41"",addrsize=absolute,scope=1,def=28+621+1201,val=0x55DE,seg=0,type=lab"%lit;
  "sym	id=1499,name=""op_tick_52_page_41"",addrsize=absolute,scope=1,def=28+884+153,val=0x55B3,seg=0,type=lab"%lit;
  "sym	id=1500,name=""op_tick_50_page_41"",addrsize=absolute,scope=1,def=28+114+962,val=0x558B,seg=0,type=lab"%lit;
  "sym	id=1501,name=""op_tick_48_page_41"",addrsize=absolute,scope=1,def=28+1026+439,val=0x5562,seg=0,type=lab"%lit;
  "sym	id=1502,name=""op_tick_46_page_41"",addrsize=absolute,scope=1,def=28+647+1044,val=0x553D,seg=0,type=lab"%lit;
  "sym	id=1503,name=""op_tick_44_page_41"",addrsize=absolute,scope=1,def=28+268+546,val=0x5517,seg=0,type=lab"%lit;
  "sym	id=1504,name=""op_tick_42_page_41"",addrsize=absolute,scope=1,def=28+62+67,val=0x54F4,seg=0,type=lab"%lit;
  "sym	id=1505,name=""op_tick_40_page_41"",addrsize=absolute,scope=1,def=28+1114+1222,val=0x54D1,seg=0,type=lab"%lit;
  "sym	id=1506,name=""op_tick_38_page_41"",addrsize=absolute,scope=1,def=28+609+1365,val=0x54B1,seg=0,type=lab"%lit;
  "sym	id=1507,name=""@D"",addrsize=absolute,parent=1508,def=28+1236+1293,ref=28+28,val=0x54AE,seg=0,type=lab"%lit;
  "sym	id=1508,name=""op_tick_36_page_41"",addrsize=absolute,scope=1,def=28+1236+860,val=0x547D,seg=0,type=lab"%lit;
  "sym	id=1509,name=""op_tick_34_page_41"",addrsize=absolute,scope=1,def=28+1036+1004,val=0x5457,seg=0,type=lab"%lit;
  "sym	id=1510,name=""op_tick_32_page_41"",addrsize=absolute,scope=1,def=28+1029+642,val=0x543B,seg=0,type=lab"%lit;
  "sym	id=1511,name=""op_tick_30_page_41"",addrsize=absolute,scope=1,def=28+1017+1037,val=0x541E,seg=0,type=lab"%lit;
  "sym	id=1512,name=""op_tick_28_page_41"",addrsize=absolute,scope=1,def=28+176+212,val=0x5405,seg=0,type=lab"%lit;
  "sym	id=1513,name=""op_tick_26_page_41"",addrsize=absolute,scope=1,def=28+218+580,val=0x53EB,seg=0,type=lab"%lit;
  "sym	id=1514,name=""op_tick_24_page_41"",addrsize=absolute,scope=1,def=28+1223+678,val=0x53D4,seg=0,type=lab"%lit;
  "sym	id=1515,name=""op_tick_22_page_41"",addrsize=absolute,scope=1,def=28+1307+1192,val=0x53BD,seg=0,type=lab"%lit;
  "sym	id=1516,name=""op_tick_20_page_41"",addrsize=absolute,scope=1,def=28+1277+32,val=0x53A9,seg=0,type=lab"%lit;
  "sym	id=1517,name=""@D"",addrsize=absolute,parent=1518,def=28+98+504,ref=28+28,val=0x53A6,seg=0,type=lab"%lit;
  "sym	id=1518,name=""op_tick_18_page_41"",addrsize=absolute,scope=1,def=28+98+1202,val=0x5375,seg=0,type=lab"%lit;
  "sym	id=1519,name=""op_tick_16_page_41"",addrsize=absolute,scope=1,def=28+923+820,val=0x535E,seg=0,type=lab"%lit;
  "sym	id=1520,name=""op_tick_14_page_41"",addrsize=absolute,scope=1,def=28+304+13,val=0x534E,seg=0,type=lab"%lit;
  "sym	id=1521,name=""op_tick_12_page_41"",addrsize=absolute,scope=1,def=28+1148+767,val=0x533D,seg=0,type=lab"%lit;
  "sym	id=1522,name=""op_tick_10_page_41"",addrsize=absolute,scope=1,def=28+743+943,val=0x5330,seg=0,type=lab"%lit;
  "sym	id=1523,name=""op_tick_8_page_41"",addrsize=absolute,scope=1,def=28+370+821,val=0x5322,seg=0,type=lab"%lit;
  "sym	id=1524,name=""_op_tick_page_41_tail_8"",addrsize=absolute,scope=1,def=28+577+630+124,val=0x531C,seg=0,type=lab"%lit;
  "sym	id=1525,name=""_op_tick_page_41_tail_12"",addrsize=absolute,scope=1,def=28+577+1048+124,ref=28,val=0x5319,seg=0,type=lab"%lit;
  "sym	id=1526,name=""_op_tick_6_page_41_jmp"",addrsize=absolute,scope=1,def=28+577+757,ref=28+28+28,val=0x531F,seg=0,type=lab"%lit;
  "sym	id=1527,name=""_op_tick_page_41_tail_16"",addrsize=absolute,scope=1,def=28+577+178+124,ref=28,val=0x5316,seg=0,type=lab"%lit;
  "sym	id=1528,name=""_op_tick_page_41_tail_20"",addrsize=absolute,scope=1,def=28+577+682+124,ref=28+28,val=0x5313,seg=0,type=lab"%lit;
  "sym	id=1529,name=""_op_tick_page_41_tail_25"",addrsize=absolute,scope=1,def=28+577+1145+124,val=0x5310,seg=0,type=lab"%lit;
  "sym	id=1530,name=""_op_tick_page_41_tail_29"",addrsize=absolute,scope=1,def=28+577+1264+124,val=0x530D,seg=0,type=lab"%lit;
  "sym	id=1531,name=""_op_tick_page_41_tail_34"",addrsize=absolute,scope=1,def=28+577+485+124,ref=28,val=0x530A,seg=0,type=lab"%lit;
  "sym	id=1532,name=""_op_tick_page_41_tail_38"",addrsize=absolute,scope=1,def=28+577+554+124,ref=28,val=0x5307,seg=0,type=lab"%lit;
  "sym	id=1533,name=""_op_tick_page_41_tail_43"",addrsize=absolute,scope=1,def=28+577+1348+124,ref=28,val=0x5304,seg=0,type=lab"%lit;
  "sym	id=1534,name=""_op_tick_page_41_tail_47"",addrsize=absolute,scope=1,def=28+577+776+124,val=0x5301,seg=0,type=lab"%lit;
  "sym	id=1535,name=""_op_tick_page_41_tail_52"",addrsize=absolute,scope=1,def=28+577+671+124,ref=28,val=0x52FE,seg=0,type=lab"%lit;
  "sym	id=1536,name=""_op_tick_page_41_tail_56"",addrsize=absolute,scope=1,def=28+577+498+124,ref=28,val=0x52FB,seg=0,type=lab"%lit;
  "sym	id=1537,name=""_op_tick_page_41_tail_60"",addrsize=absolute,scope=1,def=28+577+1265+124,val=0x52F8,seg=0,type=lab"%lit;
  "sym	id=1538,name=""op_tick_6_page_41"",addrsize=absolute,scope=1,def=28+577+824,val=0x52EF,seg=0,type=lab"%lit;
  "sym	id=1539,name=""_op_tick_page_41_tail_7"",addrsize=absolute,scope=1,def=28+373+903+124,val=0x52E9,seg=0,type=lab"%lit;
  "sym	id=1540,name=""_op_tick_page_41_tail_11"",addrsize=absolute,scope=1,def=28+373+1273+124,val=0x52E6,seg=0,type=lab"%lit;
  "sym	id=1541,name=""_op_tick_4_page_41_jmp"",addrsize=absolute,scope=1,def=28+373+241,ref=28+28,val=0x52EC,seg=0,type=lab"%lit;
  "sym	id=1542,name=""_op_tick_page_41_tail_15"",addrsize=absolute,scope=1,def=28+373+585+124,ref=28,val=0x52E3,seg=0,type=lab"%lit;
  "sym	id=1543,name=""_op_tick_page_41_tail_19"",addrsize=absolute,scope=1,def=28+373+277+124,ref=28,val=0x52E0,seg=0,type=lab"%lit;
  "sym	id=1544,name=""_op_tick_page_41_tail_24"",addrsize=absolute,scope=1,def=28+373+518+124,ref=28+28,val=0x52DD,seg=0,type=lab"%lit;
  "sym	id=1545,name=""_op_tick_page_41_tail_28"",addrsize=absolute,scope=1,def=28+373+164+124,ref=28,val=0x52DA,seg=0,type=lab"%lit;
  "sym	id=1546,name=""_op_tick_page_41_tail_33"",addrsize=absolute,scope=1,def=28+373+154+124,ref=28,val=0x52D7,seg=0,type=lab"%lit;
  "sym	id=1547,name=""_op_tick_page_41_tail_37"",addrsize=absolute,scope=1,def=28+373+1257+124,ref=28,val=0x52D4,seg=0,type=lab"%lit;
  "sym	id=1548,name=""_op_tick_page_41_tail_42"",addrsize=absolute,scope=1,def=28+373+1302+124,ref=28+28,val=0x52D1,seg=0,type=lab"%lit;
  "sym	id=1549,name=""_op_tick_page_41_tail_46"",addrsize=absolute,scope=1,def=28+373+805+124,ref=28,val=0x52CE,seg=0,type=lab"%lit;
  "sym	id=1550,name=""_op_tick_page_41_tail_51"",addrsize=absolute,scope=1,def=28+373+1124+124,ref=28,val=0x52CB,seg=0,type=lab"%lit;
  "sym	id=1551,name=""_op_tick_page_41_tail_55"",addrsize=absolute,scope=1,def=28+373+323+124,ref=28,val=0x52C8,seg=0,type=lab"%lit;
  "sym	id=1552,name=""_op_tick_page_41_tail_59"",addrsize=absolute,scope=1,def=28+373+1142+124,val=0x52C5,seg=0,type=lab"%lit;
  "sym	id=1553,name=""op_tick_4_page_41"",addrsize=absolute,scope=1,def=28+373+1062,val=0x52BB,seg=0,type=lab"%lit;
  "sym	id=1554,name=""@D"",addrsize=absolute,parent=1555,def=0+138+254,ref=0+0,val=0x52B8,seg=0,type=lab"%lit;
  "sym	id=1555,name=""op_tick_66_page_40"",addrsize=absolute,scope=1,def=0+138+697,val=0x5287,seg=0,type=lab"%lit;
  "sym	id=1556,name=""@D"",addrsize=absolute,parent=1557,def=0+1001+700,ref=0+0,val=0x5284,seg=0,type=lab"%lit;
  "sym	id=1557,name=""op_tick_64_page_40"",addrsize=absolute,scope=1,def=0+1001+979,val=0x5253,seg=0,type=lab"%lit;
  "sym	id=1558,name=""@D"",addrsize=absolute,parent=1559,def=0+664+830,ref=0+0,val=0x5250,seg=0,type=lab"%lit;
  "sym	id=1559,name=""op_tick_62_page_40"",addrsize=absolute,scope=1,def=0+664+262,val=0x521F,seg=0,type=lab"%lit;
  "sym	id=1560,name=""@D"",addrsize=absolute,parent=1561,def=0+779+823,ref=0+0,val=0x521C,seg=0,type=lab"%lit;
  "sym	id=1561,name=""op_tick_60_page_40"",addrsize=absolute,scope=1,def=0+779+725,val=0x51EB,seg=0,type=lab"%lit;
  "sym	id=1562,name=""@D"",addrsize=absolute,parent=1563,def=0+510+1188,ref=0+0,val=0x51E8,seg=0,type=lab"%lit;
  "sym	id=1563,name=""op_tick_58_page_40"",addrsize=absolute,scope=1,def=0+510+986,val=0x51B7,seg=0,type=lab"%lit;
  "sym	id=1564,name=""@D"",addrsize=absolute,parent=1565,def=0+704+801,ref=0+0,val=0x51B4,seg=0,type=lab"%lit;
  "sym	id=1565,name=""op_tick_56_page_40"",addrsize=absolute,scope=1,def=0+704+1286,val=0x5183,seg=0,type=lab"%lit;
  "sym	id=1566,name=""@D"",addrsize=absolute,parent=1567,def=0+621+1022,ref=0+0,val=0x5180,seg=0,type=lab"%lit;
  "sym	id=1567,name=""op_tick_54_page_40"",addrsize=absolute,scope=1,def=0+621+1201,val=0x514F,seg=0,type=lab"%lit;
  "sym	id=1568,name=""op_tick_52_page_40"",addrsize=absolute,scope=1,def=0+884+153,val=0x5124,seg=0,type=lab"%lit;
  "sym	id=1569,name=""op_tick_50_page_40"",addrsize=absolute,scope=1,def=0+114+962,val=0x50FC,seg=0,type=lab"%lit;
  "sym	id=1570,name=""op_tick_48_page_40"",addrsize=absolute,scope=1,def=0+1026+439,val=0x50D3,seg=0,type=lab"%lit;
  "sym	id=1571,name=""op_tick_46_page_40"",addrsize=absolute,scope=1,def=0+647+1044,val=0x50AE,seg=0,type=lab"%lit;
  "sym	id=1572,name=""op_tick_44_page_40"",addrsize=absolute,scope=1,def=0+268+546,val=0x5088,seg=0,type=lab"%lit;
  "sym	id=1573,name=""op_tick_42_page_40"",addrsize=absolute,scope=1,def=0+62+67,val=0x5065,seg=0,type=lab"%lit;
  "sym	id=1574,name=""op_tick_40_page_40"",addrsize=absolute,scope=1,def=0+1114+1222,val=0x5042,seg=0,type=lab"%lit;
  "sym	id=1575,name=""op_tick_38_page_40"",addrsize=absolute,scope=1,def=0+609+1365,val=0x5022,seg=0,type=lab"%lit;
  "sym	id=1576,name=""@D"",addrsize=absolute,parent=1577,def=0+1236+1293,ref=0+0,val=0x501F,seg=0,type=lab"%lit;
  "sym	id=1577,name=""op_tick_36_page_40"",addrsize=absolute,scope=1,def=0+1236+860,val=0x4FEE,seg=0,type=lab"%lit;
  "sym	id=1578,name=""op_tick_34_page_40"",addrsize=absolute,scope=1,def=0+1036+1004,val=0x4FC8,seg=0,type=lab"%lit;
  "sym	id=1579,name=""op_tick_32_page_40"",addrsize=absolute,scope=1,def=0+1029+642,val=0x4FAC,seg=0,type=lab"%lit;
  "sym	id=1580,name=""op_tick_30_page_40"",addrsize=absolute,scope=1,def=0+1017+1037,val=0x4F8F,seg=0,type=lab"%lit;
  "sym	id=1581,name=""op_tick_28_page_40"",addrsize=absolute,scope=1,def=0+176+212,val=0x4F76,seg=0,type=lab"%lit;
  "sym	id=1582,name=""op_tick_26_page_40"",addrsize=absolute,scope=1,def=0+218+580,val=0x4F5C,seg=0,type=lab"%lit;
  "sym	id=1583,name=""op_tick_24_page_40"",addrsize=absolute,scope=1,def=0+1223+678,val=0x4F45,seg=0,type=lab"%lit;
  "sym	id=1584,name=""op_tick_22_page_40"",addrsize=absolute,scope=1,def=0+1307+1192,val=0x4F2E,seg=0,type=lab"%lit;
  "sym	id=1585,name=""op_tick_20_page_40"",addrsize=absolute,scope=1,def=0+1277+32,val=0x4F1A,seg=0,type=lab"%lit;
  "sym	id=1586,name=""@D"",addrsize=absolute,parent=1587,def=0+98+504,ref=0+0,val=0x4F17,seg=0,type=lab"%lit;
  "sym	id=1587,name=""op_tick_18_page_40"",addrsize=absolute,scope=1,def=0+98+1202,val=0x4EE6,seg=0,type=lab"%lit;
  "sym	id=1588,name=""op_tick_16_page_40"",addrsize=absolute,scope=1,def=0+923+820,val=0x4ECF,seg=0,type=lab"%lit;
  "sym	id=1589,name=""op_tick_14_page_40"",addrsize=absolute,scope=1,def=0+304+13,val=0x4EBF,seg=0,type=lab"%lit;
  "sym	id=1590,name=""op_tick_12_page_40"",addrsize=absolute,scope=1,def=0+1148+767,val=0x4EAE,seg=0,type=lab"%lit;
  "sym	id=1591,name=""op_tick_10_page_40"",addrsize=absolute,scope=1,def=0+743+943,val=0x4EA1,seg=0,type=lab"%lit;
  "sym	id=1592,name=""op_tick_8_page_40"",addrsize=absolute,scope=1,def=0+370+821,val=0x4E93,seg=0,type=lab"%lit;
  "sym	id=1593,name=""_op_tick_page_40_tail_8"",addrsize=absolute,scope=1,def=0+577+630+124,val=0x4E8D,seg=0,type=lab"%lit;
  "sym	id=1594,name=""_op_tick_page_40_tail_12"",addrsize=absolute,scope=1,def=0+577+1048+124,ref=0,val=0x4E8A,seg=0,type=lab"%lit;
  "sym	id=1595,name=""_op_tick_6_page_40_jmp"",addrsize=absolute,scope=1,def=0+577+757,ref=0+0+0,val=0x4E90,seg=0,type=lab"%lit;
  "sym	id=1596,name=""_op_tick_page_40_tail_16"",addrsize=absolute,scope=1,def=0+577+178+124,ref=0,val=0x4E87,seg=0,type=lab"%lit;
  "sym	id=1597,name=""_op_tick_page_40_tail_20"",addrsize=absolute,scope=1,def=0+577+682+124,ref=0+0,val=0x4E84,seg=0,type=lab"%lit;
  "sym	id=1598,name=""_op_tick_page_40_tail_25"",addrsize=absolute,scope=1,def=0+577+1145+124,val=0x4E81,seg=0,type=lab"%lit;
  "sym	id=1599,name=""_op_tick_page_40_tail_29"",addrsize=absolute,scope=1,def=0+577+1264+124,val=0x4E7E,seg=0,type=lab"%lit;
  "sym	id=1600,name=""_op_tick_page_40_tail_34"",addrsize=absolute,scope=1,def=0+577+485+124,ref=0,val=0x4E7B,seg=0,type=lab"%lit;
  "sym	id=1601,name=""_op_tick_page_40_tail_38"",addrsize=absolute,scope=1,def=0+577+554+124,ref=0,val=0x4E78,seg=0,type=lab"%lit;
  "sym	id=1602,name=""_op_tick_page_40_tail_43"",addrsize=absolute,scope=1,def=0+577+1348+124,ref=0,val=0x4E75,seg=0,type=lab"%lit;
  "sym	id=1603,name=""_op_tick_page_40_tail_47"",addrsize=absolute,scope=1,def=0+577+776+124,val=0x4E72,seg=0,type=lab"%lit;
  "sym	id=1604,name=""_op_tick_page_40_tail_52"",addrsize=absolute,scope=1,def=0+577+671+124,ref=0,val=0x4E6F,seg=0,type=lab"%lit;
  "sym	id=1605,name=""_op_tick_page_40_tail_56"",addrsize=absolute,scope=1,def=0+577+498+124,ref=0,val=0x4E6C,seg=0,type=lab"%lit;
  "sym	id=1606,name=""_op_tick_page_40_tail_60"",addrsize=absolute,scope=1,def=0+577+1265+124,val=0x4E69,seg=0,type=lab"%lit;
  "sym	id=1607,name=""op_tick_6_page_40"",addrsize=absolute,scope=1,def=0+577+824,val=0x4E60,seg=0,type=lab"%lit;
  "sym	id=1608,name=""_op_tick_page_40_tail_7"",addrsize=absolute,scope=1,def=0+373+903+124,val=0x4E5A,seg=0,type=lab"%lit;
  "sym	id=1609,name=""_op_tick_page_40_tail_11"",addrsize=absolute,scope=1,def=0+373+1273+124,val=0x4E57,seg=0,type=lab"%lit;
  "sym	id=1610,name=""_op_tick_4_page_40_jmp"",addrsize=absolute,scope=1,def=0+373+241,ref=0+0,val=0x4E5D,seg=0,type=lab"%lit;
  "sym	id=1611,name=""_op_tick_page_40_tail_15"",addrsize=absolute,scope=1,def=0+373+585+124,ref=0,val=0x4E54,seg=0,type=lab"%lit;
  "sym	id=1612,name=""_op_tick_page_40_tail_19"",addrsize=absolute,scope=1,def=0+373+277+124,ref=0,val=0x4E51,seg=0,type=lab"%lit;
  "sym	id=1613,name=""_op_tick_page_40_tail_24"",addrsize=absolute,scope=1,def=0+373+518+124,ref=0+0,val=0x4E4E,seg=0,type=lab"%lit;
  "sym	id=1614,name=""_op_tick_page_40_tail_28"",addrsize=absolute,scope=1,def=0+373+164+124,ref=0,val=0x4E4B,seg=0,type=lab"%lit;
  "sym	id=1615,name=""_op_tick_page_40_tail_33"",addrsize=absolute,scope=1,def=0+373+154+124,ref=0,val=0x4E48,seg=0,type=lab"%lit;
  "sym	id=1616,name=""_op_tick_page_40_tail_37"",addrsize=absolute,scope=1,def=0+373+1257+124,ref=0,val=0x4E45,seg=0,type=lab"%lit;
  "sym	id=1617,name=""_op_tick_page_40_tail_42"",addrsize=absolute,scope=1,def=0+373+1302+124,ref=0+0,val=0x4E42,seg=0,type=lab"%lit;
  "sym	id=1618,name=""_op_tick_page_40_tail_46"",addrsize=absolute,scope=1,def=0+373+805+124,ref=0,val=0x4E3F,seg=0,type=lab"%lit;
  "sym	id=1619,name=""_op_tick_page_40_tail_51"",addrsize=absolute,scope=1,def=0+373+1124+124,ref=0,val=0x4E3C,seg=0,type=lab"%lit;
  "sym	id=1620,name=""_op_tick_page_40_tail_55"",addrsize=absolute,scope=1,def=0+373+323+124,ref=0,val=0x4E39,seg=0,type=lab"%lit;
  "sym	id=1621,name=""_op_tick_page_40_tail_59"",addrsize=absolute,scope=1,def=0+373+1142+124,val=0x4E36,seg=0,type=lab"%lit;
  "sym	id=1622,name=""op_tick_4_page_40"",addrsize=absolute,scope=1,def=0+373+1062,val=0x4E2C,seg=0,type=lab"%lit;
  "sym	id=1623,name=""@D"",addrsize=absolute,parent=1624,def=1082+138+254,ref=1082+1082,val=0x4E29,seg=0,type=lab"%lit;
  "sym	id=1624,name=""op_tick_66_page_39"",addrsize=absolute,scope=1,def=1082+138+697,val=0x4DF8,seg=0,type=lab"%lit;
  "sym	id=1625,name=""@D"",addrsize=absolute,parent=1626,def=1082+1001+700,ref=1082+1082,val=0x4DF5,seg=0,type=lab"%lit;
  "sym	id=1626,name=""op_tick_64_page_39"",addrsize=absolute,scope=1,def=1082+1001+979,val=0x4DC4,seg=0,type=lab"%lit;
  "sym	id=1627,name=""@D"",addrsize=absolute,parent=1628,def=1082+664+830,ref=1082+1082,val=0x4DC1,seg=0,type=lab"%lit;
  "sym	id=1628,name=""op_tick_62_page_39"",addrsize=absolute,scope=1,def=1082+664+262,val=0x4D90,seg=0,type=lab"%lit;
  "sym	id=1629,name=""@D"",addrsize=absolute,parent=1630,def=1082+779+823,ref=1082+1082,val=0x4D8D,seg=0,type=lab"%lit;
  "sym	id=1630,name=""op_tick_60_page_39"",addrsize=absolute,scope=1,def=1082+779+725,val=0x4D5C,seg=0,type=lab"%lit;
  "sym	id=1631,name=""@D"",addrsize=absolute,parent=1632,def=1082+510+1188,ref=1082+1082,val=0x4D59,seg=0,type=lab"%lit;
  "sym	id=1632,name=""op_tick_58_page_39"",addrsize=absolute,scope=1,def=1082+510+986,val=0x4D28,seg=0,type=lab"%lit;
  "sym	id=1633,name=""@D"",addrsize=absolute,parent=1634,def=1082+704+801,ref=1082+1082,val=0x4D25,seg=0,type=lab"%lit;
  "sym	id=1634,name=""op_tick_56_page_39"",addrsize=absolute,scope=1,def=1082+704+1286,val=0x4CF4,seg=0,type=lab"%lit;
  "sym	id=1635,name=""@D"",addrsize=absolute,parent=1636,def=1082+621+1022,ref=1082+1082,val=0x4CF1,seg=0,type=lab"%lit;
  "sym	id=1636,name=""op_tick_54_page_39"",addrsize=absolute,scope=1,def=1082+621+1201,val=0x4CC0,seg=0,type=lab"%lit;
  "sym	id=1637,name=""op_tick_52_page_39"",addrsize=absolute,scope=1,def=1082+884+153,val=0x4C95,seg=0,type=lab"%lit;
  "sym	id=1638,name=""op_tick_50_page_39"",addrsize=absolute,scope=1,def=1082+114+962,val=0x4C6D,seg=0,type=lab"%lit;
  "sym	id=1639,name=""op_tick_48_page_39"",addrsize=absolute,scope=1,def=1082+1026+439,val=0x4C44,seg=0,type=lab"%lit;
  "sym	id=1640,name=""op_tick_46_page_39"",addrsize=absolute,scope=1,def=1082+647+1044,val=0x4C1F,seg=0,type=lab"%lit;
  "sym	id=1641,name=""op_tick_44_page_39"",addrsize=absolute,scope=1,def=1082+268+546,val=0x4BF9,seg=0,type=lab"%lit;
  "sym	id=1642,name=""op_tick_42_page_39"",addrsize=absolute,scope=1,def=1082+62+67,val=0x4BD6,seg=0,type=lab"%lit;
  "sym	id=1643,name=""op_tick_40_page_39"",addrsize=absolute,scope=1,def=1082+1114+1222,val=0x4BB3,seg=0,type=lab"%lit;
  "sym	id=1644,name=""op_tick_38_page_39"",addrsize=absolute,scope=1,def=1082+609+1365,val=0x4B93,seg=0,type=lab"%lit;
  "sym	id=1645,name=""@D"",addrsize=absolute,parent=1646,def=1082+1236+1293,ref=1082+1082,val=0x4B90,seg=0,type=lab"%lit;
  "sym	id=1646,name=""op_tick_36_page_39"",addrsize=absolute,scope=1,def=1082+1236+860,val=0x4B5F,seg=0,type=lab"%lit;
  "sym	id=1647,name=""op_tick_34_page_39"",addrsize=absolute,scope=1,def=1082+1036+1004,val=0x4B39,seg=0,type=lab"%lit;
  "sym	id=1648,name=""op_tick_32_page_39"",addrsize=absolute,scope=1,def=1082+1029+642,val=0x4B1D,seg=0,type=lab"%lit;
  "sym	id=1649,name=""op_tick_30_page_39"",addrsize=absolute,scope=1,def=1082+1017+1037,val=0x4B00,seg=0,type=lab"%lit;
  "sym	id=1650,name=""op_tick_28_page_39"",addrsize=absolute,scope=1,def=1082+176+212,val=0x4AE7,seg=0,type=lab"%lit;
  "sym	id=1651,name=""op_tick_26_page_39"",addrsize=absolute,scope=1,def=1082+218+580,val=0x4ACD,seg=0,type=lab"%lit;
  "sym	id=1652,name=""op_tick_24_page_39"",addrsize=absolute,scope=1,def=1082+1223+678,val=0x4AB6,seg=0,type=lab"%lit;
  "sym	id=1653,name=""op_tick_22_page_39"",addrsize=absolute,scope=1,def=1082+1307+1192,val=0x4A9F,seg=0,type=lab"%lit;
  "sym	id=1654,name=""op_tick_20_page_39"",addrsize=absolute,scope=1,def=1082+1277+32,val=0x4A8B,seg=0,type=lab"%lit;
  "sym	id=1655,name=""@D"",addrsize=absolute,parent=1656,def=1082+98+504,ref=1082+1082,val=0x4A88,seg=0,type=lab"%lit;
  "sym	id=1656,name=""op_tick_18_page_39"",addrsize=absolute,scope=1,def=1082+98+1202,val=0x4A57,seg=0,type=lab"%lit;
  "sym	id=1657,name=""op_tick_16_page_39"",addrsize=absolute,scope=1,def=1082+923+820,val=0x4A40,seg=0,type=lab"%lit;
  "sym	id=1658,name=""op_tick_14_page_39"",addrsize=absolute,scope=1,def=1082+304+13,val=0x4A30,seg=0,type=lab"%lit;
  "sym	id=1659,name=""op_tick_12_page_39"",addrsize=absolute,scope=1,def=1082+1148+767,val=0x4A1F,seg=0,type=lab"%lit;
  "sym	id=1660,name=""op_tick_10_page_39"",addrsize=absolute,scope=1,def=1082+743+943,val=0x4A12,seg=0,type=lab"%lit;
  "sym	id=1661,name=""op_tick_8_page_39"",addrsize=absolute,scope=1,def=1082+370+821,val=0x4A04,seg=0,type=lab"%lit;
  "sym	id=1662,name=""_op_tick_page_39_tail_8"",addrsize=absolute,scope=1,def=1082+577+630+124,val=0x49FE,seg=0,type=lab"%lit;
  "sym	id=1663,name=""_op_tick_page_39_tail_12"",addrsize=absolute,scope=1,def=1082+577+1048+124,ref=1082,val=0x49FB,seg=0,type=lab"%lit;
  "sym	id=1664,name=""_op_tick_6_page_39_jmp"",addrsize=absolute,scope=1,def=1082+577+757,ref=1082+1082+1082,val=0x4A01,seg=0,type=lab"%lit;
  "sym	id=1665,name=""_op_tick_page_39_tail_16"",addrsize=absolute,scope=1,def=1082+577+178+124,ref=1082,val=0x49F8,seg=0,type=lab"%lit;
  "sym	id=1666,name=""_op_tick_page_39_tail_20"",addrsize=absolute,scope=1,def=1082+577+682+124,ref=1082+1082,val=0x49F5,seg=0,type=lab"%lit;
  "sym	id=1667,name=""_op_tick_page_39_tail_25"",addrsize=absolute,scope=1,def=1082+577+1145+124,val=0x49F2,seg=0,type=lab"%lit;
  "sym	id=1668,name=""_op_tick_page_39_tail_29"",addrsize=absolute,scope=1,def=1082+577+1264+124,val=0x49EF,seg=0,type=lab"%lit;
  "sym	id=1669,name=""_op_tick_page_39_tail_34"",addrsize=absolute,scope=1,def=1082+577+485+124,ref=1082,val=0x49EC,seg=0,type=lab"%lit;
  "sym	id=1670,name=""_op_tick_page_39_tail_38"",addrsize=absolute,scope=1,def=1082+577+554+124,ref=1082,val=0x49E9,seg=0,type=lab"%lit;
  "sym	id=1671,name=""_op_tick_page_39_tail_43"",addrsize=absolute,scope=1,def=1082+577+1348+124,ref=1082,val=0x49E6,seg=0,type=lab"%lit;
  "sym	id=1672,name=""_op_tick_page_39_tail_47"",addrsize=absolute,scope=1,def=1082+577+776+124,val=0x49E3,seg=0,type=lab"%lit;
  "sym	id=1673,name=""_op_tick_page_39_tail_52"",addrsize=absolute,scope=1,def=1082+577+671+124,ref=1082,val=0x49E0,seg=0,type=lab"%lit;
  "sym	id=1674,name=""_op_tick_page_39_tail_56"",addrsize=absolute,scope=1,def=1082+577+498+124,ref=1082,val=0x49DD,seg=0,type=lab"%lit;
  "sym	id=1675,name=""_op_tick_page_39_tail_60"",addrsize=absolute,scope=1,def=1082+577+1265+124,val=0x49DA,seg=0,type=lab"%lit;
  "sym	id=1676,name=""op_tick_6_page_39"",addrsize=absolute,scope=1,def=1082+577+824,val=0x49D1,seg=0,type=lab"%lit;
  "sym	id=1677,name=""_op_tick_page_39_tail_7"",addrsize=absolute,scope=1,def=1082+373+903+124,val=0x49CB,seg=0,type=lab"%lit;
  "sym	id=1678,name=""_op_tick_page_39_tail_11"",addrsize=absolute,scope=1,def=1082+373+1273+124,val=0x49C8,seg=0,type=lab"%lit;
  "sym	id=1679,name=""_op_tick_4_page_39_jmp"",addrsize=absolute,scope=1,def=1082+373+241,ref=1082+1082,val=0x49CE,seg=0,type=lab"%lit;
  "sym	id=1680,name=""_op_tick_page_39_tail_15"",addrsize=absolute,scope=1,def=1082+373+585+124,ref=1082,val=0x49C5,seg=0,type=lab"%lit;
  "sym	id=1681,name=""_op_tick_page_39_tail_19"",addrsize=absolute,scope=1,def=1082+373+277+124,ref=1082,val=0x49C2,seg=0,type=lab"%lit;
  "sym	id=1682,name=""_op_tick_page_39_tail_24"",addrsize=absolute,scope=1,def=1082+373+518+124,ref=1082+1082,val=0x49BF,seg=0,type=lab"%lit;
  "sym	id=1683,name=""_op_tick_page_39_tail_28"",addrsize=absolute,scope=1,def=1082+373+164+124,ref=1082,val=0x49BC,seg=0,type=lab"%lit;
  "sym	id=1684,name=""_op_tick_page_39_tail_33"",addrsize=absolute,scope=1,def=1082+373+154+124,ref=1082,val=0x49B9,seg=0,type=lab"%lit;
  "sym	id=1685,name=""_op_tick_page_39_tail_37"",addrsize=absolute,scope=1,def=1082+373+1257+124,ref=1082,val=0x49B6,seg=0,type=lab"%lit;
  "sym	id=1686,name=""_op_tick_page_39_tail_42"",addrsize=absolute,scope=1,def=1082+373+1302+124,ref=1082+1082,val=0x49B3,seg=0,type=lab"%lit;
  "sym	id=1687,name=""_op_tick_page_39_tail_46"",addrsize=absolute,scope=1,def=1082+373+805+124,ref=1082,val=0x49B0,seg=0,type=lab"%lit;
  "sym	id=1688,name=""_op_tick_page_39_tail_51"",addrsize=absolute,scope=1,def=1082+373+1124+124,ref=1082,val=0x49AD,seg=0,type=lab"%lit;
  "sym	id=1689,name=""_op_tick_page_39_tail_55"",addrsize=absolute,scope=1,def=1082+373+323+124,ref=1082,val=0x49AA,seg=0,type=lab"%lit;
  "sym	id=1690,name=""_op_tick_page_39_tail_59"",addrsize=absolute,scope=1,def=1082+373+1142+124,val=0x49A7,seg=0,type=lab"%lit;
  "sym	id=1691,name=""op_tick_4_page_39"",addrsize=absolute,scope=1,def=1082+373+1062,val=0x499D,seg=0,type=lab"%lit;
  "sym	id=1692,name=""@D"",addrsize=absolute,parent=1693,def=1261+138+254,ref=1261+1261,val=0x499A,seg=0,type=lab"%lit;
  "sym	id=1693,name=""op_tick_66_page_38"",addrsize=absolute,scope=1,def=1261+138+697,val=0x4969,seg=0,type=lab"%lit;
  "sym	id=1694,name=""@D"",addrsize=absolute,parent=1695,def=1261+1001+700,ref=1261+1261,val=0x4966,seg=0,type=lab"%lit;
  "sym	id=1695,name=""op_tick_64_page_38"",addrsize=absolute,scope=1,def=1261+1001+979,val=0x4935,seg=0,type=lab"%lit;
  "sym	id=1696,name=""@D"",addrsize=absolute,parent=1697,def=1261+664+830,ref=1261+1261,val=0x4932,seg=0,type=lab"%lit;
  "sym	id=1697,name=""op_tick_62_page_38"",addrsize=absolute,scope=1,def=1261+664+262,val=0x4901,seg=0,type=lab"%lit;
  "sym	id=1698,name=""@D"",addrsize=absolute,parent=1699,def=1261+779+823,ref=1261+1261,val=0x48FE,seg=0,type=lab"%lit;
  "sym	id=1699,name=""op_tick_60_page_38"",addrsize=absolute,scope=1,def=1261+779+725,val=0x48CD,seg=0,type=lab"%lit;
  "sym	id=1700,name=""@D"",addrsize=absolute,parent=1701,def=1261+510+1188,ref=1261+1261,val=0x48CA,seg=0,type=lab"%lit;
  "sym	id=1701,name=""op_tick_58_page_38"",addrsize=absolute,scope=1,def=1261+510+986,val=0x4899,seg=0,type=lab"%lit;
  "sym	id=1702,name=""@D"",addrsize=absolute,parent=1703,def=1261+704+801,ref=1261+1261,val=0x4896,seg=0,type=lab"%lit;
  "sym	id=1703,name=""op_tick_56_page_38"",addrsize=absolute,scope=1,def=1261+704+1286,val=0x4865,seg=0,type=lab"%lit;
  "sym	id=1704,name=""@D"",addrsize=absolute,parent=1705,def=1261+621+1022,ref=1261+1261,val=0x4862,seg=0,type=lab"%lit;
  "sym	id=1705,name=""op_tick_54_page_38"",addrsize=absolute,scope=1,def=1261+621+1201,val=0x4831,seg=0,type=lab"%lit;
  "sym	id=1706,name=""op_tick_52_page_38"",addrsize=absolute,scope=1,def=1261+884+153,val=0x4806,seg=0,type=lab"%lit;
  "sym	id=1707,name=""op_tick_50_page_38"",addrsize=absolute,scope=1,def=1261+114+962,val=0x47DE,seg=0,type=lab"%lit;
  "sym	id=1708,name=""op_tick_48_page_38"",addrsize=absolute,scope=1,def=1261+1026+439,val=0x47B5,seg=0,type=lab"%lit;
  "sym	id=1709,name=""op_tick_46_page_38"",addrsize=absolute,scope=1,def=1261+647+1044,val=0x4790,seg=0,type=lab"%lit;
  "sym	id=1710,name=""op_tick_44_page_38"",addrsize=absolute,scope=1,def=1261+268+546,val=0x476A,seg=0,type=lab"%lit;
  "sym	id=1711,name=""op_tick_42_page_38"",addrsize=absolute,scope=1,def=1261+62+67,val=0x4747,seg=0,type=lab"%lit;
  "sym	id=1712,name=""op_tick_40_page_38"",addrsize=absolute,scope=1,def=1261+1114+1222,val=0x4724,seg=0,type=lab"%lit;
  "sym	id=1713,name=""op_tick_38_page_38"",addrsize=absolute,scope=1,def=1261+609+1365,val=0x4704,seg=0,type=lab"%lit;
  "sym	id=1714,name=""@D"",addrsize=absolute,parent=1715,def=1261+1236+1293,ref=1261+1261,val=0x4701,seg=0,type=lab"%lit;
  "sym	id=1715,name=""op_tick_36_page_38"",addrsize=absolute,scope=1,def=1261+1236+860,val=0x46D0,seg=0,type=lab"%lit;
  "sym	id=1716,name=""op_tick_34_page_38"",addrsize=absolute,scope=1,def=1261+1036+1004,val=0x46AA,seg=0,type=lab"%lit;
  "sym	id=1717,name=""op_tick_32_page_38"",addrsize=absolute,scope=1,def=1261+1029+642,val=0x468E,seg=0,type=lab"%lit;
  "sym	id=1718,name=""op_tick_30_page_38"",addrsize=absolute,scope=1,def=1261+1017+1037,val=0x4671,seg=0,type=lab"%lit;
  "sym	id=1719,name=""op_tick_28_page_38"",addrsize=absolute,scope=1,def=1261+176+212,val=0x4658,seg=0,type=lab"%lit;
  "sym	id=1720,name=""op_tick_26_page_38"",addrsize=absolute,scope=1,def=1261+218+580,val=0x463E,seg=0,type=lab"%lit;
  "sym	id=1721,name=""op_tick_24_page_38"",addrsize=absolute,scope=1,def=1261+1223+678,val=0x4627,seg=0,type=lab"%lit;
  "sym	id=1722,name=""op_tick_22_page_38"",addrsize=absolute,scope=1,def=1261+1307+1192,val=0x4610,seg=0,type=lab"%lit;
  "sym	id=1723,name=""op_tick_20_page_38"",addrsize=absolute,scope=1,def=1261+1277+32,val=0x45FC,seg=0,type=lab"%lit;
  "sym	id=1724,name=""@D"",addrsize=absolute,parent=1725,def=1261+98+504,ref=1261+1261,val=0x45F9,seg=0,type=lab"%lit;
  "sym	id=1725,name=""op_tick_18_page_38"",addrsize=absolute,scope=1,def=1261+98+1202,val=0x45C8,seg=0,type=lab"%lit;
  "sym	id=1726,name=""op_tick_16_page_38"",addrsize=absolute,scope=1,def=1261+923+820,val=0x45B1,seg=0,type=lab"%lit;
  "sym	id=1727,name=""op_tick_14_page_38"",addrsize=absolute,scope=1,def=1261+304+13,val=0x45A1,seg=0,type=lab"%lit;
  "sym	id=1728,name=""op_tick_12_page_38"",addrsize=absolute,scope=1,def=1261+1148+767,val=0x4590,seg=0,type=lab"%lit;
  "sym	id=1729,name=""op_tick_10_page_38"",addrsize=absolute,scope=1,def=1261+743+943,val=0x4583,seg=0,type=lab"%lit;
  "sym	id=1730,name=""op_tick_8_page_38"",addrsize=absolute,scope=1,def=1261+370+821,val=0x4575,seg=0,type=lab"%lit;
  "sym	id=1731,name=""_op_tick_page_38_tail_8"",addrsize=absolute,scope=1,def=1261+577+630+124,val=0x456F,seg=0,type=lab"%lit;
  "sym	id=1732,name=""_op_tick_page_38_tail_12"",addrsize=absolute,scope=1,def=1261+577+1048+124,ref=1261,val=0x456C,seg=0,type=lab"%lit;
  "sym	id=1733,name=""_op_tick_6_page_38_jmp"",addrsize=absolute,scope=1,def=1261+577+757,ref=1261+1261+1261,val=0x4572,seg=0,type=lab"%lit;
  "sym	id=1734,name=""_op_tick_page_38_tail_16"",addrsize=absolute,scope=1,def=1261+577+178+124,ref=1261,val=0x4569,seg=0,type=lab"%lit;
  "sym	id=1735,name=""_op_tick_page_38_tail_20"",addrsize=absolute,scope=1,def=1261+577+682+124,ref=1261+1261,val=0x4566,seg=0,type=lab"%lit;
  "sym	id=1736,name=""_op_tick_page_38_tail_25"",addrsize=absolute,scope=1,def=1261+577+1145+124,val=0x4563,seg=0,type=lab"%lit;
  "sym	id=1737,name=""_op_tick_page_38_tail_29"",addrsize=absolute,scope=1,def=1261+577+1264+124,val=0x4560,seg=0,type=lab"%lit;
  "sym	id=1738,name=""_op_tick_page_38_tail_34"",addrsize=absolute,scope=1,def=1261+577+485+124,ref=1261,val=0x455D,seg=0,type=lab"%lit;
  "sym	id=1739,name=""_op_tick_page_38_tail_38"",addrsize=absolute,scope=1,def=1261+577+554+124,ref=1261,val=0x455A,seg=0,type=lab"%lit;
  "sym	id=1740,name=""_op_tick_page_38_tail_43"",addrsize=absolute,scope=1,def=1261+577+1348+124,ref=1261,val=0x4557,seg=0,type=lab"%lit;
  "sym	id=1741,name=""_op_tick_page_38_tail_47"",addrsize=absolute,scope=1,def=1261+577+776+124,val=0x4554,seg=0,type=lab"%lit;
  "sym	id=1742,name=""_op_tick_page_38_tail_52"",addrsize=absolute,scope=1,def=1261+577+671+124,ref=1261,val=0x4551,seg=0,type=lab"%lit;
  "sym	id=1743,name=""_op_tick_page_38_tail_56"",addrsize=absolute,scope=1,def=1261+577+498+124,ref=1261,val=0x454E,seg=0,type=lab"%lit;
  "sym	id=1744,name=""_op_tick_page_38_tail_60"",addrsize=absolute,scope=1,def=1261+577+1265+124,val=0x454B,seg=0,type=lab"%lit;
  "sym	id=1745,name=""op_tick_6_page_38"",addrsize=absolute,scope=1,def=1261+577+824,val=0x4542,seg=0,type=lab"%lit;
  "sym	id=1746,name=""_op_tick_page_38_tail_7"",addrsize=absolute,scope=1,def=1261+373+903+124,val=0x453C,seg=0,type=lab"%lit;
  "sym	id=1747,name=""_op_tick_page_38_tail_11"",addrsize=absolute,scope=1,def=1261+373+1273+124,val=0x4539,seg=0,type=lab"%lit;
  "sym	id=1748,name=""_op_tick_4_page_38_jmp"",addrsize=absolute,scope=1,def=1261+373+241,ref=1261+1261,val=0x453F,seg=0,type=lab"%lit;
  "sym	id=1749,name=""_op_tick_page_38_tail_15"",addrsize=absolute,scope=1,def=1261+373+585+124,ref=1261,val=0x4536,seg=0,type=lab"%lit;
  "sym	id=1750,name=""_op_tick_page_38_tail_19"",addrsize=absolute,scope=1,def=1261+373+277+124,ref=1261,val=0x4533,seg=0,type=lab"%lit;
  "sym	id=1751,name=""_op_tick_page_38_tail_24"",addrsize=absolute,scope=1,def=1261+373+518+124,ref=1261+1261,val=0x4530,seg=0,type=lab"%lit;
  "sym	id=1752,name=""_op_tick_page_38_tail_28"",addrsize=absolute,scope=1,def=1261+373+164+124,ref=1261,val=0x452D,seg=0,type=lab"%lit;
  "sym	id=1753,name=""_op_tick_page_38_tail_33"",addrsize=absolute,scope=1,def=1261+373+154+124,ref=1261,val=0x452A,seg=0,type=lab"%lit;
  "sym	id=1754,name=""_op_tick_page_38_tail_37"",addrsize=absolute,scope=1,def=1261+373+1257+124,ref=1261,val=0x4527,seg=0,type=lab"%lit;
  "sym	id=1755,name=""_op_tick_page_38_tail_42"",addrsize=absolute,scope=1,def=1261+373+1302+124,ref=1261+1261,val=0x4524,seg=0,type=lab"%lit;
  "sym	id=1756,name=""_op_tick_page_38_tail_46"",addrsize=absolute,scope=1,def=1261+373+805+124,ref=1261,val=0x4521,seg=0,type=lab"%lit;
  "sym	id=1757,name=""_op_tick_page_38_tail_51"",addrsize=absolute,scope=1,def=1261+373+1124+124,ref=1261,val=0x451E,seg=0,type=lab"%lit;
  "sym	id=1758,name=""_op_tick_page_38_tail_55"",addrsize=absolute,scope=1,def=1261+373+323+124,ref=1261,val=0x451B,seg=0,type=lab"%lit;
  "sym	id=1759,name=""_op_tick_page_38_tail_59"",addrsize=absolute,scope=1,def=1261+373+1142+124,val=0x4518,seg=0,type=lab"%lit;
  "sym	id=1760,name=""op_tick_4_page_38"",addrsize=absolute,scope=1,def=1261+373+1062,val=0x450E,seg=0,type=lab"%lit;
  "sym	id=1761,name=""@D"",addrsize=absolute,parent=1762,def=878+138+254,ref=878+878,val=0x450B,seg=0,type=lab"%lit;
  "sym	id=1762,name=""op_tick_66_page_37"",addrsize=absolute,scope=1,def=878+138+697,val=0x44DA,seg=0,type=lab"%lit;
  "sym	id=1763,name=""@D"",addrsize=absolute,parent=1764,def=878+1001+700,ref=878+878,val=0x44D7,seg=0,type=lab"%lit;
  "sym	id=1764,name=""op_tick_64_page_37"",addrsize=absolute,scope=1,def=878+1001+979,val=0x44A6,seg=0,type=lab"%lit;
  "sym	id=1765,name=""@D"",addrsize=absolute,parent=1766,def=878+664+830,ref=878+878,val=0x44A3,seg=0,type=lab"%lit;
  "sym	id=1766,name=""op_tick_62_page_37"",addrsize=absolute,scope=1,def=878+664+262,val=0x4472,seg=0,type=lab"%lit;
  "sym	id=1767,name=""@D"",addrsize=absolute,parent=1768,def=878+779+823,ref=878+878,val=0x446F,seg=0,type=lab"%lit;
  "sym	id=1768,name=""op_tick_60_page_37"",addrsize=absolute,scope=1,def=878+779+725,val=0x443E,seg=0,type=lab"%lit;
  "sym	id=1769,name=""@D"",addrsize=absolute,parent=1770,def=878+510+1188,ref=878+878,val=0x443B,seg=0,type=lab"%lit;
  "sym	id=1770,name=""op_tick_58_page_37"",addrsize=absolute,scope=1,def=878+510+986,val=0x440A,seg=0,type=lab"%lit;
  "sym	id=1771,name=""@D"",addrsize=absolute,parent=1772,def=878+704+801,ref=878+878,val=0x4407,seg=0,type=lab"%lit;
  "sym	id=1772,name=""op_tick_56_page_37"",addrsize=absolute,scope=1,def=878+704+1286,val=0x43D6,seg=0,type=lab"%lit;
  "sym	id=1773,name=""@D"",addrsize=absolute,parent=1774,def=878+621+1022,ref=878+878,val=0x43D3,seg=0,type=lab"%lit;
  "sym	id=1774,name=""op_tick_54_page_37"",addrsize=absolute,scope=1,def=878+621+1201,val=0x43A2,seg=0,type=lab"%lit;
  "sym	id=1775,name=""op_tick_52_page_37"",addrsize=absolute,scope=1,def=878+884+153,val=0x4377,seg=0,type=lab"%lit;
  "sym	id=1776,name=""op_tick_50_page_37"",addrsize=absolute,scope=1,def=878+114+962,val=0x434F,seg=0,type=lab"%lit;
  "sym	id=1777,name=""op_tick_48_page_37"",addrsize=absolute,scope=1,def=878+1026+439,val=0x4326,seg=0,type=lab"%lit;
  "sym	id=1778,name=""op_tick_46_page_37"",addrsize=absolute,scope=1,def=878+647+1044,val=0x4301,seg=0,type=lab"%lit;
  "sym	id=1779,name=""op_tick_44_page_37"",addrsize=absolute,scope=1,def=878+268+546,val=0x42DB,seg=0,type=lab"%lit;
  "sym	id=1780,name=""op_tick_42_page_37"",addrsize=absolute,scope=1,def=878+62+67,val=0x42B8,seg=0,type=lab"%lit;
  "sym	id=1781,name=""op_tick_40_page_37"",addrsize=absolute,scope=1,def=878+1114+1222,val=0x4295,seg=0,type=lab"%lit;
  "sym	id=1782,name=""op_tick_38_page_37"",addrsize=absolute,scope=1,def=878+609+1365,val=0x4275,seg=0,type=lab"%lit;
  "sym	id=1783,name=""@D"",addrsize=absolute,parent=1784,def=878+1236+1293,ref=878+878,val=0x4272,seg=0,type=lab"%lit;
  "sym	id=1784,name=""op_tick_36_page_37"",addrsize=absolute,scope=1,def=878+1236+860,val=0x4241,seg=0,type=lab"%lit;
  "sym	id=1785,name=""op_tick_34_page_37"",addrsize=absolute,scope=1,def=878+1036+1004,val=0x421B,seg=0,type=lab"%lit;
  "sym	id=1786,name=""op_tick_32_page_37"",addrsize=absolute,scope=1,def=878+1029+642,val=0x41FF,seg=0,type=lab"%lit;
  "sym	id=1787,name=""op_tick_30_page_37"",addrsize=absolute,scope=1,def=878+1017+1037,val=0x41E2,seg=0,type=lab"%lit;
  "sym	id=1788,name=""op_tick_28_page_37"",addrsize=absolute,scope=1,def=878+176+212,val=0x41C9,seg=0,type=lab"%lit;
  "sym	id=1789,name=""op_tick_26_page_37"",addrsize=absolute,scope=1,def=878+218+580,val=0x41AF,seg=0,type=lab"%lit;
  "sym	id=1790,name=""op_tick_24_page_37"",addrsize=absolute,scope=1,def=878+1223+678,val=0x4198,seg=0,type=lab"%lit;
  "sym	id=1791,name=""op_tick_22_page_37"",addrsize=absolute,scope=1,def=878+1307+1192,val=0x4181,seg=0,type=lab"%lit;
  "sym	id=1792,name=""op_tick_20_page_37"",addrsize=absolute,scope=1,def=878+1277+32,val=0x416D,seg=0,type=lab"%lit;
  "sym	id=1793,name=""@D"",addrsize=absolute,parent=1794,def=878+98+504,ref=878+878,val=0x416A,seg=0,type=lab"%lit;
  "sym	id=1794,name=""op_tick_18_page_37"",addrsize=absolute,scope=1,def=878+98+1202,val=0x4139,seg=0,type=lab"%lit;
  "sym	id=1795,name=""op_tick_16_page_37"",addrsize=absolute,scope=1,def=878+923+820,val=0x4122,seg=0,type=lab"%lit;
  "sym	id=1796,name=""op_tick_14_page_37"",addrsize=absolute,scope=1,def=878+304+13,val=0x4112,seg=0,type=lab"%lit;
  "sym	id=1797,name=""op_tick_12_page_37"",addrsize=absolute,scope=1,def=878+1148+767,val=0x4101,seg=0,type=lab"%lit;
  "sym	id=1798,name=""op_tick_10_page_37"",addrsize=absolute,scope=1,def=878+743+943,val=0x40F4,seg=0,type=lab"%lit;
  "sym	id=1799,name=""op_tick_8_page_37"",addrsize=absolute,scope=1,def=878+370+821,val=0x40E6,seg=0,type=lab"%lit;
  "sym	id=1800,name=""_op_tick_page_37_tail_8"",addrsize=absolute,scope=1,def=878+577+630+124,val=0x40E0,seg=0,type=lab"%lit;
  "sym	id=1801,name=""_op_tick_page_37_tail_12"",addrsize=absolute,scope=1,def=878+577+1048+124,ref=878,val=0x40DD,seg=0,type=lab"%lit;
  "sym	id=1802,name=""_op_tick_6_page_37_jmp"",addrsize=absolute,scope=1,def=878+577+757,ref=878+878+878,val=0x40E3,seg=0,type=lab"%lit;
  "sym	id=1803,name=""_op_tick_page_37_tail_16"",addrsize=absolute,scope=1,def=878+577+178+124,ref=878,val=0x40DA,seg=0,type=lab"%lit;
  "sym	id=1804,name=""_op_tick_page_37_tail_20"",addrsize=absolute,scope=1,def=878+577+682+124,ref=878+878,val=0x40D7,seg=0,type=lab"%lit;
  "sym	id=1805,name=""_op_tick_page_37_tail_25"",addrsize=absolute,scope=1,def=878+577+1145+124,val=0x40D4,seg=0,type=lab"%lit;
  "sym	id=1806,name=""_op_tick_page_37_tail_29"",addrsize=absolute,scope=1,def=878+577+1264+124,val=0x40D1,seg=0,type=lab"%lit;
  "sym	id=1807,name=""_op_tick_page_37_tail_34"",addrsize=absolute,scope=1,def=878+577+485+124,ref=878,val=0x40CE,seg=0,type=lab"%lit;
  "sym	id=1808,name=""_op_tick_page_37_tail_38"",addrsize=absolute,scope=1,def=878+577+554+124,ref=878,val=0x40CB,seg=0,type=lab"%lit;
  "sym	id=1809,name=""_op_tick_page_37_tail_43"",addrsize=absolute,scope=1,def=878+577+1348+124,ref=878,val=0x40C8,seg=0,type=lab"%lit;
  "sym	id=1810,name=""_op_tick_page_37_tail_47"",addrsize=absolute,scope=1,def=878+577+776+124,val=0x40C5,seg=0,type=lab"%lit;
  "sym	id=1811,name=""_op_tick_page_37_tail_52"",addrsize=absolute,scope=1,def=878+577+671+124,ref=878,val=0x40C2,seg=0,type=lab"%lit;
  "sym	id=1812,name=""_op_tick_page_37_tail_56"",addrsize=absolute,scope=1,def=878+577+498+124,ref=878,val=0x40BF,seg=0,type=lab"%lit;
  "sym	id=1813,name=""_op_tick_page_37_tail_60"",addrsize=absolute,scope=1,def=878+577+1265+124,val=0x40BC,seg=0,type=lab"%lit;
  "sym	id=1814,name=""op_tick_6_page_37"",addrsize=absolute,scope=1,def=878+577+824,val=0x40B3,seg=0,type=lab"%lit;
  "sym	id=1815,name=""_op_tick_page_37_tail_7"",addrsize=absolute,scope=1,def=878+373+903+124,val=0x40AD,seg=0,type=lab"%lit;
  "sym	id=1816,name=""_op_tick_page_37_tail_11"",addrsize=absolute,scope=1,def=878+373+1273+124,val=0x40AA,seg=0,type=lab"%lit;
  "sym	id=1817,name=""_op_tick_4_page_37_jmp"",addrsize=absolute,scope=1,def=878+373+241,ref=878+878,val=0x40B0,seg=0,type=lab"%lit;
  "sym	id=1818,name=""_op_tick_page_37_tail_15"",addrsize=absolute,scope=1,def=878+373+585+124,ref=878,val=0x40A7,seg=0,type=lab"%lit;
  "sym	id=1819,name=""_op_tick_page_37_tail_19"",addrsize=absolute,scope=1,def=878+373+277+124,ref=878,val=0x40A4,seg=0,type=lab"%lit;
  "sym	id=1820,name=""_op_tick_page_37_tail_24"",addrsize=absolute,scope=1,def=878+373+518+124,ref=878+878,val=0x40A1,seg=0,type=lab"%lit;
  "sym	id=1821,name=""_op_tick_page_37_tail_28"",addrsize=absolute,scope=1,def=878+373+164+124,ref=878,val=0x409E,seg=0,type=lab"%lit;
  "sym	id=1822,name=""_op_tick_page_37_tail_33"",addrsize=absolute,scope=1,def=878+373+154+124,ref=878,val=0x409B,seg=0,type=lab"%lit;
  "sym	id=1823,name=""_op_tick_page_37_tail_37"",addrsize=absolute,scope=1,def=878+373+1257+124,ref=878,val=0x4098,seg=0,type=lab"%lit;
  "sym	id=1824,name=""_op_tick_page_37_tail_42"",addrsize=absolute,scope=1,def=878+373+1302+124,ref=878+878,val=0x4095,seg=0,type=lab"%lit;
  "sym	id=1825,name=""_op_tick_page_37_tail_46"",addrsize=absolute,scope=1,def=878+373+805+124,ref=878,val=0x4092,seg=0,type=lab"%lit;
  "sym	id=1826,name=""_op_tick_page_37_tail_51"",addrsize=absolute,scope=1,def=878+373+1124+124,ref=878,val=0x408F,seg=0,type=lab"%lit;
  "sym	id=1827,name=""_op_tick_page_37_tail_55"",addrsize=absolute,scope=1,def=878+373+323+124,ref=878,val=0x408C,seg=0,type=lab"%lit;
  "sym	id=1828,name=""_op_tick_page_37_tail_59"",addrsize=absolute,scope=1,def=878+373+1142+124,val=0x4089,seg=0,type=lab"%lit;
  "sym	id=1829,name=""op_tick_4_page_37"",addrsize=absolute,scope=1,def=878+373+1062,val=0x407F,seg=0,type=lab"%lit;
  "sym	id=1830,name=""op_tick_24_page_63"",addrsize=absolute,scope=1,def=39+199,val=0x1FE7,seg=7,type=lab"%lit;
  "sym	id=1831,name=""op_tick_22_page_63"",addrsize=absolute,scope=1,def=891+1347,val=0x1FD0,seg=7,type=lab"%lit;
  "sym	id=1832,name=""op_tick_20_page_63"",addrsize=absolute,scope=1,def=1379+828,val=0x1FBC,seg=7,type=lab"%lit;
  "sym	id=1833,name=""@D"",addrsize=absolute,parent=1834,def=1154+533,ref=1154+1154,val=0x1FB9,seg=7,type=lab"%lit;
  "sym	id=1834,name=""op_tick_18_page_63"",addrsize=absolute,scope=1,def=1154+31,val=0x1F88,seg=7,type=lab"%lit;
  "sym	id=1835,name=""op_tick_16_page_63"",addrsize=absolute,scope=1,def=880+924,val=0x1F71,seg=7,type=lab"%lit;
  "sym	id=1836,name=""op_tick_14_page_63"",addrsize=absolute,scope=1,def=477+952,val=0x1F61,seg=7,type=lab"%lit;
  "sym	id=1837,name=""op_tick_12_page_63"",addrsize=absolute,scope=1,def=688+116,val=0x1F50,seg=7,type=lab"%lit;
  "sym	id=1838,name=""op_tick_10_page_63"",addrsize=absolute,scope=1,def=347+410,val=0x1F43,seg=7,type=lab"%lit;
  "sym	id=1839,name=""op_tick_8_page_63"",addrsize=absolute,scope=1,def=912+1276,val=0x1F35,seg=7,type=lab"%lit;
  "sym	id=1840,name=""_op_tick_page_63_tail_8"",addrsize=absolute,scope=1,def=893+994+322,val=0x1F2F,seg=7,type=lab"%lit;
  "sym	id=1841,name=""_op_tick_page_63_tail_12"",addrsize=absolute,scope=1,def=893+1040+322,ref=508,val=0x1F2C,seg=7,type=lab"%lit;
  "sym	id=1842,name=""_op_tick_6_page_63_jmp"",addrsize=absolute,scope=1,def=893+431,ref=893+893+508,val=0x1F32,seg=7,type=lab"%lit;
  "sym	id=1843,name=""_op_tick_page_63_tail_16"",addrsize=absolute,scope=1,def=893+1370+322,ref=1115,val=0x1F29,seg=7,type=lab"%lit;
  "sym	id=1844,name=""_op_tick_page_63_tail_20"",addrsize=absolute,scope=1,def=893+1183+322,ref=1072+1106,val=0x1F26,seg=7,type=lab"%lit;
  "sym	id=1845,name=""_op_tick_page_63_tail_25"",addrsize=absolute,scope=1,def=893+1151+322,val=0x1F23,seg=7,type=lab"%lit;
  "sym	id=1846,name=""_op_tick_page_63_tail_29"",addrsize=absolute,scope=1,def=893+287+322,val=0x1F20,seg=7,type=lab"%lit;
  "sym	id=1847,name=""_op_tick_page_63_tail_34"",addrsize=absolute,scope=1,def=893+201+322,ref=1065,val=0x1F1D,seg=7,type=lab"%lit;
  "sym	id=1848,name=""_op_tick_page_63_tail_38"",addrsize=absolute,scope=1,def=893+1295+322,ref=263,val=0x1F1A,seg=7,type=lab"%lit;
  "sym	id=1849,name=""_op_tick_page_63_tail_43"",addrsize=absolute,scope=1,def=893+246+322,ref=880,val=0x1F17,seg=7,type=lab"%lit;
  "sym	id=1850,name=""_op_tick_page_63_tail_47"",addrsize=absolute,scope=1,def=893+1000+322,val=0x1F14,seg=7,type=lab"%lit;
  "sym	id=1851,name=""_op_tick_page_63_tail_52"",addrsize=absolute,scope=1,def=893+507+322,ref=477,val=0x1F11,seg=7,type=lab"%lit;
  "sym	id=1852,name=""_op_tick_page_63_tail_56"",addrsize=absolute,scope=1,def=893+239+322,ref=347,val=0x1F0E,seg=7,type=lab"%lit;
  "sym	id=1853,name=""_op_tick_page_63_tail_60"",addrsize=absolute,scope=1,def=893+440+322,val=0x1F0B,seg=7,type=lab"%lit;
  "sym	id=1854,name=""op_tick_6_page_63"",addrsize=absolute,scope=1,def=893+256,val=0x1F02,seg=7,type=lab"%lit;
  "sym	id=1855,name=""_op_tick_page_63_tail_7"",addrsize=absolute,scope=1,def=336+156+322,val=0x1EFC,seg=7,type=lab"%lit;
  "sym	id=1856,name=""_op_tick_page_63_tail_11"",addrsize=absolute,scope=1,def=336+137+322,val=0x1EF9,seg=7,type=lab"%lit;
  "sym	id=1857,name=""_op_tick_4_page_63_jmp"",addrsize=absolute,scope=1,def=336+26,ref=336+336,val=0x1EFF,seg=7,type=lab"%lit;
  "sym	id=1858,name=""_op_tick_page_63_tail_15"",addrsize=absolute,scope=1,def=336+250+322,ref=883,val=0x1EF6,seg=7,type=lab"%lit;
  "sym	id=1859,name=""_op_tick_page_63_tail_19"",addrsize=absolute,scope=1,def=336+740+322,ref=576,val=0x1EF3,seg=7,type=lab"%lit;
  "sym	id=1860,name=""_op_tick_page_63_tail_24"",addrsize=absolute,scope=1,def=336+760+322,ref=1101+96,val=0x1EF0,seg=7,type=lab"%lit;
  "sym	id=1861,name=""_op_tick_page_63_tail_28"",addrsize=absolute,scope=1,def=336+20+322,ref=794,val=0x1EED,seg=7,type=lab"%lit;
  "sym	id=1862,name=""_op_tick_page_63_tail_33"",addrsize=absolute,scope=1,def=336+476+322,ref=1025,val=0x1EEA,seg=7,type=lab"%lit;
  "sym	id=1863,name=""_op_tick_page_63_tail_37"",addrsize=absolute,scope=1,def=336+371+322,ref=557,val=0x1EE7,seg=7,type=lab"%lit;
  "sym	id=1864,name=""_op_tick_page_63_tail_42"",addrsize=absolute,scope=1,def=336+551+322,ref=891+39,val=0x1EE4,seg=7,type=lab"%lit;
  "sym	id=1865,name=""_op_tick_page_63_tail_46"",addrsize=absolute,scope=1,def=336+651+322,ref=1379,val=0x1EE1,seg=7,type=lab"%lit;
  "sym	id=1866,name=""_op_tick_page_63_tail_51"",addrsize=absolute,scope=1,def=336+408+322,ref=688,val=0x1EDE,seg=7,type=lab"%lit;
  "sym	id=1867,name=""_op_tick_page_63_tail_55"",addrsize=absolute,scope=1,def=336+838+322,ref=912,val=0x1EDB,seg=7,type=lab"%lit;
  "sym	id=1868,name=""_op_tick_page_63_tail_59"",addrsize=absolute,scope=1,def=336+472+322,val=0x1ED8,seg=7,type=lab"%lit;
  "sym	id=1869,name=""op_tick_4_page_63"",addrsize=absolute,scope=1,def=336+586,val=0x1ECE,seg=7,type=lab"%lit;
  "sym	id=1870,name=""@D"",addrsize=absolute,parent=1871,def=751+138+254,ref=751+751,val=0x1ECB,seg=7,type=lab"%lit;
  "sym	id=1871,name=""op_tick_66_page_36"",addrsize=absolute,scope=1,def=751+138+697,val=0x1E9A,seg=7,type=lab"%lit;
  "sym	id=1872,name=""@D"",addrsize=absolute,parent=1873,def=751+1001+700,ref=751+751,val=0x1E97,seg=7,type=lab"%lit;
  "sym	id=1873,name=""op_tick_64_page_36"",addrsize=absolute,scope=1,def=751+1001+979,val=0x1E66,seg=7,type=lab"%lit;
  "sym	id=1874,name=""@D"",addrsize=absolute,parent=1875,def=751+664+830,ref=751+751,val=0x1E63,seg=7,type=lab"%lit;
  "sym	id=1875,name=""op_tick_62_page_36"",addrsize=absolute,scope=1,def=751+664+262,val=0x1E32,seg=7,type=lab"%lit;
  "sym	id=1876,name=""@D"",addrsize=absolute,parent=1877,def=751+779+823,ref=751+751,val=0x1E2F,seg=7,type=lab"%lit;
  "sym	id=1877,name=""op_tick_60_page_36"",addrsize=absolute,scope=1,def=751+779+725,val=0x1DFE,seg=7,type=lab"%lit;
  "sym	id=1878,name=""@D"",addrsize=absolute,parent=1879,def=751+510+1188,ref=751+751,val=0x1DFB,seg=7,type=lab"%lit;
  "sym	id=1879,name=""op_tick_58_page_36"",addrsize=absolute,scope=1,def=751+510+986,val=0x1DCA,seg=7,type=lab"%lit;
  "sym	id=1880,name=""@D"",addrsize=absolute,parent=1881,def=751+704+801,ref=751+751,val=0x1DC7,seg=7,type=lab"%lit;
  "sym	id=1881,name=""op_tick_56_page_36"",addrsize=absolute,scope=1,def=751+704+1286,val=0x1D96,seg=7,type=lab"%lit;
  "sym	id=1882,name=""@D"",addrsize=absolute,parent=1883,def=751+621+1022,ref=751+751,val=0x1D93,seg=7,type=lab"%lit;
  "sym	id=1883,name=""op_tick_54_page_36"",addrsize=absolute,scope=1,def=751+621+1201,val=0x1D62,seg=7,type=lab"%lit;
  "sym	id=1884,name=""op_tick_52_page_36"",addrsize=absolute,scope=1,def=751+884+153,val=0x1D37,seg=7,type=lab"%lit;
  "sym	id=1885,name=""op_tick_50_page_36"",addrsize=absolute,scope=1,def=751+114+962,val=0x1D0F,seg=7,type=lab"%lit;
  "sym	id=1886,name=""op_tick_48_page_36"",addrsize=absolute,scope=1,def=751+1026+439,val=0x1CE6,seg=7,type=lab"%lit;
  "sym	id=1887,name=""op_tick_46_page_36"",addrsize=absolute,scope=1,def=751+647+1044,val=0x1CC1,seg=7,type=lab"%lit;
  "sym	id=1888,name=""op_tick_44_page_36"",addrsize=absolute,scope=1,def=751+268+546,val=0x1C9B,seg=7,type=lab"%lit;
  "sym	id=1889,name=""op_tick_42_page_36"",addrsize=absolute,scope=1,def=751+62+67,val=0x1C78,seg=7,type=lab"%lit;
  "sym	id=1890,name=""op_tick_40_page_36"",addrsize=absolute,scope=1,def=751+1114+1222,val=0x1C55,seg=7,type=lab"%lit;
  "sym	id=1891,name=""op_tick_38_page_36"",addrsize=absolute,scope=1,def=751+609+1365,val=0x1C35,seg=7,type=lab"%lit;
  "sym	id=1892,name=""@D"",addrsize=absolute,parent=1893,def=751+1236+1293,ref=751+751,val=0x1C32,seg=7,type=lab"%lit;
  "sym	id=1893,name=""op_tick_36_page_36"",addrsize=absolute,scope=1,def=751+1236+860,val=0x1C01,seg=7,type=lab"%lit;
  "sym	id=1894,name=""op_tick_34_page_36"",addrsize=absolute,scope=1,def=751+1036+1004,val=0x1BDB,seg=7,type=lab"%lit;
  "sym	id=1895,name=""op_tick_32_page_36"",addrsize=absolute,scope=1,def=751+1029+642,val=0x1BBF,seg=7,type=lab"%lit;
  "sym	id=1896,name=""op_tick_30_page_36"",addrsize=absolute,scope=1,def=751+1017+1037,val=0x1BA2,seg=7,type=lab"%lit;
  "sym	id=1897,name=""op_tick_28_page_36"",addrsize=absolute,scope=1,def=751+176+212,val=0x1B89,seg=7,type=lab"%lit;
  "sym	id=1898,name=""op_tick_26_page_36"",addrsize=absolute,scope=1,def=751+218+580,val=0x1B6F,seg=7,type=lab"%lit;
  "sym	id=1899,name=""op_tick_24_page_36"",addrsize=absolute,scope=1,def=751+1223+678,val=0x1B58,seg=7,type=lab"%lit;
  "sym	id=1900,name=""op_tick_22_page_36"",addrsize=absolute,scope=1,def=751+1307+1192,val=0x1B41,seg=7,type=lab"%lit;
  "sym	id=1901,name=""op_tick_20_page_36"",addrsize=absolute,scope=1,def=751+1277+32,val=0x1B2D,seg=7,type=lab"%lit;
  "sym	id=1902,name=""@D"",addrsize=absolute,parent=1903,def=751+98+504,ref=751+751,val=0x1B2A,seg=7,type=lab"%lit;
  "sym	id=1903,name=""op_tick_18_page_36"",addrsize=absolute,scope=1,def=751+98+1202,val=0x1AF9,seg=7,type=lab"%lit;
  "sym	id=1904,name=""op_tick_16_page_36"",addrsize=absolute,scope=1,def=751+923+820,val=0x1AE2,seg=7,type=lab"%lit;
  "sym	id=1905,name=""op_tick_14_page_36"",addrsize=absolute,scope=1,def=751+304+13,val=0x1AD2,seg=7,type=lab"%lit;
  "sym	id=1906,name=""op_tick_12_page_36"",addrsize=absolute,scope=1,def=751+1148+767,val=0x1AC1,seg=7,type=lab"%lit;
  "sym	id=1907,name=""op_tick_10_page_36"",addrsize=absolute,scope=1,def=751+743+943,val=0x1AB4,seg=7,type=lab"%lit;
  "sym	id=1908,name=""op_tick_8_page_36"",addrsize=absolute,scope=1,def=751+370+821,val=0x1AA6,seg=7,type=lab"%lit;
  "sym	id=1909,name=""_op_tick_page_36_tail_8"",addrsize=absolute,scope=1,def=751+577+630+124,val=0x1AA0,seg=7,type=lab"%lit;
  "sym	id=1910,name=""_op_tick_page_36_tail_12"",addrsize=absolute,scope=1,def=751+577+1048+124,ref=751,val=0x1A9D,seg=7,type=lab"%lit;
  "sym	id=1911,name=""_op_tick_6_page_36_jmp"",addrsize=absolute,scope=1,def=751+577+757,ref=751+751+751,val=0x1AA3,seg=7,type=lab"%lit;
  "sym	id=1912,name=""_op_tick_page_36_tail_16"",addrsize=absolute,scope=1,def=751+577+178+124,ref=751,val=0x1A9A,seg=7,type=lab"%lit;
  "sym	id=1913,name=""_op_tick_page_36_tail_20"",addrsize=absolute,scope=1,def=751+577+682+124,ref=751+751,val=0x1A97,seg=7,type=lab"%lit;
  "sym	id=1914,name=""_op_tick_page_36_tail_25"",addrsize=absolute,scope=1,def=751+577+1145+124,val=0x1A94,seg=7,type=lab"%lit;
  "sym	id=1915,name=""_op_tick_page_36_tail_29"",addrsize=absolute,scope=1,def=751+577+1264+124,val=0x1A91,seg=7,type=lab"%lit;
  "sym	id=1916,name=""_op_tick_page_36_tail_34"",addrsize=absolute,scope=1,def=751+577+485+124,ref=751,val=0x1A8E,seg=7,type=lab"%lit;
  "sym	id=1917,name=""_op_tick_page_36_tail_38"",addrsize=absolute,scope=1,def=751+577+554+124,ref=751,val=0x1A8B,seg=7,type=lab"%lit;
  "sym	id=1918,name=""_op_tick_page_36_tail_43"",addrsize=absolute,scope=1,def=751+577+1348+124,ref=751,val=0x1A88,seg=7,type=lab"%lit;
  "sym	id=1919,name=""_op_tick_page_36_tail_47"",addrsize=absolute,scope=1,def=751+577+776+124,val=0x1A85,seg=7,type=lab"%lit;
  "sym	id=1920,name=""_op_tick_page_36_tail_52"",addrsize=absolute,scope=1,def=751+577+671+124,ref=751,val=0x1A82,seg=7,type=lab"%lit;
  "sym	id=1921,name=""_op_tick_page_36_tail_56"",addrsize=absolute,scope=1,def=751+577+498+124,ref=751,val=0x1A7F,seg=7,type=lab"%lit;
  "sym	id=1922,name=""_op_tick_page_36_tail_60"",addrsize=absolute,scope=1,def=751+577+1265+124,val=0x1A7C,seg=7,type=lab"%lit;
  "sym	id=1923,name=""op_tick_6_page_36"",addrsize=absolute,scope=1,def=751+577+824,val=0x1A73,seg=7,type=lab"%lit;
  "sym	id=1924,name=""_op_tick_page_36_tail_7"",addrsize=absolute,scope=1,def=751+373+903+124,val=0x1A6D,seg=7,type=lab"%lit;
  "sym	id=1925,name=""_op_tick_page_36_tail_11"",addrsize=absolute,scope=1,def=751+373+1273+124,val=0x1A6A,seg=7,type=lab"%lit;
  "sym	id=1926,name=""_op_tick_4_page_36_jmp"",addrsize=absolute,scope=1,def=751+373+241,ref=751+751,val=0x1A70,seg=7,type=lab"%lit;
  "sym	id=1927,name=""_op_tick_page_36_tail_15"",addrsize=absolute,scope=1,def=751+373+585+124,ref=751,val=0x1A67,seg=7,type=lab"%lit;
  "sym	id=1928,name=""_op_tick_page_36_tail_19"",addrsize=absolute,scope=1,def=751+373+277+124,ref=751,val=0x1A64,seg=7,type=lab"%lit;
  "sym	id=1929,name=""_op_tick_page_36_tail_24"",addrsize=absolute,scope=1,def=751+373+518+124,ref=751+751,val=0x1A61,seg=7,type=lab"%lit;
  "sym	id=1930,name=""_op_tick_page_36_tail_28"",addrsize=absolute,scope=1,def=751+373+164+124,ref=751,val=0x1A5E,seg=7,type=lab"%lit;
  "sym	id=1931,name=""_op_tick_page_36_tail_33"",addrsize=absolute,scope=1,def=751+373+154+124,ref=751,val=0x1A5B,seg=7,type=lab"%lit;
  "sym	id=1932,name=""_op_tick_page_36_tail_37"",addrsize=absolute,scope=1,def=751+373+1257+124,ref=751,val=0x1A58,seg=7,type=lab"%lit;
  "sym	id=1933,name=""_op_tick_page_36_tail_42"",addrsize=absolute,scope=1,def=751+373+1302+124,ref=751+751,val=0x1A55,seg=7,type=lab"%lit;
  "sym	id=1934,name=""_op_tick_page_36_tail_46"",addrsize=absolute,scope=1,def=751+373+805+124,ref=751,val=0x1A52,seg=7,type=lab"%lit;
  "sym	id=1935,name=""_op_tick_page_36_tail_51"",addrsize=absolute,scope=1,def=751+373+1124+124,ref=751,val=0x1A4F,seg=7,type=lab"%lit;
  "sym	id=1936,name=""_op_tick_page_36_tail_55"",addrsize=absolute,scope=1,def=751+373+323+124,ref=751,val=0x1A4C,seg=7,type=lab"%lit;
  "sym	id=1937,name=""_op_tick_page_36_tail_59"",addrsize=absolute,scope=1,def=751+373+1142+124,val=0x1A49,seg=7,type=lab"%lit;
  "sym	id=1938,name=""op_tick_4_page_36"",addrsize=absolute,scope=1,def=751+373+1062,val=0x1A3F,seg=7,type=lab"%lit;
  "sym	id=1939,name=""@D"",addrsize=absolute,parent=1940,def=592+138+254,ref=592+592,val=0x1A3C,seg=7,type=lab"%lit;
  "sym	id=1940,name=""op_tick_66_page_35"",addrsize=absolute,scope=1,def=592+138+697,val=0x1A0B,seg=7,type=lab"%lit;
  "sym	id=1941,name=""@D"",addrsize=absolute,parent=1942,def=592+1001+700,ref=592+592,val=0x1A08,seg=7,type=lab"%lit;
  "sym	id=1942,name=""op_tick_64_page_35"",addrsize=absolute,scope=1,def=592+1001+979,val=0x19D7,seg=7,type=lab"%lit;
  "sym	id=1943,name=""@D"",addrsize=absolute,parent=1944,def=592+664+830,ref=592+592,val=0x19D4,seg=7,type=lab"%lit;
  "sym	id=1944,name=""op_tick_62_page_35"",addrsize=absolute,scope=1,def=592+664+262,val=0x19A3,seg=7,type=lab"%lit;
  "sym	id=1945,name=""@D"",addrsize=absolute,parent=1946,def=592+779+823,ref=592+592,val=0x19A0,seg=7,type=lab"%lit;
  "sym	id=1946,name=""op_tick_60_page_35"",addrsize=absolute,scope=1,def=592+779+725,val=0x196F,seg=7,type=lab"%lit;
  "sym	id=1947,name=""@D"",addrsize=absolute,parent=1948,def=592+510+1188,ref=592+592,val=0x196C,seg=7,type=lab"%lit;
  "sym	id=1948,name=""op_tick_58_page_35"",addrsize=absolute,scope=1,def=592+510+986,val=0x193B,seg=7,type=lab"%lit;
  "sym	id=1949,name=""@D"",addrsize=absolute,parent=1950,def=592+704+801,ref=592+592,val=0x1938,seg=7,type=lab"%lit;
  "sym	id=1950,name=""op_tick_56_page_35"",addrsize=absolute,scope=1,def=592+704+1286,val=0x1907,seg=7,type=lab"%lit;
  "sym	id=1951,name=""@D"",addrsize=absolute,parent=1952,def=592+621+1022,ref=592+592,val=0x1904,seg=7,type=lab"%lit;
  "sym	id=1952,name=""op_tick_54_page_35"",addrsize=absolute,scope=1,def=592+621+1201,val=0x18D3,seg=7,type=lab"%lit;
  "sym	id=1953,name=""op_tick_52_page_35"",addrsize=absolute,scope=1,def=592+884+153,val=0x18A8,seg=7,type=lab"%lit;
  "sym	id=1954,name=""op_tick_50_page_35"",addrsize=absolute,scope=1,def=592+114+962,val=0x1880,seg=7,type=lab"%lit;
  "sym	id=1955,name=""op_tick_48_page_35"",addrsize=absolute,scope=1,def=592+1026+439,val=0x1857,seg=7,type=lab"%lit;
  "sym	id=1956,name=""op_tick_46_page_35"",addrsize=absolute,scope=1,def=592+647+1044,val=0x1832,seg=7,type=lab"%lit;
  "sym	id=1957,name=""op_tick_44_page_35"",addrsize=absolute,scope=1,def=592+268+546,val=0x180C,seg=7,type=lab"%lit;
  "sym	id=1958,name=""op_tick_42_page_35"",addrsize=absolute,scope=1,def=592+62+67,val=0x17E9,seg=7,type=lab"%lit;
  "sym	id=1959,name=""op_tick_40_page_35"",addrsize=absolute,scope=1,def=592+1114+1222,val=0x17C6,seg=7,type=lab"%lit;
  "sym	id=1960,name=""op_tick_38_page_35"",addrsize=absolute,scope=1,def=592+609+1365,val=0x17A6,seg=7,type=lab"%lit;
  "sym	id=1961,name=""@D"",addrsize=absolute,parent=1962,def=592+1236+1293,ref=592+592,val=0x17A3,seg=7,type=lab"%lit;
  "sym	id=1962,name=""op_tick_36_page_35"",addrsize=absolute,scope=1,def=592+1236+860,val=0x1772,seg=7,type=lab"%lit;
  "sym	id=1963,name=""op_tick_34_page_35"",addrsize=absolute,scope=1,def=592+1036+1004,val=0x174C,seg=7,type=lab"%lit;
  "sym	id=1964,name=""op_tick_32_page_35"",addrsize=absolute,scope=1,def=592+1029+642,val=0x1730,seg=7,type=lab"%lit;
  "sym	id=1965,name=""op_tick_30_page_35"",addrsize=absolute,scope=1,def=592+1017+1037,val=0x1713,seg=7,type=lab"%lit;
  "sym	id=1966,name=""op_tick_28_page_35"",addrsize=absolute,scope=1,def=592+176+212,val=0x16FA,seg=7,type=lab"%lit;
  "sym	id=1967,name=""op_tick_26_page_35"",addrsize=absolute,scope=1,def=592+218+580,val=0x16E0,seg=7,type=lab"%lit;
  "sym	id=1968,name=""op_tick_24_page_35"",addrsize=absolute,scope=1,def=592+1223+678,val=0x16C9,seg=7,type=lab"%lit;
  "sym	id=1969,name=""op_tick_22_page_35"",addrsize=absolute,scope=1,def=592+1307+1192,val=0x16B2,seg=7,type=lab"%lit;
  "sym	id=1970,name=""op_tick_20_page_35"",addrsize=absolute,scope=1,def=592+1277+32,val=0x169E,seg=7,type=lab"%lit;
  "sym	id=1971,name=""@D"",addrsize=absolute,parent=1972,def=592+98+504,ref=592+592,val=0x169B,seg=7,type=lab"%lit;
  "sym	id=1972,name=""op_tick_18_page_35"",addrsize=absolute,scope=1,def=592+98+1202,val=0x166A,seg=7,type=lab"%lit;
  "sym	id=1973,name=""op_tick_16_page_35"",addrsize=absolute,scope=1,def=592+923+820,val=0x1653,seg=7,type=lab"%lit;
  "sym	id=1974,name=""op_tick_14_page_35"",addrsize=absolute,scope=1,def=592+304+13,val=0x1643,seg=7,type=lab"%lit;
  "sym	id=1975,name=""op_tick_12_page_35"",addrsize=absolute,scope=1,def=592+1148+767,val=0x1632,seg=7,type=lab"%lit;
  "sym	id=1976,name=""op_tick_10_page_35"",addrsize=absolute,scope=1,def=592+743+943,val=0x1625,seg=7,type=lab"%lit;
  "sym	id=1977,name=""op_tick_8_page_35"",addrsize=absolute,scope=1,def=592+370+821,val=0x1617,seg=7,type=lab"%lit;
  "sym	id=1978,name=""_op_tick_page_35_tail_8"",addrsize=absolute,scope=1,def=592+577+630+124,val=0x1611,seg=7,type=lab"%lit;
  "sym	id=1979,name=""_op_tick_page_35_tail_12"",addrsize=absolute,scope=1,def=592+577+1048+124,ref=592,val=0x160E,seg=7,type=lab"%lit;
  "sym	id=1980,name=""_op_tick_6_page_35_jmp"",addrsize=absolute,scope=1,def=592+577+757,ref=592+592+592,val=0x1614,seg=7,type=lab"%lit;
  "sym	id=1981,name=""_op_tick_page_35_tail_16"",addrsize=absolute,scope=1,def=592+577+178+124,ref=592,val=0x160B,seg=7,type=lab"%lit;
  "sym	id=1982,name=""_op_tick_page_35_tail_20"",addrsize=absolute,scope=1,def=592+577+682+124,ref=592+592,val=0x1608,seg=7,type=lab"%lit;
  "sym	id=1983,name=""_op_tick_page_35_tail_25"",addrsize=absolute,scope=1,def=592+577+1145+124,val=0x1605,seg=7,type=lab"%lit;
  "sym	id=1984,name=""_op_tick_page_35_tail_29"",addrsize=absolute,scope=1,def=592+577+1264+124,val=0x1602,seg=7,type=lab"%lit;
  "sym	id=1985,name=""_op_tick_page_35_tail_34"",addrsize=absolute,scope=1,def=592+577+485+124,ref=592,val=0x15FF,seg=7,type=lab"%lit;
  "sym	id=1986,name=""_op_tick_page_35_tail_38"",addrsize=absolute,scope=1,def=592+577+554+124,ref=592,val=0x15FC,seg=7,type=lab"%lit;
  "sym	id=1987,name=""_op_tick_page_35_tail_43"",addrsize=absolute,scope=1,def=592+577+1348+124,ref=592,val=0x15F9,seg=7,type=lab"%lit;
  "sym	id=1988,name=""_op_tick_page_35_tail_47"",addrsize=absolute,scope=1,def=592+577+776+124,val=0x15F6,seg=7,type=lab"%lit;
  "sym	id=1989,name=""_op_tick_page_35_tail_52"",addrsize=absolute,scope=1,def=592+577+671+124,ref=592,val=0x15F3,seg=7,type=lab"%lit;
  "sym	id=1990,name=""_op_tick_page_35_tail_56"",addrsize=absolute,scope=1,def=592+577+498+124,ref=592,val=0x15F0,seg=7,type=lab"%lit;
  "sym	id=1991,name=""_op_tick_page_35_tail_60"",addrsize=absolute,scope=1,def=592+577+1265+124,val=0x15ED,seg=7,type=lab"%lit;
  "sym	id=1992,name=""op_tick_6_page_35"",addrsize=absolute,scope=1,def=592+577+824,val=0x15E4,seg=7,type=lab"%lit;
  "sym	id=1993,name=""_op_tick_page_35_tail_7"",addrsize=absolute,scope=1,def=592+373+903+124,val=0x15DE,seg=7,type=lab"%lit;
  "sym	id=1994,name=""_op_tick_page_35_tail_11"",addrsize=absolute,scope=1,def=592+373+1273+124,val=0x15DB,seg=7,type=lab"%lit;
  "sym	id=1995,name=""_op_tick_4_page_35_jmp"",addrsize=absolute,scope=1,def=592+373+241,ref=592+592,val=0x15E1,seg=7,type=lab"%lit;
  "sym	id=1996,name=""_op_tick_page_35_tail_15"",addrsize=absolute,scope=1,def=592+373+585+124,ref=592,val=0x15D8,seg=7,type=lab"%lit;
  "sym	id=1997,name=""_op_tick_page_35_tail_19"",addrsize=absolute,scope=1,def=592+373+277+124,ref=592,val=0x15D5,seg=7,type=lab"%lit;
  "sym	id=1998,name=""_op_tick_page_35_tail_24"",addrsize=absolute,scope=1,def=592+373+518+124,ref=592+592,val=0x15D2,seg=7,type=lab"%lit;
  "sym	id=1999,name=""_op_tick_page_35_tail_28"",addrsize=absolute,scope=1,def=592+373+164+124,ref=592,val=0x15CF,seg=7,type=lab"%lit;
  "sym	id=2000,name=""_op_tick_page_35_tail_33"",addrsize=absolute,scope=1,def=592+373+154+124,ref=592,val=0x15CC,seg=7,type=lab"%lit;
  "sym	id=2001,name=""_op_tick_page_35_tail_37"",addrsize=absolute,scope=1,def=592+373+1257+124,ref=592,val=0x15C9,seg=7,type=lab"%lit;
  "sym	id=2002,name=""_op_tick_page_35_tail_42"",addrsize=absolute,scope=1,def=592+373+1302+124,ref=592+592,val=0x15C6,seg=7,type=lab"%lit;
  "sym	id=2003,name=""_op_tick_page_35_tail_46"",addrsize=absolute,scope=1,def=592+373+805+124,ref=592,val=0x15C3,seg=7,type=lab"%lit;
  "sym	id=2004,name=""_op_tick_page_35_tail_51"",addrsize=absolute,scope=1,def=592+373+1124+124,ref=592,val=0x15C0,seg=7,type=lab"%lit;
  "sym	id=2005,name=""_op_tick_page_35_tail_55"",addrsize=absolute,scope=1,def=592+373+323+124,ref=592,val=0x15BD,seg=7,type=lab"%lit;
  "sym	id=2006,name=""_op_tick_page_35_tail_59"",addrsize=absolute,scope=1,def=592+373+1142+124,val=0x15BA,seg=7,type=lab"%lit;
  "sym	id=2007,name=""op_tick_4_page_35"",addrsize=absolute,scope=1,def=592+373+1062,val=0x15B0,seg=7,type=lab"%lit;
  "sym	id=2008,name=""@D"",addrsize=absolute,parent=2009,def=771+138+254,ref=771+771,val=0x15AD,seg=7,type=lab"%lit;
  "sym	id=2009,name=""op_tick_66_page_34"",addrsize=absolute,scope=1,def=771+138+697,val=0x157C,seg=7,type=lab"%lit;
  "sym	id=2010,name=""@D"",addrsize=absolute,parent=2011,def=771+1001+700,ref=771+771,val=0x1579,seg=7,type=lab"%lit;
  "sym	id=2011,name=""op_tick_64_page_34"",addrsize=absolute,scope=1,def=771+1001+979,val=0x1548,seg=7,type=lab"%lit;
  "sym	id=2012,name=""@D"",addrsize=absolute,parent=2013,def=771+664+830,ref=771+771,val=0x1545,seg=7,type=lab"%lit;
  "sym	id=2013,name=""op_tick_62_page_34"",addrsize=absolute,scope=1,def=771+664+262,val=0x1514,seg=7,type=lab"%lit;
  "sym	id=2014,name=""@D"",addrsize=absolute,parent=2015,def=771+779+823,ref=771+771,val=0x1511,seg=7,type=lab"%lit;
  "sym	id=2015,name=""op_tick_60_page_34"",addrsize=absolute,scope=1,def=771+779+725,val=0x14E0,seg=7,type=lab"%lit;
  "sym	id=2016,name=""@D"",addrsize=absolute,parent=2017,def=771+510+1188,ref=771+771,val=0x14DD,seg=7,type=lab"%lit;
  "sym	id=2017,name=""op_tick_58_page_34"",addrsize=absolute,scope=1,def=771+510+986,val=0x14AC,seg=7,type=lab"%lit;
  "sym	id=2018,name=""@D"",addrsize=absolute,parent=2019,def=771+704+801,ref=771+771,val=0x14A9,seg=7,type=lab"%lit;
  "sym	id=2019,name=""op_tick_56_page_34"",addrsize=absolute,scope=1,def=771+704+1286,val=0x1478,seg=7,type=lab"%lit;
  "sym	id=2020,name=""@D"",addrsize=absolute,parent=2021,def=771+621+1022,ref=771+771,val=0x1475,seg=7,type=lab"%lit;
  "sym	id=2021,name=""op_tick_54_page_34"",addrsize=absolute,scope=1,def=771+621+1201,val=0x1444,seg=7,type=lab"%lit;
  "sym	id=2022,name=""op_tick_52_page_34"",addrsize=absolute,scope=1,def=771+884+153,val=0x1419,seg=7,type=lab"%lit;
  "sym	id=2023,name=""op_tick_50_page_34"",addrsize=absolute,scope=1,def=771+114+962,val=0x13F1,seg=7,type=lab"%lit;
  "sym	id=2024,name=""op_tick_48_page_34"",addrsize=absolute,scope=1,def=771+1026+439,val=0x13C8,seg=7,type=lab"%lit;
  "sym	id=2025,name=""op_tick_46_page_34"",addrsize=absolute,scope=1,def=771+647+1044,val=0x13A3,seg=7,type=lab"%lit;
  "sym	id=2026,name=""op_tick_44_page_34"",addrsize=absolute,scope=1,def=771+268+546,val=0x137D,seg=7,type=lab"%lit;
  "sym	id=2027,name=""op_tick_42_page_34"",addrsize=absolute,scope=1,def=771+62+67,val=0x135A,seg=7,type=lab"%lit;
  "sym	id=2028,name=""op_tick_40_page_34"",addrsize=absolute,scope=1,def=771+1114+1222,val=0x1337,seg=7,type=lab"%lit;
  "sym	id=2029,name=""op_tick_38_page_34"",addrsize=absolute,scope=1,def=771+609+1365,val=0x1317,seg=7,type=lab"%lit;
  "sym	id=2030,name=""@D"",addrsize=absolute,parent=2031,def=771+1236+1293,ref=771+771,val=0x1314,seg=7,type=lab"%lit;
  "sym	id=2031,name=""op_tick_36_page_34"",addrsize=absolute,scope=1,def=771+1236+860,val=0x12E3,seg=7,type=lab"%lit;
  "sym	id=2032,name=""op_tick_34_page_34"",addrsize=absolute,scope=1,def=771+1036+1004,val=0x12BD,seg=7,type=lab"%lit;
  "sym	id=2033,name=""op_tick_32_page_34"",addrsize=absolute,scope=1,def=771+1029+642,val=0x12A1,seg=7,type=lab"%lit;
  "sym	id=2034,name=""op_tick_30_page_34"",addrsize=absolute,scope=1,def=771+1017+1037,val=0x1284,seg=7,type=lab"%lit;
  "sym	id=2035,name=""op_tick_28_page_34"",addrsize=absolute,scope=1,def=771+176+212,val=0x126B,seg=7,type=lab"%lit;
  "sym	id=2036,name=""op_tick_26_page_34"",addrsize=absolute,scope=1,def=771+218+580,val=0x1251,seg=7,type=lab"%lit;
  "sym	id=2037,name=""op_tick_24_page_34"",addrsize=absolute,scope=1,def=771+1223+678,val=0x123A,seg=7,type=lab"%lit;
  "sym	id=2038,name=""op_tick_22_page_34"",addrsize=absolute,scope=1,def=771+1307+1192,val=0x1223,seg=7,type=lab"%lit;
  "sym	id=2039,name=""op_tick_20_page_34"",addrsize=absolute,scope=1,def=771+1277+32,val=0x120F,seg=7,type=lab"%lit;
  "sym	id=2040,name=""@D"",addrsize=absolute,parent=2041,def=771+98+504,ref=771+771,val=0x120C,seg=7,type=lab"%lit;
  "sym	id=2041,name=""op_tick_18_page_34"",addrsize=absolute,scope=1,def=771+98+1202,val=0x11DB,seg=7,type=lab"%lit;
  "sym	id=2042,name=""op_tick_16_page_34"",addrsize=absolute,scope=1,def=771+923+820,val=0x11C4,seg=7,type=lab"%lit;
  "sym	id=2043,name=""op_tick_14_page_34"",addrsize=absolute,scope=1,def=771+304+13,val=0x11B4,seg=7,type=lab"%lit;
  "sym	id=2044,name=""op_tick_12_page_34"",addrsize=absolute,scope=1,def=771+1148+767,val=0x11A3,seg=7,type=lab"%lit;
  "sym	id=2045,name=""op_tick_10_page_34"",addrsize=absolute,scope=1,def=771+743+943,val=0x1196,seg=7,type=lab"%lit;
  "sym	id=2046,name=""op_tick_8_page_34"",addrsize=absolute,scope=1,def=771+370+821,val=0x1188,seg=7,type=lab"%lit;
  "sym	id=2047,name=""_op_tick_page_34_tail_8"",addrsize=absolute,scope=1,def=771+577+630+124,val=0x1182,seg=7,type=lab"%lit;
  "sym	id=2048,name=""_op_tick_page_34_tail_12"",addrsize=absolute,scope=1,def=771+577+1048+124,ref=771,val=0x117F,seg=7,type=lab"%lit;
  "sym	id=2049,name=""_op_tick_6_page_34_jmp"",addrsize=absolute,scope=1,def=771+577+757,ref=771+771+771,val=0x1185,seg=7,type=lab"%lit;
  "sym	id=2050,name=""_op_tick_page_34_tail_16"",addrsize=absolute,scope=1,def=771+577+178+124,ref=771,val=0x117C,seg=7,type=lab"%lit;
  "sym	id=2051,name=""_op_tick_page_34_tail_20"",addrsize=absolute,scope=1,def=771+577+682+124,ref=771+771,val=0x1179,seg=7,type=lab"%lit;
  "sym	id=2052,name=""_op_tick_page_34_tail_25"",addrsize=absolute,scope=1,def=771+577+1145+124,val=0x1176,seg=7,type=lab"%lit;
  "sym	id=2053,name=""_op_tick_page_34_tail_29"",addrsize=absolute,scope=1,def=771+577+1264+124,val=0x1173,seg=7,type=lab"%lit;
  "sym	id=2054,name=""_op_tick_page_34_tail_34"",addrsize=absolute,scope=1,def=771+577+485+124,ref=771,val=0x1170,seg=7,type=lab"%lit;
  "sym	id=2055,name=""_op_tick_page_34_tail_38"",addrsize=absolute,scope=1,def=771+577+554+124,ref=771,val=0x116D,seg=7,type=lab"%lit;
  "sym	id=2056,name=""_op_tick_page_34_tail_43"",addrsize=absolute,scope=1,def=771+577+1348+124,ref=771,val=0x116A,seg=7,type=lab"%lit;
  "sym	id=2057,name=""_op_tick_page_34_tail_47"",addrsize=absolute,scope=1,def=771+577+776+124,val=0x1167,seg=7,type=lab"%lit;
  "sym	id=2058,name=""_op_tick_page_34_tail_52"",addrsize=absolute,scope=1,def=771+577+671+124,ref=771,val=0x1164,seg=7,type=lab"%lit;
  "sym	id=2059,name=""_op_tick_page_34_tail_56"",addrsize=absolute,scope=1,def=771+577+498+124,ref=771,val=0x1161,seg=7,type=lab"%lit;
  "sym	id=2060,name=""_op_tick_page_34_tail_60"",addrsize=absolute,scope=1,def=771+577+1265+124,val=0x115E,seg=7,type=lab"%lit;
  "sym	id=2061,name=""op_tick_6_page_34"",addrsize=absolute,scope=1,def=771+577+824,val=0x1155,seg=7,type=lab"%lit;
  "sym	id=2062,name=""_op_tick_page_34_tail_7"",addrsize=absolute,scope=1,def=771+373+903+124,val=0x114F,seg=7,type=lab"%lit;
  "sym	id=2063,name=""_op_tick_page_34_tail_11"",addrsize=absolute,scope=1,def=771+373+1273+124,val=0x114C,seg=7,type=lab"%lit;
  "sym	id=2064,name=""_op_tick_4_page_34_jmp"",addrsize=absolute,scope=1,def=771+373+241,ref=771+771,val=0x1152,seg=7,type=lab"%lit;
  "sym	id=2065,name=""_op_tick_page_34_tail_15"",addrsize=absolute,scope=1,def=771+373+585+124,ref=771,val=0x1149,seg=7,type=lab"%lit;
  "sym	id=2066,name=""_op_tick_page_34_tail_19"",addrsize=absolute,scope=1,def=771+373+277+124,ref=771,val=0x1146,seg=7,type=lab"%lit;
  "sym	id=2067,name=""_op_tick_page_34_tail_24"",addrsize=absolute,scope=1,def=771+373+518+124,ref=771+771,val=0x1143,seg=7,type=lab"%lit;
  "sym	id=2068,name=""_op_tick_page_34_tail_28"",addrsize=absolute,scope=1,def=771+373+164+124,ref=771,val=0x1140,seg=7,type=lab"%lit;
  "sym	id=2069,name=""_op_tick_page_34_tail_33"",addrsize=absolute,scope=1,def=771+373+154+124,ref=771,val=0x113D,seg=7,type=lab"%lit;
  "sym	id=2070,name=""_op_tick_page_34_tail_37"",addrsize=absolute,scope=1,def=771+373+1257+124,ref=771,val=0x113A,seg=7,type=lab"%lit;
  "sym	id=2071,name=""_op_tick_page_34_tail_42"",addrsize=absolute,scope=1,def=771+373+1302+124,ref=771+771,val=0x1137,seg=7,type=lab"%lit;
  "sym	id=2072,name=""_op_tick_page_34_tail_46"",addrsize=absolute,scope=1,def=771+373+805+124,ref=771,val=0x1134,seg=7,type=lab"%lit;
  "sym	id=2073,name=""_op_tick_page_34_tail_51"",addrsize=absolute,scope=1,def=771+373+1124+124,ref=771,val=0x1131,seg=7,type=lab"%lit;
  "sym	id=2074,name=""_op_tick_page_34_tail_55"",addrsize=absolute,scope=1,def=771+373+323+124,ref=771,val=0x112E,seg=7,type=lab"%lit;
  "sym	id=2075,name=""_op_tick_page_34_tail_59"",addrsize=absolute,scope=1,def=771+373+1142+124,val=0x112B,seg=7,type=lab"%lit;
  "sym	id=2076,name=""op_tick_4_page_34"",addrsize=absolute,scope=1,def=771+373+1062,val=0x1121,seg=7,type=lab"%lit;
  "sym	id=2077,name=""@D"",addrsize=absolute,parent=2078,def=414+138+254,ref=414+414,val=0x111E,seg=7,type=lab"%lit;
  "sym	id=2078,name=""op_tick_66_page_33"",addrsize=absolute,scope=1,def=414+138+697,val=0x10ED,seg=7,type=lab"%lit;
  "sym	id=2079,name=""@D"",addrsize=absolute,parent=2080,def=414+1001+700,ref=414+414,val=0x10EA,seg=7,type=lab"%lit;
  "sym	id=2080,name=""op_tick_64_page_33"",addrsize=absolute,scope=1,def=414+1001+979,val=0x10B9,seg=7,type=lab"%lit;
  "sym	id=2081,name=""@D"",addrsize=absolute,parent=2082,def=414+664+830,ref=414+414,val=0x10B6,seg=7,type=lab"%lit;
  "sym	id=2082,name=""op_tick_62_page_33"",addrsize=absolute,scope=1,def=414+664+262,val=0x1085,seg=7,type=lab"%lit;
  "sym	id=2083,name=""@D"",addrsize=absolute,parent=2084,def=414+779+823,ref=414+414,val=0x1082,seg=7,type=lab"%lit;
  "sym	id=2084,name=""op_tick_60_page_33"",addrsize=absolute,scope=1,def=414+779+725,val=0x1051,seg=7,type=lab"%lit;
  "sym	id=2085,name=""@D"",addrsize=absolute,parent=2086,def=414+510+1188,ref=414+414,val=0x104E,seg=7,type=lab"%lit;
  "sym	id=2086,name=""op_tick_58_page_33"",addrsize=absolute,scope=1,def=414+510+986,val=0x101D,seg=7,type=lab"%lit;
  "sym	id=2087,name=""@D"",addrsize=absolute,parent=2088,def=414+704+801,ref=414+414,val=0x101A,seg=7,type=lab"%lit;
  "sym	id=2088,name=""op_tick_56_page_33"",addrsize=absolute,scope=1,def=414+704+1286,val=0xFE9,seg=7,type=lab"%lit;
  "sym	id=2089,name=""@D"",addrsize=absolute,parent=2090,def=414+621+1022,ref=414+414,val=0xFE6,seg=7,type=lab"%lit;
  "sym	id=2090,name=""op_tick_54_page_33"",addrsize=absolute,scope=1,def=414+621+1201,val=0xFB5,seg=7,type=lab"%lit;
  "sym	id=2091,name=""op_tick_52_page_33"",addrsize=absolute,scope=1,def=414+884+153,val=0xF8A,seg=7,type=lab"%lit;
  "sym	id=2092,name=""op_tick_50_page_33"",addrsize=absolute,scope=1,def=414+114+962,val=0xF62,seg=7,type=lab"%lit;
  "sym	id=2093,name=""op_tick_48_page_33"",addrsize=absolute,scope=1,def=414+1026+439,val=0xF39,seg=7,type=lab"%lit;
  "sym	id=2094,name=""op_tick_46_page_33"",addrsize=absolute,scope=1,def=414+647+1044,val=0xF14,seg=7,type=lab"%lit;
  "sym	id=2095,name=""op_tick_44_page_33"",addrsize=absolute,scope=1,def=414+268+546,val=0xEEE,seg=7,type=lab"%lit;
  "sym	id=2096,name=""op_tick_42_page_33"",addrsize=absolute,scope=1,def=414+62+67,val=0xECB,seg=7,type=lab"%lit;
  "sym	id=2097,name=""op_tick_40_page_33"",addrsize=absolute,scope=1,def=414+1114+1222,val=0xEA8,seg=7,type=lab"%lit;
  "sym	id=2098,name=""op_tick_38_page_33"",addrsize=absolute,scope=1,def=414+609+1365,val=0xE88,seg=7,type=lab"%lit;
  "sym	id=2099,name=""@D"",addrsize=absolute,parent=2100,def=414+1236+1293,ref=414+414,val=0xE85,seg=7,type=lab"%lit;
  "sym	id=2100,name=""op_tick_36_page_33"",addrsize=absolute,scope=1,def=414+1236+860,val=0xE54,seg=7,type=lab"%lit;
  "sym	id=2101,name=""op_tick_34_page_33"",addrsize=absolute,scope=1,def=414+1036+1004,val=0xE2E,seg=7,type=lab"%lit;
  "sym	id=2102,name=""op_tick_32_page_33"",addrsize=absolute,scope=1,def=414+1029+642,val=0xE12,seg=7,type=lab"%lit;
  "sym	id=2103,name=""op_tick_30_page_33"",addrsize=absolute,scope=1,def=414+1017+1037,val=0xDF5,seg=7,type=lab"%lit;
  "sym	id=2104,name=""op_tick_28_page_33"",addrsize=absolute,scope=1,def=414+176+212,val=0xDDC,seg=7,type=lab"%lit;
  "sym	id=2105,name=""op_tick_26_page_33"",addrsize=absolute,scope=1,def=414+218+580,val=0xDC2,seg=7,type=lab"%lit;
  "sym	id=2106,name=""op_tick_24_page_33"",addrsize=absolute,scope=1,def=414+1223+678,val=0xDAB,seg=7,type=lab"%lit;
  "sym	id=2107,name=""op_tick_22_page_33"",addrsize=absolute,scope=1,def=414+1307+1192,val=0xD94,seg=7,type=lab"%lit;
  "sym	id=2108,name=""op_tick_20_page_33"",addrsize=absolute,scope=1,def=414+1277+32,val=0xD80,seg=7,type=lab"%lit;
  "sym	id=2109,name=""@D"",addrsize=absolute,parent=2110,def=414+98+504,ref=414+414,val=0xD7D,seg=7,type=lab"%lit;
  "sym	id=2110,name=""op_tick_18_page_33"",addrsize=absolute,scope=1,def=414+98+1202,val=0xD4C,seg=7,type=lab"%lit;
  "sym	id=2111,name=""op_tick_16_page_33"",addrsize=absolute,scope=1,def=414+923+820,val=0xD35,seg=7,type=lab"%lit;
  "sym	id=2112,name=""op_tick_14_page_33"",addrsize=absolute,scope=1,def=414+304+13,val=0xD25,seg=7,type=lab"%lit;
  "sym	id=2113,name=""op_tick_12_page_33"",addrsize=absolute,scope=1,def=414+1148+767,val=0xD14,seg=7,type=lab"%lit;
  "sym	id=2114,name=""op_tick_10_page_33"",addrsize=absolute,scope=1,def=414+743+943,val=0xD07,seg=7,type=lab"%lit;
  "sym	id=2115,name=""op_tick_8_page_33"",addrsize=absolute,scope=1,def=414+370+821,val=0xCF9,seg=7,type=lab"%lit;
  "sym	id=2116,name=""_op_tick_page_33_tail_8"",addrsize=absolute,scope=1,def=414+577+630+124,val=0xCF3,seg=7,type=lab"%lit;
  "sym	id=2117,name=""_op_tick_page_33_tail_12"",addrsize=absolute,scope=1,def=414+577+1048+124,ref=414,val=0xCF0,seg=7,type=lab"%lit;
  "sym	id=2118,name=""_op_tick_6_page_33_jmp"",addrsize=absolute,scope=1,def=414+577+757,ref=414+414+414,val=0xCF6,seg=7,type=lab"%lit;
  "sym	id=2119,name=""_op_tick_page_33_tail_16"",addrsize=absolute,scope=1,def=414+577+178+124,ref=414,val=0xCED,seg=7,type=lab"%lit;
  "sym	id=2120,name=""_op_tick_page_33_tail_20"",addrsize=absolute,scope=1,def=414+577+682+124,ref=414+414,val=0xCEA,seg=7,type=lab"%lit;
  "sym	id=2121,name=""_op_tick_page_33_tail_25"",addrsize=absolute,scope=1,def=414+577+1145+124,val=0xCE7,seg=7,type=lab"%lit;
  "sym	id=2122,name=""_op_tick_page_33_tail_29"",addrsize=absolute,scope=1,def=414+577+1264+124,val=0xCE4,seg=7,type=lab"%lit;
  "sym	id=2123,name=""_op_tick_page_33_tail_34"",addrsize=absolute,scope=1,def=414+577+485+124,ref=414,val=0xCE1,seg=7,type=lab"%lit;
  "sym	id=2124,name=""_op_tick_page_33_tail_38"",addrsize=absolute,scope=1,def=414+577+554+124,ref=414,val=0xCDE,seg=7,type=lab"%lit;
  "sym	id=2125,name=""_op_tick_page_33_tail_43"",addrsize=absolute,scope=1,def=414+577+1348+124,ref=414,val=0xCDB,seg=7,type=lab"%lit;
  "sym	id=2126,name=""_op_tick_page_33_tail_47"",addrsize=absolute,scope=1,def=414+577+776+124,val=0xCD8,seg=7,type=lab"%lit;
  "sym	id=2127,name=""_op_tick_page_33_tail_52"",addrsize=absolute,scope=1,def=414+577+671+124,ref=414,val=0xCD5,seg=7,type=lab"%lit;
  "sym	id=2128,name=""_op_tick_page_33_tail_56"",addrsize=absolute,scope=1,def=414+577+498+124,ref=414,val=0xCD2,seg=7,type=lab"%lit;
  "sym	id=2129,name=""_op_tick_page_33_tail_60"",addrsize=absolute,scope=1,def=414+577+1265+124,val=0xCCF,seg=7,type=lab"%lit;
  "sym	id=2130,name=""op_tick_6_page_33"",addrsize=absolute,scope=1,def=414+577+824,val=0xCC6,seg=7,type=lab"%lit;
  "sym	id=2131,name=""_op_tick_page_33_tail_7"",addrsize=absolute,scope=1,def=414+373+903+124,val=0xCC0,seg=7,type=lab"%lit;
  "sym	id=2132,name=""_op_tick_page_33_tail_11"",addrsize=absolute,scope=1,def=414+373+1273+124,val=0xCBD,seg=7,type=lab"%lit;
  "sym	id=2133,name=""_op_tick_4_page_33_jmp"",addrsize=absolute,scope=1,def=414+373+241,ref=414+414,val=0xCC3,seg=7,type=lab"%lit;
  "sym	id=2134,name=""_op_tick_page_33_tail_15"",addrsize=absolute,scope=1,def=414+373+585+124,ref=414,val=0xCBA,seg=7,type=lab"%lit;
  "sym	id=2135,name=""_op_tick_page_33_tail_19"",addrsize=absolute,scope=1,def=414+373+277+124,ref=414,val=0xCB7,seg=7,type=lab"%lit;
  "sym	id=2136,name=""_op_tick_page_33_tail_24"",addrsize=absolute,scope=1,def=414+373+518+124,ref=414+414,val=0xCB4,seg=7,type=lab"%lit;
  "sym	id=2137,name=""_op_tick_page_33_tail_28"",addrsize=absolute,scope=1,def=414+373+164+124,ref=414,val=0xCB1,seg=7,type=lab"%lit;
  "sym	id=2138,name=""_op_tick_page_33_tail_33"",addrsize=absolute,scope=1,def=414+373+154+124,ref=414,val=0xCAE,seg=7,type=lab"%lit;
  "sym	id=2139,name=""_op_tick_page_33_tail_37"",addrsize=absolute,scope=1,def=414+373+1257+124,ref=414,val=0xCAB,seg=7,type=lab"%lit;
  "sym	id=2140,name=""_op_tick_page_33_tail_42"",addrsize=absolute,scope=1,def=414+373+1302+124,ref=414+414,val=0xCA8,seg=7,type=lab"%lit;
  "sym	id=2141,name=""_op_tick_page_33_tail_46"",addrsize=absolute,scope=1,def=414+373+805+124,ref=414,val=0xCA5,seg=7,type=lab"%lit;
  "sym	id=2142,name=""_op_tick_page_33_tail_51"",addrsize=absolute,scope=1,def=414+373+1124+124,ref=414,val=0xCA2,seg=7,type=lab"%lit;
  "sym	id=2143,name=""_op_tick_page_33_tail_55"",addrsize=absolute,scope=1,def=414+373+323+124,ref=414,val=0xC9F,seg=7,type=lab"%lit;
  "sym	id=2144,name=""_op_tick_page_33_tail_59"",addrsize=absolute,scope=1,def=414+373+1142+124,val=0xC9C,seg=7,type=lab"%lit;
  "sym	id=2145,name=""op_tick_4_page_33"",addrsize=absolute,scope=1,def=414+373+1062,val=0xC92,seg=7,type=lab"%lit;
  "sym	id=2146,name=""@D"",addrsize=absolute,parent=2147,def=1117+138+254,ref=1117+1117,val=0xC8F,seg=7,type=lab"%lit;
  "sym	id=2147,name=""op_tick_66_page_32"",addrsize=absolute,scope=1,def=1117+138+697,val=0xC5E,seg=7,type=lab"%lit;
  "sym	id=2148,name=""@D"",addrsize=absolute,parent=2149,def=1117+1001+700,ref=1117+1117,val=0xC5B,seg=7,type=lab"%lit;
  "sym	id=2149,name=""op_tick_64_page_32"",addrsize=absolute,scope=1,def=1117+1001+979,val=0xC2A,seg=7,type=lab"%lit;
  "sym	id=2150,name=""@D"",addrsize=absolute,parent=2151,def=1117+664+830,ref=1117+1117,val=0xC27,seg=7,type=lab"%lit;
  "sym	id=2151,name=""op_tick_62_page_32"",addrsize=absolute,scope=1,def=1117+664+262,val=0xBF6,seg=7,type=lab"%lit;
  "sym	id=2152,name=""@D"",addrsize=absolute,parent=2153,def=1117+779+823,ref=1117+1117,val=0xBF3,seg=7,type=lab"%lit;
  "sym	id=2153,name=""op_tick_60_page_32"",addrsize=absolute,scope=1,def=1117+779+725,val=0xBC2,seg=7,type=lab"%lit;
  "sym	id=2154,name=""@D"",addrsize=absolute,parent=2155,def=1117+510+1188,ref=1117+1117,val=0xBBF,seg=7,type=lab"%lit;
  "sym	id=2155,name=""op_tick_58_page_32"",addrsize=absolute,scope=1,def=1117+510+986,val=0xB8E,seg=7,type=lab"%lit;
  "sym	id=2156,name=""@D"",addrsize=absolute,parent=2157,def=1117+704+801,ref=1117+1117,val=0xB8B,seg=7,type=lab"%lit;
  "sym	id=2157,name=""op_tick_56_page_32"",addrsize=absolute,scope=1,def=1117+704+1286,val=0xB5A,seg=7,type=lab"%lit;
  "sym	id=2158,name=""@D"",addrsize=absolute,parent=2159,def=1117+621+1022,ref=1117+1117,val=0xB57,seg=7,type=lab"%lit;
  "sym	id=2159,name=""op_tick_54_page_32"",addrsize=absolute,scope=1,def=1117+621+1201,val=0xB26,seg=7,type=lab"%lit;
  "sym	id=2160,name=""op_tick_52_page_32"",addrsize=absolute,scope=1,def=1117+884+153,val=0xAFB,seg=7,type=lab"%lit;
  "sym	id=2161,name=""op_tick_50_page_32"",addrsize=absolute,scope=1,def=1117+114+962,val=0xAD3,seg=7,type=lab"%lit;
  "sym	id=2162,name=""op_tick_48_page_32"",addrsize=absolute,scope=1,def=1117+1026+439,val=0xAAA,seg=7,type=lab"%lit;
  "sym	id=2163,name=""op_tick_46_page_32"",addrsize=absolute,scope=1,def=1117+647+1044,val=0xA85,seg=7,type=lab"%lit;
  "sym	id=2164,name=""op_tick_44_page_32"",addrsize=absolute,scope=1,def=1117+268+546,val=0xA5F,seg=7,type=lab"%lit;
  "sym	id=2165,name=""op_tick_42_page_32"",addrsize=absolute,scope=1,def=1117+62+67,val=0xA3C,seg=7,type=lab"%lit;
  "sym	id=2166,name=""op_tick_40_page_32"",addrsize=absolute,scope=1,def=1117+1114+1222,val=0xA19,seg=7,type=lab"%lit;
  "sym	id=2167,name=""op_tick_38_page_32"",addrsize=absolute,scope=1,def=1117+609+1365,val=0x9F9,seg=7,type=lab"%lit;
  "sym	id=2168,name=""@D"",addrsize=absolute,parent=2169,def=1117+1236+1293,ref=1117+1117,val=0x9F6,seg=7,type=lab"%lit;
  "sym	id=2169,name=""op_tick_36_page_32"",addrsize=absolute,scope=1,def=1117+1236+860,val=0x9C5,seg=7,type=lab"%lit;
  "sym	id=2170,name=""op_tick_34_page_32"",addrsize=absolute,scope=1,def=1117+1036+1004,val=0x99F,seg=7,type=lab"%lit;
  "sym	id=2171,name=""op_tick_32_page_32"",addrsize=absolute,scope=1,def=1117+1029+642,val=0x983,seg=7,type=lab"%lit;
  "sym	id=2172,name=""op_tick_30_page_32"",addrsize=absolute,scope=1,def=1117+1017+1037,val=0x966,seg=7,type=lab"%lit;
  "sym	id=2173,name=""op_tick_28_page_32"",addrsize=absolute,scope=1,def=1117+176+212,val=0x94D,seg=7,type=lab"%lit;
  "sym	id=2174,name=""op_tick_26_page_32"",addrsize=absolute,scope=1,def=1117+218+580,val=0x933,seg=7,type=lab"%lit;
  "sym	id=2175,name=""op_tick_24_page_32"",addrsize=absolute,scope=1,def=1117+1223+678,val=0x91C,seg=7,type=lab"%lit;
  "sym	id=2176,name=""op_tick_22_page_32"",addrsize=absolute,scope=1,def=1117+1307+1192,val=0x905,seg=7,type=lab"%lit;
  "sym	id=2177,name=""op_tick_20_page_32"",addrsize=absolute,scope=1,def=1117+1277+32,val=0x8F1,seg=7,type=lab"%lit;
  "sym	id=2178,name=""@D"",addrsize=absolute,parent=2179,def=1117+98+504,ref=1117+1117,val=0x8EE,seg=7,type=lab"%lit;
  "sym	id=2179,name=""op_tick_18_page_32"",addrsize=absolute,scope=1,def=1117+98+1202,val=0x8BD,seg=7,type=lab"%lit;
  "sym	id=2180,name=""op_tick_16_page_32"",addrsize=absolute,scope=1,def=1117+923+820,val=0x8A6,seg=7,type=lab"%lit;
  "sym	id=2181,name=""op_tick_14_page_32"",addrsize=absolute,scope=1,def=1117+304+13,val=0x896,seg=7,type=lab"%lit;
  "sym	id=2182,name=""op_tick_12_page_32"",addrsize=absolute,scope=1,def=1117+1148+767,val=0x885,seg=7,type=lab"%lit;
  "sym	id=2183,name=""op_tick_10_page_32"",addrsize=absolute,scope=1,def=1117+743+943,val=0x878,seg=7,type=lab"%lit;
  "sym	id=2184,name=""op_tick_8_page_32"",addrsize=absolute,scope=1,def=1117+370+821,val=0x86A,seg=7,type=lab"%lit;
  "sym	id=2185,name=""_op_tick_page_32_tail_8"",addrsize=absolute,scope=1,def=1117+577+630+124,val=0x864,seg=7,type=lab"%lit;
  "sym	id=2186,name=""_op_tick_page_32_tail_12"",addrsize=absolute,scope=1,def=1117+577+1048+124,ref=1117,val=0x861,seg=7,type=lab"%lit;
  "sym	id=2187,name=""_op_tick_6_page_32_jmp"",addrsize=absolute,scope=1,def=1117+577+757,ref=1117+1117+1117,val=0x867,seg=7,type=lab"%lit;
  "sym	id=2188,name=""_op_tick_page_32_tail_16"",addrsize=absolute,scope=1,def=1117+577+178+124,ref=1117,val=0x85E,seg=7,type=lab"%lit;
  "sym	id=2189,name=""_op_tick_page_32_tail_20"",addrsize=absolute,scope=1,def=1117+577+682+124,ref=1117+1117,val=0x85B,seg=7,type=lab"%lit;
  "sym	id=2190,name=""_op_tick_page_32_tail_25"",addrsize=absolute,scope=1,def=1117+577+1145+124,val=0x858,seg=7,type=lab"%lit;
  "sym	id=2191,name=""_op_tick_page_32_tail_29"",addrsize=absolute,scope=1,def=1117+577+1264+124,val=0x855,seg=7,type=lab"%lit;
  "sym	id=2192,name=""_op_tick_page_32_tail_34"",addrsize=absolute,scope=1,def=1117+577+485+124,ref=1117,val=0x852,seg=7,type=lab"%lit;
  "sym	id=2193,name=""_op_tick_page_32_tail_38"",addrsize=absolute,scope=1,def=1117+577+554+124,ref=1117,val=0x84F,seg=7,type=lab"%lit;
  "sym	id=2194,name=""_op_tick_page_32_tail_43"",addrsize=absolute,scope=1,def=1117+577+1348+124,ref=1117,val=0x84C,seg=7,type=lab"%lit;
  "sym	id=2195,name=""_op_tick_page_32_tail_47"",addrsize=absolute,scope=1,def=1117+577+776+124,val=0x849,seg=7,type=lab"%lit;
  "sym	id=2196,name=""_op_tick_page_32_tail_52"",addrsize=absolute,scope=1,def=1117+577+671+124,ref=1117,val=0x846,seg=7,type=lab"%lit;
  "sym	id=2197,name=""_op_tick_page_32_tail_56"",addrsize=absolute,scope=1,def=1117+577+498+124,ref=1117,val=0x843,seg=7,type=lab"%lit;
  "sym	id=2198,name=""_op_tick_page_32_tail_60"",addrsize=absolute,scope=1,def=1117+577+1265+124,val=0x840,seg=7,type=lab"%lit;
  "sym	id=2199,name=""op_tick_6_page_32"",addrsize=absolute,scope=1,def=1117+577+824,val=0x837,seg=7,type=lab"%lit;
  "sym	id=2200,name=""_op_tick_page_32_tail_7"",addrsize=absolute,scope=1,def=1117+373+903+124,val=0x831,seg=7,type=lab"%lit;
  "sym	id=2201,name=""_op_tick_page_32_tail_11"",addrsize=absolute,scope=1,def=1117+373+1273+124,val=0x82E,seg=7,type=lab"%lit;
  "sym	id=2202,name=""_op_tick_4_page_32_jmp"",addrsize=absolute,scope=1,def=1117+373+241,ref=1117+1117,val=0x834,seg=7,type=lab"%lit;
  "sym	id=2203,name=""_op_tick_page_32_tail_15"",addrsize=absolute,scope=1,def=1117+373+585+124,ref=1117,val=0x82B,seg=7,type=lab"%lit;
  "sym	id=2204,name=""_op_tick_page_32_tail_19"",addrsize=absolute,scope=1,def=1117+373+277+124,ref=1117,val=0x828,seg=7,type=lab"%lit;
  "sym	id=2205,name=""_op_tick_page_32_tail_24"",addrsize=absolute,scope=1,def=1117+373+518+124,ref=1117+1117,val=0x825,seg=7,type=lab"%lit;
  "sym	id=2206,name=""_op_tick_page_32_tail_28"",addrsize=absolute,scope=1,def=1117+373+164+124,ref=1117,val=0x822,seg=7,type=lab"%lit;
  "sym	id=2207,name=""_op_tick_page_32_tail_33"",addrsize=absolute,scope=1,def=1117+373+154+124,ref=1117,val=0x81F,seg=7,type=lab"%lit;
  "sym	id=2208,name=""_op_tick_page_32_tail_37"",addrsize=absolute,scope=1,def=1117+373+1257+124,ref=1117,val=0x81C,seg=7,type=lab"%lit;
  "sym	id=2209,name=""_op_tick_page_32_tail_42"",addrsize=absolute,scope=1,def=1117+373+1302+124,ref=1117+1117,val=0x819,seg=7,type=lab"%lit;
  "sym	id=2210,name=""_op_tick_page_32_tail_46"",addrsize=absolute,scope=1,def=1117+373+805+124,ref=1117,val=0x816,seg=7,type=lab"%lit;
  "sym	id=2211,name=""_op_tick_page_32_tail_51"",addrsize=absolute,scope=1,def=1117+373+1124+124,ref=1117,val=0x813,seg=7,type=lab"%lit;
  "sym	id=2212,name=""_op_tick_page_32_tail_55"",addrsize=absolute,scope=1,def=1117+373+323+124,ref=1117,val=0x810,seg=7,type=lab"%lit;
  "sym	id=2213,name=""_op_tick_page_32_tail_59"",addrsize=absolute,scope=1,def=1117+373+1142+124,val=0x80D,seg=7,type=lab"%lit;
  "sym	id=2214,name=""op_tick_4_page_32"",addrsize=absolute,scope=1,def=1117+373+1062,val=0x803,seg=7,type=lab"%lit;
  "sym	id=2215,name=""@D"",addrsize=absolute,parent=2216,def=811,ref=63+913,val=0x407C,seg=0,type=lab"%lit;
  "sym	id=2216,name=""op_nop"",addrsize=absolute,scope=1,def=1038,ref=1094+1117+1117+1117+1117+1117+1117+1117+1117+1117+1117+1117+414+414+414+414+414+414+414+414+414+414+414+771+771+771+771+771+771+771+771+771+771+771+592+592+592+592+592+592+592+592+592+592+592+751+751+751+751+751+751+751+751+751+751+751+336+893+1154+878+878+878+878+878+878+878+878+878+878+878+1261+1261+1261+1261+1261+1261+1261+1261+1261+1261+1261+1082+1082+1082+1082+1082+1082+1082+1082+1082+1082+1082+0+0+0+0+0+0+0+0+0+0+0+28+28+28+28+28+28+28+28+28+28+28+875+875+875+875+875+875+875+875+875+875+875+1296+1296+1296+1296+1296+1296+1296+1296+1296+1296+1296+607+607+607+607+607+607+607+607+607+607+607+568+568+568+568+568+568+568+568+568+568+568+1337+1337+1337+1337+1337+1337+1337+1337+1337+1337+1337+468+468+468+468+468+468+468+468+468+468+468+948+948+948+948+948+948+948+948+948+948+948+219+219+219+219+219+219+219+219+219+219+219+1378+1378+1378+1378+1378+1378+1378+1378+1378+1378+1378+100+100+100+100+100+100+100+100+100+100+100+777+777+777+777+777+777+777+777+777+777+777+1089+1089+1089+1089+1089+1089+1089+1089+1089+1089+1089+1102+1102+1102+1102+1102+1102+1102+1102+1102+1102+1102+1369+1369+1369+1369+1369+1369+1369+1369+1369+1369+1369+957+957+957+957+957+957+957+957+957+957+957+1381+1381+1381+1381+1381+1381+1381+1381+1381+1381+1381+1085+1085+1085+1085+1085+1085+1085+1085+1085+1085+1085+639+639+639+639+639+639+639+639+639+639+639+106+106+106+106+106+106+106+106+106+106+106+1231+1231+1231+1231+1231+1231+1231+1231+1231+1231+1231+1181+1181+1181+1181+1181+1181+1181+1181+1181+1181+1181+119+785+307+1211+502+1382+784+258,val=0x4070,seg=0,type=lab"%lit;
  "sym	id=2217,name=""@1"",addrsize=absolute,size=3,parent=2220,def=487,ref=406,val=0x4059,seg=0,type=lab"%lit;
  "sym	id=2218,name=""@2"",addrsize=absolute,parent=2220,def=1341,ref=573,val=0x4061,seg=0,type=lab"%lit;
  "sym	id=2219,name=""@0"",addrsize=absolute,size=3,parent=2220,def=1133,val=0x4051,seg=0,type=lab"%lit;
  "sym	id=2220,name=""recv"",addrsize=absolute,scope=1,def=1234,ref=1262,val=0x404B,seg=0,type=lab"%lit;
  "sym	id=2221,name=""checkrecv"",addrsize=absolute,scope=1,def=407,ref=22+889,val=0x4037,seg=0,type=lab"%lit;
  "sym	id=2222,name=""@1"",addrsize=absolute,parent=2223,def=386,ref=110,val=0x402B,seg=0,type=lab"%lit;
  "sym	id=2223,name=""_op_header_hgr"",addrsize=absolute,scope=1,def=689,ref=388,val=0x4000,seg=0,type=lab"%lit;
  "sym	id=2224,name=""op_header"",addrsize=absolute,scope=1,def=1060,ref=909,val=0x215B,seg=6,type=lab"%lit;
  "sym	id=2225,name=""@DONE"",addrsize=absolute,size=1,parent=2228,def=1331,ref=1258,val=0x211B,seg=6,type=lab"%lit;
  "sym	id=2226,name=""ERRMSG"",addrsize=absolute,size=44,scope=1,def=47,ref=946,val=0x211C,seg=6,type=lab"%lit;
  "sym	id=2227,name=""@L"",addrsize=absolute,parent=2228,def=18,ref=265,val=0x2110,seg=6,type=lab"%lit;
  "sym	id=2228,name=""ERRDONE"",addrsize=absolute,scope=1,def=711,ref=469,val=0x210E,seg=6,type=lab"%lit;
  "sym	id=2229,name=""wait_read_header"",addrsize=absolute,scope=1,def=519,ref=1249+515,val=0x214A,seg=6,type=lab"%lit;
  "sym	id=2230,name=""FAILED"",addrsize=absolute,scope=1,def=333,ref=1111,val=0x2102,seg=6,type=lab"%lit;
  "sym	id=2231,name=""CHECKTEST"",addrsize=absolute,scope=1,def=331,ref=1232,val=0x20F2,seg=6,type=lab"%lit;
  "sym	id=2232,name=""@LDONE"",addrsize=absolute,size=1,parent=2239,def=1118,ref=314,val=0x20C2,seg=6,type=lab"%lit;
  "sym	id=2233,name=""@SOCKERR"",addrsize=absolute,size=35,parent=2239,def=165,ref=1078,val=0x20C3,seg=6,type=lab"%lit;
  "sym	id=2234,name=""@L4"",addrsize=absolute,parent=2239,def=864,ref=887,val=0x20B7,seg=6,type=lab"%lit;
  "sym	id=2235,name=""OPENED"",addrsize=absolute,scope=1,def=654,ref=749,val=0x20E8,seg=6,type=lab"%lit;
  "sym	id=2236,name=""@L3"",addrsize=absolute,parent=2239,def=305,ref=473,val=0x2088,seg=6,type=lab"%lit;
  "sym	id=2237,name=""@L2"",addrsize=absolute,parent=2239,def=1134,ref=117,val=0x204B,seg=6,type=lab"%lit;
  "sym	id=2238,name=""@L1"",addrsize=absolute,parent=2239,def=342,ref=249,val=0x2039,seg=6,type=lab"%lit;
  "sym	id=2239,name=""reset_w5100"",addrsize=absolute,scope=1,def=848,ref=1259,val=0x2023,seg=6,type=lab"%lit;
  "sym	id=2240,name=""exit"",addrsize=absolute,scope=1,def=433,ref=89+86+1254,val=0xBAAC,seg=0,type=lab"%lit;
  "sym	id=2241,name=""bootstrap"",addrsize=absolute,scope=1,def=1319,ref=1125,val=0x2010,seg=6,type=lab"%lit;
  "sym	id=2242,name=""STESTABLISHED"",addrsize=zeropage,scope=1,def=1119,ref=636,val=0x17,type=equ"%lit;
  "sym	id=2243,name=""STINIT"",addrsize=zeropage,scope=1,def=1159,ref=8,val=0x13,type=equ"%lit;
  "sym	id=2244,name=""SCRECV"",addrsize=zeropage,scope=1,def=991,ref=158,val=0x40,type=equ"%lit;
  "sym	id=2245,name=""SCSEND"",addrsize=zeropage,scope=1,def=728,val=0x20,type=equ"%lit;
  "sym	id=2246,name=""SCDISCON"",addrsize=zeropage,scope=1,def=405,ref=1355,val=0x8,type=equ"%lit;
  "sym	id=2247,name=""SCCONNECT"",addrsize=zeropage,scope=1,def=251,ref=1077,val=0x4,type=equ"%lit;
  "sym	id=2248,name=""SCOPEN"",addrsize=zeropage,scope=1,def=637,ref=769,val=0x1,type=equ"%lit;
  "sym	id=2249,name=""TXMASK"",addrsize=absolute,scope=1,def=500,val=0x1FFF,type=equ"%lit;
  "sym	id=2250,name=""TXBASE"",addrsize=absolute,scope=1,def=53,val=0x4000,type=equ"%lit;
  "sym	id=2251,name=""RXMASK"",addrsize=absolute,scope=1,def=686,ref=500,val=0x1FFF,type=equ"%lit;
  "sym	id=2252,name=""RXBASE"",addrsize=absolute,scope=1,def=29,ref=977+396+610,val=0x6000,type=equ"%lit;
  "sym	id=2253,name=""S0RXRD"",addrsize=absolute,scope=1,def=605,ref=244+328,val=0x428,type=equ"%lit;
  "sym	id=2254,name=""S0RXRSR"",addrsize=absolute,scope=1,def=755,ref=417+879+538,val=0x426,type=equ"%lit;
  "sym	id=2255,name=""S0TXWR"",addrsize=absolute,scope=1,def=1108,val=0x424,type=equ"%lit;
  "sym	id=2256,name=""S0TXRR"",addrsize=absolute,scope=1,def=495,val=0x422,type=equ"%lit;
  "sym	id=2257,name=""S0FORPORT"",addrsize=absolute,scope=1,def=980,val=0x410,type=equ"%lit;
  "sym	id=2258,name=""S0FORADDR"",addrsize=absolute,scope=1,def=1253,ref=425,val=0x40C,type=equ"%lit;
  "sym	id=2259,name=""S0LOCALPORT"",addrsize=absolute,scope=1,def=896,ref=1100,val=0x404,type=equ"%lit;
  "sym	id=2260,name=""S0SR"",addrsize=absolute,scope=1,def=673,ref=874+337,val=0x403,type=equ"%lit;
  "sym	id=2261,name=""S0CR"",addrsize=absolute,scope=1,def=195,ref=1218+657+475+115+112,val=0x401,type=equ"%lit;
  "sym	id=2262,name=""S0MR"",addrsize=absolute,scope=1,def=48,ref=1104+611,val=0x400,type=equ"%lit;
  "sym	id=2263,name=""RMSR"",addrsize=zeropage,scope=1,def=1375,ref=989,val=0x1A,type=equ"%lit;
  "sym	id=2264,name=""SRCIP"",addrsize=zeropage,scope=1,def=1376,ref=1073,val=0xF,type=equ"%lit;
  "sym	id=2265,name=""MACADDR"",addrsize=zeropage,scope=1,def=316,ref=1328+297,val=0x9,type=equ"%lit;
  "sym	id=2266,name=""RESET_VECTOR"",addrsize=absolute,scope=1,def=561,ref=484+834+64+512,val=0x3F2,type=equ"%lit;
  "sym	id=2267,name=""PRODOS"",addrsize=absolute,scope=1,def=1275,ref=1322,val=0xBF00,type=equ"%lit;
  "sym	id=2268,name=""PRNTAX"",addrsize=absolute,scope=1,def=1334,val=0xF941,type=equ"%lit;
  "sym	id=2269,name=""PRBYTE"",addrsize=absolute,scope=1,def=140,val=0xFDDA,type=equ"%lit;
  "sym	id=2270,name=""COUT"",addrsize=absolute,scope=1,def=391,ref=104+706+220,val=0xFDED,type=equ"%lit;
  "sym	id=2271,name=""HGR0"",addrsize=absolute,scope=1,def=907,ref=1110+1244,val=0xF3F2,type=equ"%lit;
  "sym	id=2272,name=""HGR"",addrsize=absolute,scope=1,def=192,val=0xF3E2,type=equ"%lit;
  "sym	id=2273,name=""DHIRESON"",addrsize=absolute,scope=1,def=620,ref=411,val=0xC05E,type=equ"%lit;
  "sym	id=2274,name=""HIRESON"",addrsize=absolute,scope=1,def=737,ref=1267,val=0xC057,type=equ"%lit;
  "sym	id=2275,name=""PAGE2ON"",addrsize=absolute,scope=1,def=206,ref=33,val=0xC055,type=equ"%lit;
  "sym	id=2276,name=""PAGE2OFF"",addrsize=absolute,scope=1,def=217,ref=1031,val=0xC054,type=equ"%lit;
  "sym	id=2277,name=""FULLSCR"",addrsize=absolute,scope=1,def=841,ref=1059,val=0xC052,type=equ"%lit;
  "sym	id=2278,name=""TEXTOFF"",addrsize=absolute,scope=1,def=422,ref=940+17,val=0xC050,type=equ"%lit;
  "sym	id=2279,name=""TICK"",addrsize=absolute,scope=1,def=1281,ref=325+571+1117+1117+1117+1117+1117+1117+1117+1117+1117+1117+1117+1117+1117+1117+1117+1117+1117+1117+1117+1117+1117+1117+1117+1117+1117+1117+1117+1117+1117+1117+1117+1117+1117+1117+1117+1117+1117+1117+1117+1117+1117+1117+1117+1117+1117+1117+1117+1117+1117+1117+1117+1117+1117+1117+1117+1117+1117+1117+1117+1117+1117+1117+1117+1117+414+414+414+414+414+414+414+414+414+414+414+414+414+414+414+414+414+414+414+414+414+414+414+414+414+414+414+414+414+414+414+414+414+414+414+414+414+414+414+414+414+414+414+414+414+414+414+414+414+414+414+414+414+414+414+414+414+414+414+414+414+414+414+414+771+771+771+771+771+771+771+771+771+771+771+771+771+771+771+771+771+771+771+771+771+771+771+771+771+771+771+771+771+771+771+771+771+771+771+771+771+771+771+771+771+771+771+771+771+771+771+771+771+771+771+771+771+771+771+771+771+771+771+771+771+771+771+771+592+592+592+592+592+592+592+592+592+592+592+592+592+592+592+592+592+592+592+592+592+592+592+592+592+592+592+592+592+592+592+592+592+592+592+592+592+592+592+592+592+592+592+592+592+592+592+592+592+592+592+592+592+592+592+592+592+592+592+592+592+592+592+592+751+751+751+751+751+751+751+751+751+751+751+751+751+751+751+751+751+751+751+751+751+751+751+751+751+751+751+751+751+751+751+751+751+751+751+751+751+751+751+751+751+751+751+751+751+751+751+751+751+751+751+751+751+751+751+751+751+751+751+751+751+751+751+751+336+336+893+893+912+912+347+347+688+688+477+477+880+880+1154+1154+1379+1379+891+891+39+39+878+878+878+878+878+878+878+878+878+878+878+878+878+878+878+878+878+878+878+878+878+878+878+878+878+878+878+878+878+878+878+878+878+878+878+878+878+878+878+878+878+878+878+878+878+878+878+878+878+878+878+878+878+878+878+878+878+878+878+878+878+878+878+878+1261+1261+1261+1261+1261+1261+1261+1261+1261+1261+1261+1261+1261+1261+1261+1261+1261+1261+1261+1261+1261+1261+1261+1261+1261+1261+1261+1261+1261+1261+1261+1261+1261+1261+1261+1261+1261+1261+1261+1261+1261+1261+1261+1261+1261+1261+1261+1261+1261+1261+1261+1261+1261+1261+1261+1261+1261+1261+1261+1261+1261+1261+1261+1261+1082+1082+1082+1082+1082+1082+1082+1082+1082+1082+1082+1082+1082+1082+1082+1082+1082+1082+1082+1082+1082+1082+1082+1082+1082+1082+1082+1082+1082+1082+1082+1082+1082+1082+1082+1082+1082+1082+1082+1082+1082+1082+1082+1082+1082+1082+1082+1082+1082+1082+1082+1082+1082+1082+1082+1082+1082+1082+1082+1082+1082+1082+1082+1082+0+0+0+0+0+0+0+0+0+0+0+0+0+0+0+0+0+0+0+0+0+0+0+0+0+0+0+0+0+0+0+0+0+0+0+0+0+0+0+0+0+0+0+0+0+0+0+0+0+0+0+0+0+0+0+0+0+0+0+0+0+0+0+0+28+28+28+28+28+28+28+28+28+28+28+28+28+28+28+28+28+28+28+28+28+28+28+28+28+28+28+28+28+28+28+28+28+28+28+28+28+28+28+28+28+28+28+28+28+28+28+28+28+28+28+28+28+28+28+28+28+28+28+28+28+28+28+28+875+875+875+875+875+875+875+875+875+875+875+875+875+875+875+875+875+875+875+875+875+875+875+875+875+875+875+875+875+875+875+875+875+875+875+875+875+875+875+875+875+875+875+875+875+875+875+875+875+875+875+875+875+875+875+875+875+875+875+875+875+875+875+875+1296+1296+1296+1296+1296+1296+1296+1296+1296+1296+1296+1296+1296+1296+1296+1296+1296+1296+1296+1296+1296+1296+1296+1296+1296+1296+1296+1296+1296+1296+1296+1296+1296+1296+1296+1296+1296+1296+1296+1296+1296+1296+1296+1296+1296+1296+1296+1296+1296+1296+1296+1296+1296+1296+1296+1296+1296+1296+1296+1296+1296+1296+1296+1296+607+607+607+607+607+607+607+607+607+607+607+607+607+607+607+607+607+607+607+607+607+607+607+607+607+607+607+607+607+607+607+607+607+607+607+607+607+607+607+607+607+607+607+607+607+607+607+607+607+607+607+607+607+607+607+607+607+607+607+607+607+607+607+607+568+568+568+568+568+568+568+568+568+568+568+568+568+568+568+568+568+568+568+568+568+568+568+568+568+568+568+568+568+568+568+568+568+568+568+568+568+568+568+568+568+568+568+568+568+568+568+568+568+568+568+568+568+568+568+568+568+568+568+568+568+568+568+568+1337+1337+1337+1337+1337+1337+1337+1337+1337+1337+1337+1337+1337+1337+1337+1337+1337+1337+1337+1337+1337+1337+1337+1337+1337+1337+1337+1337+1337+1337+1337+1337+1337+1337+1337+1337+1337+1337+1337+1337+1337+1337+1337+1337+1337+1337+1337+1337+1337+1337+1337+1337+1337+1337+1337+1337+1337+1337+1337+1337+1337+1337+1337+1337+468+468+468+468+468+468+468+468+468+468+468+468+468+468+468+468+468+468+468+468+468+468+468+468+468+468+468+468+468+468+468+468+468+468+468+468+468+468+468+468+468+468+468+468+468+468+468+468+468+468+468+468+468+468+468+468+468+468+468+468+468+468+468+468+948+948+948+948+948+948+948+948+948+948+948+948+948+948+948+948+948+948+948+948+948+948+948+948+948+948+948+948+948+948+948+948+948+948+948+948+948+948+948+948+948+948+948+948+948+948+948+948+948+948+948+948+948+948+948+948+948+948+948+948+948+948+948+948+219+219+219+219+219+219+219+219+219+219+219+219+219+219+219+219+219+219+219+219+219+219+219+219+219+219+219+219+219+219+219+219+219+219+219+219+219+219+219+219+219+219+219+219+219+219+219+219+219+219+219+219+219+219+219+219+219+219+219+219+219+219+219+219+1378+1378+1378+1378+1378+1378+1378+1378+1378+1378+1378+1378+1378+1378+1378+1378+1378+1378+1378+1378+1378+1378+1378+1378+1378+1378+1378+1378+1378+1378+1378+1378+1378+1378+1378+1378+1378+1378+1378+1378+1378+1378+1378+1378+1378+1378+1378+1378+1378+1378+1378+1378+1378+1378+1378+1378+1378+1378+1378+1378+1378+1378+1378+1378+100+100+100+100+100+100+100+100+100+100+100+100+100+100+100+100+100+100+100+100+100+100+100+100+100+100+100+100+100+100+100+100+100+100+100+100+100+100+100+100+100+100+100+100+100+100+100+100+100+100+100+100+100+100+100+100+100+100+100+100+100+100+100+100+777+777+777+777+777+777+777+777+777+777+777+777+777+777+777+777+777+777+777+777+777+777+777+777+777+777+777+777+777+777+777+777+777+777+777+777+777+777+777+777+777+777+777+777+777+777+777+777+777+777+777+777+777+777+777+777+777+777+777+777+777+777+777+777+1089+1089+1089+1089+1089+1089+1089+1089+1089+1089+1089+1089+1089+1089+1089+1089+1089+1089+1089+1089+1089+1089+1089+1089+1089+1089+1089+1089+1089+1089+1089+1089+1089+1089+1089+1089+1089+1089+1089+1089+1089+1089+1089+1089+1089+1089+1089+1089+1089+1089+1089+1089+1089+1089+1089+1089+1089+1089+1089+1089+1089+1089+1089+1089+1102+1102+1102+1102+1102+1102+1102+1102+1102+1102+1102+1102+1102+1102+1102+1102+1102+1102+1102+1102+1102+1102+1102+1102+1102+1102+1102+1102+1102+1102+1102+1102+1102+1102+1102+1102+1102+1102+1102+1102+1102+1102+1102+1102+1102+1102+1102+1102+1102+1102+1102+1102+1102+1102+1102+1102+1102+1102+1102+1102+1102+1102+1102+1102+1369+1369+1369+1369+1369+1369+1369+1369+1369+1369+1369+1369+1369+1369+1369+1369+1369+1369+1369+1369+1369+1369+1369+1369+1369+1369+1369+1369+1369+1369+1369+1369+1369+1369+1369+1369+1369+1369+1369+1369+1369+1369+1369+1369+1369+1369+1369+1369+1369+1369+1369+1369+1369+1369+1369+1369+1369+1369+1369+1369+1369+1369+1369+1369+957+957+957+957+957+957+957+957+957+957+957+957+957+957+957+957+957+957+957+957+957+957+957+957+957+957+957+957+957+957+957+957+957+957+957+957+957+957+957+957+957+957+957+957+957+957+957+957+957+957+957+957+957+957+957+957+957+957+957+957+957+957+957+957+1381+1381+1381+1381+1381+1381+1381+1381+1381+1381+1381+1381+1381+1381+1381+1381+1381+1381+1381+1381+1381+1381+1381+1381+1381+1381+1381+1381+1381+1381+1381+1381+1381+1381+1381+1381+1381+1381+1381+1381+1381+1381+1381+1381+1381+1381+1381+1381+1381+1381+1381+1381+1381+1381+1381+1381+1381+1381+1381+1381+1381+1381+1381+1381+1085+1085+1085+1085+1085+1085+1085+1085+1085+1085+1085+1085+1085+1085+1085+1085+1085+1085+1085+1085+1085+1085+1085+1085+1085+1085+1085+1085+1085+1085+1085+1085+1085+1085+1085+1085+1085+1085+1085+1085+1085+1085+1085+1085+1085+1085+1085+1085+1085+1085+1085+1085+1085+1085+1085+1085+1085+1085+1085+1085+1085+1085+1085+1085+639+639+639+639+639+639+639+639+639+639+639+639+639+639+639+639+639+639+639+639+639+639+639+639+639+639+639+639+639+639+639+639+639+639+639+639+639+639+639+639+639+639+639+639+639+639+639+639+639+639+639+639+639+639+639+639+639+639+639+639+639+639+639+639+106+106+106+106+106+106+106+106+106+106+106+106+106+106+106+106+106+106+106+106+106+106+106+106+106+106+106+106+106+106+106+106+106+106+106+106+106+106+106+106+106+106+106+106+106+106+106+106+106+106+106+106+106+106+106+106+106+106+106+106+106+106+106+106+1231+1231+1231+1231+1231+1231+1231+1231+1231+1231+1231+1231+1231+1231+1231+1231+1231+1231+1231+1231+1231+1231+1231+1231+1231+1231+1231+1231+1231+1231+1231+1231+1231+1231+1231+1231+1231+1231+1231+1231+1231+1231+1231+1231+1231+1231+1231+1231+1231+1231+1231+1231+1231+1231+1231+1231+1231+1231+1231+1231+1231+1231+1231+1231+1181+1181+1181+1181+1181+1181+1181+1181+1181+1181+1181+1181+1181+1181+1181+1181+1181+1181+1181+1181+1181+1181+1181+1181+1181+1181+1181+1181+1181+1181+1181+1181+1181+1181+1181+1181+1181+1181+1181+1181+1181+1181+1181+1181+1181+1181+1181+1181+1181+1181+1181+1181+1181+1181+1181+1181+1181+1181+1181+1181+1181+1181+1181+1181+557+557+263+263+1025+1025+1065+1065+1072+1072+119+119+794+794+1101+1101+96+96+576+576+1106+1106+883+883+1115+1115+508+508+785+785+307+307+1211+1211+502+502+1382+1382+784+784+258+258+822+544,val=0xC030,type=equ"%lit;
  "sym	id=2280,name=""KBDSTRB"",addrsize=absolute,scope=1,def=334,ref=1157+494+273+795,val=0xC010,type=equ"%lit;
  "sym	id=2281,name=""COL80ON"",addrsize=absolute,scope=1,def=1268,ref=1086,val=0xC00D,type=equ"%lit;
  "sym	id=2282,name=""STORE80ON"",addrsize=absolute,scope=1,def=575,ref=914,val=0xC001,type=equ"%lit;
  "sym	id=2283,name=""KBD"",addrsize=absolute,scope=1,def=902,ref=1133+487+1336,val=0xC000,type=equ"%lit;
  "sym	id=2284,name=""HGRZP"",addrsize=zeropage,scope=1,def=818,ref=1263+505,val=0xE6,type=equ"%lit;
  "sym	id=2285,name=""ptr"",addrsize=zeropage,scope=1,def=1340,ref=895+882,val=0x6,type=equ"%lit;
  "sym	id=2286,name=""dummy"",addrsize=absolute,scope=1,def=1149,ref=446+458+1219+1117+1117+1117+414+414+414+771+771+771+592+592+592+751+751+751+878+878+878+1261+1261+1261+1082+1082+1082+0+0+0+28+28+28+875+875+875+1296+1296+1296+607+607+607+568+568+568+1337+1337+1337+468+468+468+948+948+948+219+219+219+1378+1378+1378+100+100+100+777+777+777+1089+1089+1089+1102+1102+1102+1369+1369+1369+957+957+957+1381+1381+1381+1085+1085+1085+639+639+639+106+106+106+1231+1231+1231+1181+1181+1181+307+502+784,val=0xFFFF,type=equ"%lit;
  "sym	id=2287,name=""zpdummy"",addrsize=zeropage,scope=1,def=332,ref=1117+1117+1117+1117+1117+1117+1117+1117+1117+1117+1117+1117+1117+1117+1117+1117+1117+1117+1117+1117+1117+1117+1117+414+414+414+414+414+414+414+414+414+414+414+414+414+414+414+414+414+414+414+414+414+414+414+771+771+771+771+771+771+771+771+771+771+771+771+771+771+771+771+771+771+771+771+771+771+771+592+592+592+592+592+592+592+592+592+592+592+592+592+592+592+592+592+592+592+592+592+592+592+751+751+751+751+751+751+751+751+751+751+751+751+751+751+751+751+751+751+751+751+751+751+751+336+336+893+912+688+1379+891+39+878+878+878+878+878+878+878+878+878+878+878+878+878+878+878+878+878+878+878+878+878+878+878+1261+1261+1261+1261+1261+1261+1261+1261+1261+1261+1261+1261+1261+1261+1261+1261+1261+1261+1261+1261+1261+1261+1261+1082+1082+1082+1082+1082+1082+1082+1082+1082+1082+1082+1082+1082+1082+1082+1082+1082+1082+1082+1082+1082+1082+1082+0+0+0+0+0+0+0+0+0+0+0+0+0+0+0+0+0+0+0+0+0+0+0+28+28+28+28+28+28+28+28+28+28+28+28+28+28+28+28+28+28+28+28+28+28+28+875+875+875+875+875+875+875+875+875+875+875+875+875+875+875+875+875+875+875+875+875+875+875+1296+1296+1296+1296+1296+1296+1296+1296+1296+1296+1296+1296+1296+1296+1296+1296+1296+1296+1296+1296+1296+1296+1296+607+607+607+607+607+607+607+607+607+607+607+607+607+607+607+607+607+607+607+607+607+607+607+568+568+568+568+568+568+568+568+568+568+568+568+568+568+568+568+568+568+568+568+568+568+568+1337+1337+1337+1337+1337+1337+1337+1337+1337+1337+1337+1337+1337+1337+1337+1337+1337+1337+1337+1337+1337+1337+1337+468+468+468+468+468+468+468+468+468+468+468+468+468+468+468+468+468+468+468+468+468+468+468+948+948+948+948+948+948+948+948+948+948+948+948+948+948+948+948+948+948+948+948+948+948+948+219+219+219+219+219+219+219+219+219+219+219+219+219+219+219+219+219+219+219+219+219+219+219+1378+1378+1378+1378+1378+1378+1378+1378+1378+1378+1378+1378+1378+1378+1378+1378+1378+1378+1378+1378+1378+1378+1378+100+100+100+100+100+100+100+100+100+100+100+100+100+100+100+100+100+100+100+100+100+100+100+777+777+777+777+777+777+777+777+777+777+777+777+777+777+777+777+777+777+777+777+777+777+777+1089+1089+1089+1089+1089+1089+1089+1089+1089+1089+1089+1089+1089+1089+1089+1089+1089+1089+1089+1089+1089+1089+1089+1102+1102+1102+1102+1102+1102+1102+1102+1102+1102+1102+1102+1102+1102+1102+1102+1102+1102+1102+1102+1102+1102+1102+1369+1369+1369+1369+1369+1369+1369+1369+1369+1369+1369+1369+1369+1369+1369+1369+1369+1369+1369+1369+1369+1369+1369+957+957+957+957+957+957+957+957+957+957+957+957+957+957+957+957+957+957+957+957+957+957+957+1381+1381+1381+1381+1381+1381+1381+1381+1381+1381+1381+1381+1381+1381+1381+1381+1381+1381+1381+1381+1381+1381+1381+1085+1085+1085+1085+1085+1085+1085+1085+1085+1085+1085+1085+1085+1085+1085+1085+1085+1085+1085+1085+1085+1085+1085+639+639+639+639+639+639+639+639+639+639+639+639+639+639+639+639+639+639+639+639+639+639+639+106+106+106+106+106+106+106+106+106+106+106+106+106+106+106+106+106+106+106+106+106+106+106+1231+1231+1231+1231+1231+1231+1231+1231+1231+1231+1231+1231+1231+1231+1231+1231+1231+1231+1231+1231+1231+1231+1231+1181+1181+1181+1181+1181+1181+1181+1181+1181+1181+1181+1181+1181+1181+1181+1181+1181+1181+1181+1181+1181+1181+1181+557+1025+794+1101+96+576+883+785+785+1211+1211+1382+1382+258+258,val=0x8,type=equ"%lit;
  "sym	id=2288,name=""headerlen"",addrsize=zeropage,scope=1,def=402,ref=357,val=0x7,type=equ"%lit;
  "sym	id=2289,name=""WDATA"",addrsize=absolute,scope=1,def=1063,ref=579+559+354+464+753+1189+524+748+25+1187+101+747+238+73+632+764+1045+1163+461+1121+582+1320+489+587+427+1117+1117+1117+1117+1117+1117+1117+1117+1117+1117+1117+1117+1117+1117+1117+1117+1117+1117+1117+1117+1117+1117+1117+1117+1117+1117+1117+1117+1117+1117+1117+1117+1117+1117+1117+1117+1117+1117+1117+1117+1117+1117+1117+1117+1117+1117+1117+1117+1117+1117+1117+1117+1117+1117+1117+1117+1117+1117+1117+1117+1117+1117+1117+1117+1117+1117+1117+1117+1117+1117+1117+1117+1117+1117+1117+1117+1117+1117+1117+1117+1117+1117+1117+1117+1117+1117+1117+1117+1117+1117+1117+1117+1117+1117+1117+1117+1117+1117+1117+1117+1117+1117+1117+1117+1117+1117+1117+1117+1117+1117+1117+1117+1117+1117+1117+1117+1117+1117+1117+1117+1117+1117+1117+1117+1117+1117+1117+1117+1117+1117+1117+1117+1117+1117+1117+1117+1117+1117+1117+1117+1117+1117+1117+1117+1117+1117+1117+1117+1117+1117+1117+1117+1117+1117+1117+414+414+414+414+414+414+414+414+414+414+414+414+414+414+414+414+414+414+414+414+414+414+414+414+414+414+414+414+414+414+414+414+414+414+414+414+414+414+414+414+414+414+414+414+414+414+414+414+414+414+414+414+414+414+414+414+414+414+414+414+414+414+414+414+414+414+414+414+414+414+414+414+414+414+414+414+414+414+414+414+414+414+414+414+414+414+414+414+414+414+414+414+414+414+414+414+414+414+414+414+414+414+414+414+414+414+414+414+414+414+414+414+414+414+414+414+414+414+414+414+414+414+414+414+414+414+414+414+414+414+414+414+414+414+414+414+414+414+414+414+414+414+414+414+414+414+414+414+414+414+414+414+414+414+414+771+771+771+771+771+771+771+771+771+771+771+771+771+771+771+771+771+771+771+771+771+771+771+771+771+771+771+771+771+771+771+771+771+771+771+771+771+771+771+771+771+771+771+771+771+771+771+771+771+771+771+771+771+771+771+771+771+771+771+771+771+771+771+771+771+771+771+771+771+771+771+771+771+771+771+771+771+771+771+771+771+771+771+771+771+771+771+771+771+771+771+771+771+771+771+771+771+771+771+771+771+771+771+771+771+771+771+771+771+771+771+771+771+771+771+771+771+771+771+771+771+771+771+771+771+771+771+771+771+771+771+771+771+771+771+771+771+771+771+771+771+771+771+771+771+771+771+771+771+771+771+771+771+771+771+592+592+592+592+592+592+592+592+592+592+592+592+592+592+592+592+592+592+592+592+592+592+592+592+592+592+592+592+592+592+592+592+592+592+592+592+592+592+592+592+592+592+592+592+592+592+592+592+592+592+592+592+592+592+592+592+592+592+592+592+592+592+592+592+592+592+592+592+592+592+592+592+592+592+592+592+592+592+592+592+592+592+592+592+592+592+592+592+592+592+592+592+592+592+592+592+592+592+592+592+592+592+592+592+592+592+592+592+592+592+592+592+592+592+592+592+592+592+592+592+592+592+592+592+592+592+592+592+592+592+592+592+592+592+592+592+592+592+592+592+592+592+592+592+592+592+592+592+592+592+592+592+592+592+592+751+751+751+751+751+751+751+751+751+751+751+751+751+751+751+751+751+751+751+751+751+751+751+751+751+751+751+751+751+751+751+751+751+751+751+751+751+751+751+751+751+751+751+751+751+751+751+751+751+751+751+751+751+751+751+751+751+751+751+751+751+751+751+751+751+751+751+751+751+751+751+751+751+751+751+751+751+751+751+751+751+751+751+751+751+751+751+751+751+751+751+751+751+751+751+751+751+751+751+751+751+751+751+751+751+751+751+751+751+751+751+751+751+751+751+751+751+751+751+751+751+751+751+751+751+751+751+751+751+751+751+751+751+751+751+751+751+751+751+751+751+751+751+751+751+751+751+751+751+751+751+751+751+751+751+336+336+336+336+336+336+336+893+893+893+893+893+893+893+912+347+688+688+477+477+880+880+880+1154+1154+1154+1154+1154+1154+1154+1379+1379+891+891+891+39+39+39+878+878+878+878+878+878+878+878+878+878+878+878+878+878+878+878+878+878+878+878+878+878+878+878+878+878+878+878+878+878+878+878+878+878+878+878+878+878+878+878+878+878+878+878+878+878+878+878+878+878+878+878+878+878+878+878+878+878+878+878+878+878+878+878+878+878+878+878+878+878+878+878+878+878+878+878+878+878+878+878+878+878+878+878+878+878+878+878+878+878+878+878+878+878+878+878+878+878+878+878+878+878+878+878+878+878+878+878+878+878+878+878+878+878+878+878+878+878+878+878+878+878+878+878+878+878+878+878+878+878+878+878+878+878+878+878+878+878+878+878+878+878+878+878+878+878+878+878+878+878+878+878+878+878+878+1261+1261+1261+1261+1261+1261+1261+1261+1261+1261+1261+1261+1261+1261+1261+1261+1261+1261+1261+1261+1261+1261+1261+1261+1261+1261+1261+1261+1261+1261+1261+1261+1261+1261+1261+1261+1261+1261+1261+1261+1261+1261+1261+1261+1261+1261+1261+1261+1261+1261+1261+1261+1261+1261+1261+1261+1261+1261+1261+1261+1261+1261+1261+1261+1261+1261+1261+1261+1261+1261+1261+1261+1261+1261+1261+1261+1261+1261+1261+1261+1261+1261+1261+1261+1261+1261+1261+1261+1261+1261+1261+1261+1261+1261+1261+1261+1261+1261+1261+1261+1261+1261+1261+1261+1261+1261+1261+1261+1261+1261+1261+1261+1261+1261+1261+1261+1261+1261+1261+1261+1261+1261+1261+1261+1261+1261+1261+1261+1261+1261+1261+1261+1261+1261+1261+1261+1261+1261+1261+1261+1261+1261+1261+1261+1261+1261+1261+1261+1261+1261+1261+1261+1261+1261+1261+1082+1082+1082+1082+1082+1082+1082+1082+1082+1082+1082+1082+1082+1082+1082+1082+1082+1082+1082+1082+1082+1082+1082+1082+1082+1082+1082+1082+1082+1082+1082+1082+1082+1082+1082+1082+1082+1082+1082+1082+1082+1082+1082+1082+1082+1082+1082+1082+1082+1082+1082+1082+1082+1082+1082+1082+1082+1082+1082+1082+1082+1082+1082+1082+1082+1082+1082+1082+1082+1082+1082+1082+1082+1082+1082+1082+1082+1082+1082+1082+1082+1082+1082+1082+1082+1082+1082+1082+1082+1082+1082+1082+1082+1082+1082+1082+1082+1082+1082+1082+1082+1082+1082+1082+1082+1082+1082+1082+1082+1082+1082+1082+1082+1082+1082+1082+1082+1082+1082+1082+1082+1082+1082+1082+1082+1082+1082+1082+1082+1082+1082+1082+1082+1082+1082+1082+1082+1082+1082+1082+1082+1082+1082+1082+1082+1082+1082+1082+1082+1082+1082+1082+1082+1082+1082+0+0+0+0+0+0+0+0+0+0+0+0+0+0+0+0+0+0+0+0+0+0+0+0+0+0+0+0+0+0+0+0+0+0+0+0+0+0+0+0+0+0+0+0+0+0+0+0+0+0+0+0+0+0+0+0+0+0+0+0+0+0+0+0+0+0+0+0+0+0+0+0+0+0+0+0+0+0+0+0+0+0+0+0+0+0+0+0+0+0+0+0+0+0+0+0+0+0+0+0+0+0+0+0+0+0+0+0+0+0+0+0+0+0+0+0+0+0+0+0+0+0+0+0+0+0+0+0+0+0+0+0+0+0+0+0+0+0+0+0+0+0+0+0+0+0+0+0+0+0+0+0+0+0+0+28+28+28+28+28+28+28+28+28+28+28+28+28+28+28+28+28+28+28+28+28+28+28+28+28+28+28+28+28+28+28+28+28+28+28+28+28+28+28+28+28+28+28+28+28+28+28+28+28+28+28+28+28+28+28+28+28+28+28+28+28+28+28+28+28+28+28+28+28+28+28+28+28+28+28+28+28+28+28+28+28+28+28+28+28+28+28+28+28+28+28+28+28+28+28+28+28+28+28+28+28+28+28+28+28+28+28+28+28+28+28+28+28+28+28+28+28+28+28+28+28+28+28+28+28+28+28+28+28+28+28+28+28+28+28+28+28+28+28+28+28+28+28+28+28+28+28+28+28+28+28+28+28+28+28+875+875+875+875+875+875+875+875+875+875+875+875+875+875+875+875+875+875+875+875+875+875+875+875+875+875+875+875+875+875+875+875+875+875+875+875+875+875+875+875+875+875+875+875+875+875+875+875+875+875+875+875+875+875+875+875+875+875+875+875+875+875+875+875+875+875+875+875+875+875+875+875+875+875+875+875+875+875+875+875+875+875+875+875+875+875+875+875+875+875+875+875+875+875+875+875+875+875+875+875+875+875+875+875+875+875+875+875+875+875+875+875+875+875+875+875+875+875+875+875+875+875+875+875+875+875+875+875+875+875+875+875+875+875+875+875+875+875+875+875+875+875+875+875+875+875+875+875+875+875+875+875+875+875+875+1296+1296+1296+1296+1296+1296+1296+1296+1296+1296+1296+1296+1296+1296+1296+1296+1296+1296+1296+1296+1296+1296+1296+1296+1296+1296+1296+1296+1296+1296+1296+1296+1296+1296+1296+1296+1296+1296+1296+1296+1296+1296+1296+1296+1296+1296+1296+1296+1296+1296+1296+1296+1296+1296+1296+1296+1296+1296+1296+1296+1296+1296+1296+1296+1296+1296+1296+1296+1296+1296+1296+1296+1296+1296+1296+1296+1296+1296+1296+1296+1296+1296+1296+1296+1296+1296+1296+1296+1296+1296+1296+1296+1296+1296+1296+1296+1296+1296+1296+1296+1296+1296+1296+1296+1296+1296+1296+1296+1296+1296+1296+1296+1296+1296+1296+1296+1296+1296+1296+1296+1296+1296+1296+1296+1296+1296+1296+1296+1296+1296+1296+1296+1296+1296+1296+1296+1296+1296+1296+1296+1296+1296+1296+1296+1296+1296+1296+1296+1296+1296+1296+1296+1296+1296+1296+607+607+607+607+607+607+607+607+607+607+607+607+607+607+607+607+607+607+607+607+607+607+607+607+607+607+607+607+607+607+607+607+607+607+607+607+607+607+607+607+607+607+607+607+607+607+607+607+607+607+607+607+607+607+607+607+607+607+607+607+607+607+607+607+607+607+607+607+607+607+607+607+607+607+607+607+607+607+607+607+607+607+607+607+607+607+607+607+607+607+607+607+607+607+607+607+607+607+607+607+607+607+607+607+607+607+607+607+607+607+607+607+607+607+607+607+607+607+607+607+607+607+607+607+607+607+607+607+607+607+607+607+607+607+607+607+607+607+607+607+607+607+607+607+607+607+607+607+607+607+607+607+607+607+607+568+568+568+568+568+568+568+568+568+568+568+568+568+568+568+568+568+568+568+568+568+568+568+568+568+568+568+568+568+568+568+568+568+568+568+568+568+568+568+568+568+568+568+568+568+568+568+568+568+568+568+568+568+568+568+568+568+568+568+568+568+568+568+568+568+568+568+568+568+568+568+568+568+568+568+568+568+568+568+568+568+568+568+568+568+568+568+568+568+568+568+568+568+568+568+568+568+568+568+568+568+568+568+568+568+568+568+568+568+568+568+568+568+568+568+568+568+568+568+568+568+568+568+568+568+568+568+568+568+568+568+568+568+568+568+568+568+568+568+568+568+568+568+568+568+568+568+568+568+568+568+568+568+568+568+1337+1337+1337+1337+1337+1337+1337+1337+1337+1337+1337+1337+1337+1337+1337+1337+1337+1337+1337+1337+1337+1337+1337+1337+1337+1337+1337+1337+1337+1337+1337+1337+1337+1337+1337+1337+1337+1337+1337+1337+1337+1337+1337+1337+1337+1337+1337+1337+1337+1337+1337+1337+1337+1337+1337+1337+1337+1337+1337+1337+1337+1337+1337+1337+1337+1337+1337+1337+1337+1337+1337+1337+1337+1337+1337+1337+1337+1337+1337+1337+1337+1337+1337+1337+1337+1337+1337+1337+1337+1337+1337+1337+1337+1337+1337+1337+1337+1337+1337+1337+1337+1337+1337+1337+1337+1337+1337+1337+1337+1337+1337+1337+1337+1337+1337+1337+1337+1337+1337+1337+1337+1337+1337+1337+1337+1337+1337+1337+1337+1337+1337+1337+1337+1337+1337+1337+1337+1337+1337+1337+1337+1337+1337+1337+1337+1337+1337+1337+1337+1337+1337+1337+1337+1337+1337+468+468+468+468+468+468+468+468+468+468+468+468+468+468+468+468+468+468+468+468+468+468+468+468+468+468+468+468+468+468+468+468+468+468+468+468+468+468+468+468+468+468+468+468+468+468+468+468+468+468+468+468+468+468+468+468+468+468+468+468+468+468+468+468+468+468+468+468+468+468+468+468+468+468+468+468+468+468+468+468+468+468+468+468+468+468+468+468+468+468+468+468+468+468+468+468+468+468+468+468+468+468+468+468+468+468+468+468+468+468+468+468+468+468+468+468+468+468+468+468+468+468+468+468+468+468+468+468+468+468+468+468+468+468+468+468+468+468+468+468+468+468+468+468+468+468+468+468+468+468+468+468+468+468+468+948+948+948+948+948+948+948+948+948+948+948+948+948+948+948+948+948+948+948+948+948+948+948+948+948+948+948+948+948+948+948+948+948+948+948+948+948+948+948+948+948+948+948+948+948+948+948+948+948+948+948+948+948+948+948+948+948+948+948+948+948+948+948+948+948+948+948+948+948+948+948+948+948+948+948+948+948+948+948+948+948+948+948+948+948+948+948+948+948+948+948+948+948+948+948+948+948+948+948+948+948+948+948+948+948+948+948+948+948+948+948+948+948+948+948+948+948+948+948+948+948+948+948+948+948+948+948+948+948+948+948+948+948+948+948+948+948+948+948+948+948+948+948+948+948+948+948+948+948+948+948+948+948+948+948+219+219+219+219+219+219+219+219+219+219+219+219+219+219+219+219+219+219+219+219+219+219+219+219+219+219+219+219+219+219+219+219+219+219+219+219+219+219+219+219+219+219+219+219+219+219+219+219+219+219+219+219+219+219+219+219+219+219+219+219+219+219+219+219+219+219+219+219+219+219+219+219+219+219+219+219+219+219+219+219+219+219+219+219+219+219+219+219+219+219+219+219+219+219+219+219+219+219+219+219+219+219+219+219+219+219+219+219+219+219+219+219+219+219+219+219+219+219+219+219+219+219+219+219+219+219+219+219+219+219+219+219+219+219+219+219+219+219+219+219+219+219+219+219+219+219+219+219+219+219+219+219+219+219+219+1378+1378+1378+1378+1378+1378+1378+1378+1378+1378+1378+1378+1378+1378+1378+1378+1378+1378+1378+1378+1378+1378+1378+1378+1378+1378+1378+1378+1378+1378+1378+1378+1378+1378+1378+1378+1378+1378+1378+1378+1378+1378+1378+1378+1378+1378+1378+1378+1378+1378+1378+1378+1378+1378+1378+1378+1378+1378+1378+1378+1378+1378+1378+1378+1378+1378+1378+1378+1378+1378+1378+1378+1378+1378+1378+1378+1378+1378+1378+1378+1378+1378+1378+1378+1378+1378+1378+1378+1378+1378+1378+1378+1378+1378+1378+1378+1378+1378+1378+1378+1378+1378+1378+1378+1378+1378+1378+1378+1378+1378+1378+1378+1378+1378+1378+1378+1378+1378+1378+1378+1378+1378+1378+1378+1378+1378+1378+1378+1378+1378+1378+1378+1378+1378+1378+1378+1378+1378+1378+1378+1378+1378+1378+1378+1378+1378+1378+1378+1378+1378+1378+1378+1378+1378+1378+100+100+100+100+100+100+100+100+100+100+100+100+100+100+100+100+100+100+100+100+100+100+100+100+100+100+100+100+100+100+100+100+100+100+100+100+100+100+100+100+100+100+100+100+100+100+100+100+100+100+100+100+100+100+100+100+100+100+100+100+100+100+100+100+100+100+100+100+100+100+100+100+100+100+100+100+100+100+100+100+100+100+100+100+100+100+100+100+100+100+100+100+100+100+100+100+100+100+100+100+100+100+100+100+100+100+100+100+100+100+100+100+100+100+100+100+100+100+100+100+100+100+100+100+100+100+100+100+100+100+100+100+100+100+100+100+100+100+100+100+100+100+100+100+100+100+100+100+100+100+100+100+100+100+100+777+777+777+777+777+777+777+777+777+777+777+777+777+777+777+777+777+777+777+777+777+777+777+777+777+777+777+777+777+777+777+777+777+777+777+777+777+777+777+777+777+777+777+777+777+777+777+777+777+777+777+777+777+777+777+777+777+777+777+777+777+777+777+777+777+777+777+777+777+777+777+777+777+777+777+777+777+777+777+777+777+777+777+777+777+777+777+777+777+777+777+777+777+777+777+777+777+777+777+777+777+777+777+777+777+777+777+777+777+777+777+777+777+777+777+777+777+777+777+777+777+777+777+777+777+777+777+777+777+777+777+777+777+777+777+777+777+777+777+777+777+777+777+777+777+777+777+777+777+777+777+777+777+777+777+1089+1089+1089+1089+1089+1089+1089+1089+1089+1089+1089+1089+1089+1089+1089+1089+1089+1089+1089+1089+1089+1089+1089+1089+1089+1089+1089+1089+1089+1089+1089+1089+1089+1089+1089+1089+1089+1089+1089+1089+1089+1089+1089+1089+1089+1089+1089+1089+1089+1089+1089+1089+1089+1089+1089+1089+1089+1089+1089+1089+1089+1089+1089+1089+1089+1089+1089+1089+1089+1089+1089+1089+1089+1089+1089+1089+1089+1089+1089+1089+1089+1089+1089+1089+1089+1089+1089+1089+1089+1089+1089+1089+1089+1089+1089+1089+1089+1089+1089+1089+1089+1089+1089+1089+1089+1089+1089+1089+1089+1089+1089+1089+1089+1089+1089+1089+1089+1089+1089+1089+1089+1089+1089+1089+1089+1089+1089+1089+1089+1089+1089+1089+1089+1089+1089+1089+1089+1089+1089+1089+1089+1089+1089+1089+1089+1089+1089+1089+1089+1089+1089+1089+1089+1089+1089+1102+1102+1102+1102+1102+1102+1102+1102+1102+1102+1102+1102+1102+1102+1102+1102+1102+1102+1102+1102+1102+1102+1102+1102+1102+1102+1102+1102+1102+1102+1102+1102+1102+1102+1102+1102+1102+1102+1102+1102+1102+1102+1102+1102+1102+1102+1102+1102+1102+1102+1102+1102+1102+1102+1102+1102+1102+1102+1102+1102+1102+1102+1102+1102+1102+1102+1102+1102+1102+1102+1102+1102+1102+1102+1102+1102+1102+1102+1102+1102+1102+1102+1102+1102+1102+1102+1102+1102+1102+1102+1102+1102+1102+1102+1102+1102+1102+1102+1102+1102+1102+1102+1102+1102+1102+1102+1102+1102+1102+1102+1102+1102+1102+1102+1102+1102+1102+1102+1102+1102+1102+1102+1102+1102+1102+1102+1102+1102+1102+1102+1102+1102+1102+1102+1102+1102+1102+1102+1102+1102+1102+1102+1102+1102+1102+1102+1102+1102+1102+1102+1102+1102+1102+1102+1102+1369+1369+1369+1369+1369+1369+1369+1369+1369+1369+1369+1369+1369+1369+1369+1369+1369+1369+1369+1369+1369+1369+1369+1369+1369+1369+1369+1369+1369+1369+1369+1369+1369+1369+1369+1369+1369+1369+1369+1369+1369+1369+1369+1369+1369+1369+1369+1369+1369+1369+1369+1369+1369+1369+1369+1369+1369+1369+1369+1369+1369+1369+1369+1369+1369+1369+1369+1369+1369+1369+1369+1369+1369+1369+1369+1369+1369+1369+1369+1369+1369+1369+1369+1369+1369+1369+1369+1369+1369+1369+1369+1369+1369+1369+1369+1369+1369+1369+1369+1369+1369+1369+1369+1369+1369+1369+1369+1369+1369+1369+1369+1369+1369+1369+1369+1369+1369+1369+1369+1369+1369+1369+1369+1369+1369+1369+1369+1369+1369+1369+1369+1369+1369+1369+1369+1369+1369+1369+1369+1369+1369+1369+1369+1369+1369+1369+1369+1369+1369+1369+1369+1369+1369+1369+1369+957+957+957+957+957+957+957+957+957+957+957+957+957+957+957+957+957+957+957+957+957+957+957+957+957+957+957+957+957+957+957+957+957+957+957+957+957+957+957+957+957+957+957+957+957+957+957+957+957+957+957+957+957+957+957+957+957+957+957+957+957+957+957+957+957+957+957+957+957+957+957+957+957+957+957+957+957+957+957+957+957+957+957+957+957+957+957+957+957+957+957+957+957+957+957+957+957+957+957+957+957+957+957+957+957+957+957+957+957+957+957+957+957+957+957+957+957+957+957+957+957+957+957+957+957+957+957+957+957+957+957+957+957+957+957+957+957+957+957+957+957+957+957+957+957+957+957+957+957+957+957+957+957+957+957+1381+1381+1381+1381+1381+1381+1381+1381+1381+1381+1381+1381+1381+1381+1381+1381+1381+1381+1381+1381+1381+1381+1381+1381+1381+1381+1381+1381+1381+1381+1381+1381+1381+1381+1381+1381+1381+1381+1381+1381+1381+1381+1381+1381+1381+1381+1381+1381+1381+1381+1381+1381+1381+1381+1381+1381+1381+1381+1381+1381+1381+1381+1381+1381+1381+1381+1381+1381+1381+1381+1381+1381+1381+1381+1381+1381+1381+1381+1381+1381+1381+1381+1381+1381+1381+1381+1381+1381+1381+1381+1381+1381+1381+1381+1381+1381+1381+1381+1381+1381+1381+1381+1381+1381+1381+1381+1381+1381+1381+1381+1381+1381+1381+1381+1381+1381+1381+1381+1381+1381+1381+1381+1381+1381+1381+1381+1381+1381+1381+1381+1381+1381+1381+1381+1381+1381+1381+1381+1381+1381+1381+1381+1381+1381+1381+1381+1381+1381+1381+1381+1381+1381+1381+1381+1381+1085+1085+1085+1085+1085+1085+1085+1085+1085+1085+1085+1085+1085+1085+1085+1085+1085+1085+1085+1085+1085+1085+1085+1085+1085+1085+1085+1085+1085+1085+1085+1085+1085+1085+1085+1085+1085+1085+1085+1085+1085+1085+1085+1085+1085+1085+1085+1085+1085+1085+1085+1085+1085+1085+1085+1085+1085+1085+1085+1085+1085+1085+1085+1085+1085+1085+1085+1085+1085+1085+1085+1085+1085+1085+1085+1085+1085+1085+1085+1085+1085+1085+1085+1085+1085+1085+1085+1085+1085+1085+1085+1085+1085+1085+1085+1085+1085+1085+1085+1085+1085+1085+1085+1085+1085+1085+1085+1085+1085+1085+1085+1085+1085+1085+1085+1085+1085+1085+1085+1085+1085+1085+1085+1085+1085+1085+1085+1085+1085+1085+1085+1085+1085+1085+1085+1085+1085+1085+1085+1085+1085+1085+1085+1085+1085+1085+1085+1085+1085+1085+1085+1085+1085+1085+1085+639+639+639+639+639+639+639+639+639+639+639+639+639+639+639+639+639+639+639+639+639+639+639+639+639+639+639+639+639+639+639+639+639+639+639+639+639+639+639+639+639+639+639+639+639+639+639+639+639+639+639+639+639+639+639+639+639+639+639+639+639+639+639+639+639+639+639+639+639+639+639+639+639+639+639+639+639+639+639+639+639+639+639+639+639+639+639+639+639+639+639+639+639+639+639+639+639+639+639+639+639+639+639+639+639+639+639+639+639+639+639+639+639+639+639+639+639+639+639+639+639+639+639+639+639+639+639+639+639+639+639+639+639+639+639+639+639+639+639+639+639+639+639+639+639+639+639+639+639+639+639+639+639+639+639+106+106+106+106+106+106+106+106+106+106+106+106+106+106+106+106+106+106+106+106+106+106+106+106+106+106+106+106+106+106+106+106+106+106+106+106+106+106+106+106+106+106+106+106+106+106+106+106+106+106+106+106+106+106+106+106+106+106+106+106+106+106+106+106+106+106+106+106+106+106+106+106+106+106+106+106+106+106+106+106+106+106+106+106+106+106+106+106+106+106+106+106+106+106+106+106+106+106+106+106+106+106+106+106+106+106+106+106+106+106+106+106+106+106+106+106+106+106+106+106+106+106+106+106+106+106+106+106+106+106+106+106+106+106+106+106+106+106+106+106+106+106+106+106+106+106+106+106+106+106+106+106+106+106+106+1231+1231+1231+1231+1231+1231+1231+1231+1231+1231+1231+1231+1231+1231+1231+1231+1231+1231+1231+1231+1231+1231+1231+1231+1231+1231+1231+1231+1231+1231+1231+1231+1231+1231+1231+1231+1231+1231+1231+1231+1231+1231+1231+1231+1231+1231+1231+1231+1231+1231+1231+1231+1231+1231+1231+1231+1231+1231+1231+1231+1231+1231+1231+1231+1231+1231+1231+1231+1231+1231+1231+1231+1231+1231+1231+1231+1231+1231+1231+1231+1231+1231+1231+1231+1231+1231+1231+1231+1231+1231+1231+1231+1231+1231+1231+1231+1231+1231+1231+1231+1231+1231+1231+1231+1231+1231+1231+1231+1231+1231+1231+1231+1231+1231+1231+1231+1231+1231+1231+1231+1231+1231+1231+1231+1231+1231+1231+1231+1231+1231+1231+1231+1231+1231+1231+1231+1231+1231+1231+1231+1231+1231+1231+1231+1231+1231+1231+1231+1231+1231+1231+1231+1231+1231+1231+1181+1181+1181+1181+1181+1181+1181+1181+1181+1181+1181+1181+1181+1181+1181+1181+1181+1181+1181+1181+1181+1181+1181+1181+1181+1181+1181+1181+1181+1181+1181+1181+1181+1181+1181+1181+1181+1181+1181+1181+1181+1181+1181+1181+1181+1181+1181+1181+1181+1181+1181+1181+1181+1181+1181+1181+1181+1181+1181+1181+1181+1181+1181+1181+1181+1181+1181+1181+1181+1181+1181+1181+1181+1181+1181+1181+1181+1181+1181+1181+1181+1181+1181+1181+1181+1181+1181+1181+1181+1181+1181+1181+1181+1181+1181+1181+1181+1181+1181+1181+1181+1181+1181+1181+1181+1181+1181+1181+1181+1181+1181+1181+1181+1181+1181+1181+1181+1181+1181+1181+1181+1181+1181+1181+1181+1181+1181+1181+1181+1181+1181+1181+1181+1181+1181+1181+1181+1181+1181+1181+1181+1181+1181+1181+1181+1181+1181+1181+1181+1181+1181+1181+1181+1181+1181+557+557+557+263+263+263+1025+1025+1025+1025+1065+1065+1065+1065+1072+1072+1072+1072+1072+119+119+119+119+119+119+119+794+794+794+794+1101+1101+1101+1101+1101+96+96+96+96+96+576+576+576+576+576+1106+1106+1106+1106+1106+883+883+883+883+883+883+1115+1115+1115+1115+1115+1115+508+508+508+508+508+508+785+785+785+785+785+785+785+307+307+307+307+307+307+307+1211+1211+1211+1211+1211+1211+1211+502+502+502+502+502+502+502+1382+1382+1382+1382+1382+1382+1382+784+784+784+784+784+784+784+258+258+258+258+258+258+258+61+660+765+57+317+1360,val=0xC097,type=equ"%lit;
  "sym	id=2290,name=""WADRL"",addrsize=absolute,scope=1,def=566,ref=1070+169+1008+1190+291+19+274+1173+1179+631+7+194+23+1186+1132+778+555+283,val=0xC096,type=equ"%lit;
  "sym	id=2291,name=""WADRH"",addrsize=absolute,scope=1,def=189,ref=355+381+1049+855+752+496+127+77,val=0xC095,type=equ"%lit;
  "sym	id=2292,name=""WMODE"",addrsize=absolute,scope=1,def=1138,ref=243+900,val=0xC094,type=equ"%lit;
  "sym	id=2293,name=""MAC"",addrsize=absolute,size=6,scope=1,def=1240,ref=341,val=0x200A,seg=6,type=lab"%lit;
  "sym	id=2294,name=""FPORT"",addrsize=absolute,size=2,scope=1,def=269,ref=930+754,val=0x2008,seg=6,type=lab"%lit;
  "sym	id=2295,name=""FADDR"",addrsize=absolute,size=4,scope=1,def=870,ref=812,val=0x2004,seg=6,type=lab"%lit;
  "sym	id=2296,name=""SRCADDR"",addrsize=absolute,size=4,scope=1,def=649,ref=905,val=0x2000,seg=6,type=lab"%lit;
  "sym	id=2297,name=""main"",addrsize=absolute,size=31435,scope=0,def=1269,val=0x4000,seg=0,type=lab"%lit;
  "sym	id=2298,name=""IOUDISOFF"",addrsize=absolute,scope=0,def=296,val=0xC07F,type=lab"%lit;
  "sym	id=2299,name=""IOUDISON"",addrsize=absolute,scope=0,def=459,val=0xC07E,type=lab"%lit;
  "sym	id=2300,name=""BUTN1"",addrsize=absolute,scope=0,def=252,val=0xC062,type=lab"%lit;
  "sym	id=2301,name=""BUTN0"",addrsize=absolute,scope=0,def=491,val=0xC061,type=lab"%lit;
  "sym	id=2302,name=""DHIRESOFF"",addrsize=absolute,scope=0,def=1047,val=0xC05F,type=lab"%lit;
  "sym	id=2303,name=""DHIRESON"",addrsize=absolute,scope=0,def=308,val=0xC05E,type=lab"%lit;
  "sym	id=2304,name=""HIRES"",addrsize=absolute,scope=0,def=2,val=0xC057,type=lab"%lit;
  "sym	id=2305,name=""LORES"",addrsize=absolute,scope=0,def=501,val=0xC056,type=lab"%lit;
  "sym	id=2306,name=""HISCR"",addrsize=absolute,scope=0,def=695,val=0xC055,type=lab"%lit;
  "sym	id=2307,name=""LOWSCR"",addrsize=absolute,scope=0,def=694,val=0xC054,type=lab"%lit;
  "sym	id=2308,name=""MIXSET"",addrsize=absolute,scope=0,def=543,val=0xC053,type=lab"%lit;
  "sym	id=2309,name=""MIXCLR"",addrsize=absolute,scope=0,def=344,val=0xC052,type=lab"%lit;
  "sym	id=2310,name=""TXTSET"",addrsize=absolute,scope=0,def=669,val=0xC051,type=lab"%lit;
  "sym	id=2311,name=""TXTCLR"",addrsize=absolute,scope=0,def=877,val=0xC050,type=lab"%lit;
  "sym	id=2312,name=""LCBANK1"",addrsize=absolute,scope=0,def=963,val=0xC08B,type=lab"%lit;
  "sym	id=2313,name=""LCBANK2"",addrsize=absolute,scope=0,def=990,val=0xC083,type=lab"%lit;
  "sym	id=2314,name=""ROMIN"",addrsize=absolute,scope=0,def=1299,val=0xC081,type=lab"%lit;
  "sym	id=2315,name=""RDLCRAM"",addrsize=absolute,scope=0,def=59,val=0xC012,type=lab"%lit;
  "sym	id=2316,name=""RDLCBNK2"",addrsize=absolute,scope=0,def=1135,val=0xC011,type=lab"%lit;
  "sym	id=2317,name=""ALTCHARSET"",addrsize=absolute,scope=0,def=731,val=0xC01E,type=lab"%lit;
  "sym	id=2318,name=""SETALTCHAR"",addrsize=absolute,scope=0,def=910,val=0xC00F,type=lab"%lit;
  "sym	id=2319,name=""CLRALTCHAR"",addrsize=absolute,scope=0,def=259,val=0xC00E,type=lab"%lit;
  "sym	id=2320,name=""RD80VID"",addrsize=absolute,scope=0,def=996,val=0xC01F,type=lab"%lit;
  "sym	id=2321,name=""RD80COL"",addrsize=absolute,scope=0,def=387,val=0xC018,type=lab"%lit;
  "sym	id=2322,name=""SET80COL"",addrsize=absolute,scope=0,def=1393,val=0xC001,type=lab"%lit;
  "sym	id=2323,name=""CLR80COL"",addrsize=absolute,scope=0,def=536,val=0xC000,type=lab"%lit;
  "sym	id=2324,name=""KBDSTRB"",addrsize=absolute,scope=0,def=1146,val=0xC010,type=lab"%lit;
  "sym	id=2325,name=""KBD"",addrsize=absolute,scope=0,def=1213,val=0xC000,type=lab"%lit;
  "sym	id=2326,name=""PWREDUP"",addrsize=absolute,scope=0,def=968,val=0x3F4,type=lab"%lit;
  "sym	id=2327,name=""SOFTEV"",addrsize=absolute,scope=0,def=1046,val=0x3F2,type=lab"%lit;
  "sym	id=2328,name=""BRKVec"",addrsize=absolute,scope=0,def=141,val=0x3F0,type=lab"%lit;
  "sym	id=2329,name=""DOSWARM"",addrsize=absolute,scope=0,def=862,val=0x3D0,type=lab"%lit;
  "sym	id=2330,name=""HIMEM"",addrsize=zeropage,scope=0,def=282,val=0x73,type=lab"%lit;
  "sym	id=2331,name=""RNDH"",addrsize=zeropage,scope=0,def=105,val=0x4F,type=lab"%lit;
  "sym	id=2332,name=""RNDL"",addrsize=zeropage,scope=0,def=162,val=0x4E,type=lab"%lit;
  "sym	id=2333,name=""PROMPT"",addrsize=zeropage,scope=0,def=170,val=0x33,type=lab"%lit;
  "sym	id=2334,name=""INVFLG"",addrsize=zeropage,scope=0,def=687,val=0x32,type=lab"%lit;
  "sym	id=2335,name=""BASH"",addrsize=zeropage,scope=0,def=600,val=0x29,type=lab"%lit;
  "sym	id=2336,name=""BASL"",addrsize=zeropage,scope=0,def=327,val=0x28,type=lab"%lit;
  "sym	id=2337,name=""CV"",addrsize=zeropage,scope=0,def=712,val=0x25,type=lab"%lit;
  "sym	id=2338,name=""CH"",addrsize=zeropage,scope=0,def=917,val=0x24,type=lab"%lit;
  "sym	id=2339,name=""WNDBTM"",addrsize=zeropage,scope=0,def=931,val=0x23,type=lab"%lit;
  "sym	id=2340,name=""WNDTOP"",addrsize=zeropage,scope=0,def=1230,val=0x22,type=lab"%lit;
  "sym	id=2341,name=""WNDWDTH"",addrsize=zeropage,scope=0,def=1325,val=0x21,type=lab"%lit;
  "sym	id=2342,name=""WNDLFT"",addrsize=zeropage,scope=0,def=377,val=0x20,type=lab"%lit;
  "sym	id=2343,name=""__APPLE2__"",addrsize=zeropage,scope=0,def=207,val=0x1,type=equ"%lit].
Notation sym_lines := (map str sym_lits).
