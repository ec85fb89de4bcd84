(** Generated by tools/gen_headers.py; do not edit. *)
From Coq Require Import String.
From Verif Require Import Base.
Local Notation "'#' s" := (list_byte_of_string s%string) (at level 5, only parsing).
Definition lines_of (l : list str) : str := concat (map (fun x => x ++ [x0a]) l).

(** src/Ystring/CharClassTables.hpp, the whole file *)
Definition CHAR_CLASS_HEADER : str := lines_of [
#"//****************************************************************************";
#"// Copyright © 2025 Jan Erik Breimo. All rights reserved.";
#"// Created by Jan Erik Breimo on 2025-01-01";
#"//";
#"// This file is distributed under the Zero-Clause BSD License.";
#"// License text is included with the source distribution.";
#"//****************************************************************************";
#"#include <cstdint>";
#"";
#"namespace ystring";
#"{";
#"    constexpr uint8_t ASCII_CHAR_CLASSES[] =";
#"    {";
#"        0x19, 0x19, 0x19, 0x19, 0x19, 0x19, 0x19, 0x19,";
#"        0x19, 0x19, 0x19, 0x19, 0x19, 0x19, 0x19, 0x19,";
#"        0x19, 0x19, 0x19, 0x19, 0x19, 0x19, 0x19, 0x19,";
#"        0x19, 0x19, 0x19, 0x19, 0x19, 0x19, 0x19, 0x19,";
#"        0x16, 0x11, 0x11, 0x11, 0x13, 0x11, 0x11, 0x11,";
#"        0x0D, 0x0E, 0x11, 0x12, 0x11, 0x0C, 0x11, 0x11,";
#"        0x08, 0x08, 0x08, 0x08, 0x08, 0x08, 0x08, 0x08,";
#"        0x08, 0x08, 0x11, 0x11, 0x12, 0x12, 0x12, 0x11,";
#"        0x11, 0x00, 0x00, 0x00, 0x00, 0x00, 0x00, 0x00,";
#"        0x00, 0x00, 0x00, 0x00, 0x00, 0x00, 0x00, 0x00,";
#"        0x00, 0x00, 0x00, 0x00, 0x00, 0x00, 0x00, 0x00,";
#"        0x00, 0x00, 0x00, 0x0D, 0x11, 0x0E, 0x14, 0x0B,";
#"        0x14, 0x01, 0x01, 0x01, 0x01, 0x01, 0x01, 0x01,";
#"        0x01, 0x01, 0x01, 0x01, 0x01, 0x01, 0x01, 0x01,";
#"        0x01, 0x01, 0x01, 0x01, 0x01, 0x01, 0x01, 0x01,";
#"        0x01, 0x01, 0x01, 0x0D, 0x12, 0x0E, 0x12, 0x19";
#"    };";
#"";
#"    constexpr uint32_t COMPLETE_CHAR_CLASSES[] =";
#"    {";
#"        0x00010357, 0x00012254, 0x0001424E, 0x000151F2, 0x00016272,";
#"        0x0001680D, 0x00017812, 0x0001C809, 0x0001D812, 0x0001F013,";
#"        0x00020012, 0x0002D82E, 0x0002EA4F, 0x0002FAAC, 0x00030015,";
#"        0x0003D84E, 0x0003EA6F, 0x0003F013, 0x00050357, 0x00050812,";
#"        0x00053296, 0x00054255, 0x000552C5, 0x00056213, 0x00057376,";
#"        0x000582B6, 0x00058813, 0x0005A175, 0x0005A802, 0x0005C255,";
#"        0x0005D165, 0x0005D811, 0x0005F972, 0x0006B833, 0x0006F001,";
#"        0x0007B853, 0x0007F802, 0x0009B401, 0x0009C002, 0x000A3C01,";
#"        0x000A4802, 0x000BBC02, 0x000BC801, 0x000BEC01, 0x000C0002,";
#"        0x000C1001, 0x000C2C02, 0x000C4022, 0x000C5801, 0x000C6802,";
#"        0x000C9022, 0x000CA822, 0x000CC001, 0x000CD802, 0x000CF022,";
#"        0x000D0001, 0x000D2C02, 0x000D3801, 0x000D4C01, 0x000D5802,";
#"        0x000D6C02, 0x000D8022, 0x000D9801, 0x000DB402, 0x000DC001,";
#"        0x000DD845, 0x000DE001, 0x000DF802, 0x000E20A1, 0x000E2803,";
#"        0x000E3C01, 0x000E4003, 0x000E5401, 0x000E5803, 0x000EDC01,";
#"        0x000EE802, 0x000F7401, 0x000F8841, 0x000F9003, 0x000FAC02,";
#"        0x000FC001, 0x00119401, 0x0011C802, 0x0011E022, 0x0011F001,";
#"        0x00120002, 0x00121402, 0x00123001, 0x00127401, 0x0014A045,";
#"        0x00157802, 0x00160804, 0x00162815, 0x00168804, 0x0016F815,";
#"        0x00172004, 0x001762A4, 0x001772A4, 0x0017F815, 0x001B7806,";
#"        0x001B9C02, 0x001BA895, 0x001BBC02, 0x001BD3C4, 0x001BF052,";
#"        0x001BF801, 0x001C181E, 0x001C32A1, 0x001C3812, 0x001C583E,";
#"        0x001C683E, 0x001C8022, 0x001D103E, 0x001D5801, 0x001E7841,";
#"        0x001E8802, 0x001EA001, 0x001EB802, 0x001F7401, 0x001F9802,";
#"        0x001FAC02, 0x001FB013, 0x001FC402, 0x001FD001, 0x001FE002,";
#"        0x00217801, 0x0022F802, 0x00240C02, 0x00241016, 0x00243806,";
#"        0x00244808, 0x0025FC02, 0x00260801, 0x00266C01, 0x00267802,";
#"        0x00297C02, 0x0029801E, 0x002AB001, 0x002ACBC4, 0x002AF812,";
#"        0x002C4852, 0x002C500D, 0x002C601E, 0x002C7AD4, 0x002C801E,";
#"        0x002DF0CD, 0x002E00D2, 0x002E18D2, 0x002E30D2, 0x002E3806,";
#"        0x002E781E, 0x002F5005, 0x002F701E, 0x002F9005, 0x002FA012,";
#"        0x002FF81E, 0x0030281B, 0x00304013, 0x00305A54, 0x00306812,";
#"        0x00307816, 0x0030D8D2, 0x0030E01B, 0x0030F812, 0x003200A4,";
#"        0x00325005, 0x0032F806, 0x00334809, 0x00336812, 0x003380A6,";
#"        0x0036A0B2, 0x0036A805, 0x0036E8DB, 0x0036F016, 0x00372006,";
#"        0x00373004, 0x003748D6, 0x00376806, 0x00377805, 0x0037C809,";
#"        0x0037E005, 0x0037FAC5, 0x0038725E, 0x00388365, 0x00388806,";
#"        0x00397805, 0x003A5006, 0x003A601E, 0x003D2805, 0x003D88C5,";
#"        0x003DF81E, 0x003E4809, 0x003F5005, 0x003F9806, 0x003FB096,";
#"        0x003FD244, 0x003FEBC6, 0x003FF814, 0x0040A805, 0x0040D0C4,";
#"        0x004120C4, 0x004140C4, 0x00416806, 0x0041781E, 0x0041FA5E,";
#"        0x0042C005, 0x0042D806, 0x0042F3D2, 0x0042F81E, 0x00435005,";
#"        0x0043781E, 0x004440B5, 0x004478BE, 0x0044881B, 0x0044B01E,";
#"        0x0044F806, 0x004648A4, 0x004710DB, 0x004818C7, 0x0049D0A6,";
#"        0x0049E0E6, 0x0049E805, 0x004A0007, 0x004A4006, 0x004A68E6,";
#"        0x004A80E5, 0x004AB806, 0x004B0805, 0x004B1806, 0x004B2812,";
#"        0x004B8132, 0x004B8804, 0x004C08A6, 0x004C20FE, 0x004C6005,";
#"        0x004C701E, 0x004C8005, 0x004C901E, 0x004D48BE, 0x004D88BE,";
#"        0x004D9005, 0x004DA81E, 0x004DC805, 0x004DE3C6, 0x004DE805,";
#"        0x004E0007, 0x004E2006, 0x004E301E, 0x004E4007, 0x004E501E,";
#"        0x004E68E6, 0x004E7005, 0x004EBBC7, 0x004ED81E, 0x004EF0BE,";
#"        0x004F0805, 0x004F1806, 0x004F281E, 0x004F7809, 0x004F8805,";
#"        0x004F9814, 0x004FD176, 0x004FE285, 0x004FF246, 0x0050001E,";
#"        0x005018C7, 0x0050201E, 0x00505005, 0x0050701E, 0x00508005,";
#"        0x0050901E, 0x005148BE, 0x005188BE, 0x0051A0BE, 0x0051B8BE,";
#"        0x0051C805, 0x0051E3C6, 0x0051E81E, 0x00520007, 0x00521006,";
#"        0x0052301E, 0x00524006, 0x0052501E, 0x00526806, 0x00528BC6,";
#"        0x0052C01E, 0x0052E8BE, 0x0052F005, 0x0053281E, 0x00537809,";
#"        0x00538806, 0x0053A8A6, 0x0053B012, 0x0054001E, 0x005418C7,";
#"        0x0054201E, 0x005470BE, 0x005490BE, 0x005548BE, 0x005588BE,";
#"        0x0055A0BE, 0x0055C805, 0x0055E3C6, 0x0055E805, 0x00560007,";
#"        0x005630DE, 0x005648C7, 0x0056501E, 0x005668E6, 0x005683C5,";
#"        0x0056F81E, 0x00570805, 0x00571806, 0x0057281E, 0x00578132,";
#"        0x00578814, 0x0057CBC5, 0x005800DE, 0x00580806, 0x005820FE,";
#"        0x00586005, 0x0058701E, 0x00588005, 0x0058901E, 0x005948BE,";
#"        0x005988BE, 0x0059A0BE, 0x0059C805, 0x0059E3C6, 0x0059F0A7,";
#"        0x005A00C7, 0x005A2006, 0x005A301E, 0x005A4007, 0x005A501E,";
#"        0x005A68E6, 0x005AA01E, 0x005AB8C7, 0x005AD81E, 0x005AF0BE,";
#"        0x005B0805, 0x005B1806, 0x005B281E, 0x005B8136, 0x005B8805,";
#"        0x005BB80B, 0x005C13C6, 0x005C20BE, 0x005C5005, 0x005C681E,";
#"        0x005C88BE, 0x005CA805, 0x005CC01E, 0x005CD8BE, 0x005CE8BE,";
#"        0x005CF805, 0x005D101E, 0x005D2005, 0x005D381E, 0x005D5005,";
#"        0x005D681E, 0x005DC805, 0x005DE81E, 0x005E00E6, 0x005E1007,";
#"        0x005E281E, 0x005E48FE, 0x005E68E6, 0x005E83C5, 0x005EBBC7,";
#"        0x005F281E, 0x005F7809, 0x005F900B, 0x005FCAD4, 0x005FD016,";
#"        0x006003C6, 0x006020E6, 0x006068BE, 0x006088BE, 0x006148BE,";
#"        0x0061C805, 0x0061E3C6, 0x0061E805, 0x00620006, 0x006228FE,";
#"        0x006248DE, 0x00626806, 0x0062A01E, 0x0062B8DE, 0x0062D005,";
#"        0x0062EBC5, 0x0062F81E, 0x00630805, 0x00631806, 0x0063281E,";
#"        0x00637809, 0x0063BBD2, 0x0063F976, 0x006408A6, 0x006420F2,";
#"        0x006468BE, 0x006488BE, 0x006548BE, 0x0065A0BE, 0x0065C805,";
#"        0x0065E3C6, 0x0065F0A7, 0x0065F806, 0x006628FE, 0x00663006,";
#"        0x006648FE, 0x00665807, 0x00666806, 0x0066A01E, 0x0066B007,";
#"        0x0066E01E, 0x0066F8BE, 0x00670805, 0x00671806, 0x0067281E,";
#"        0x0067813E, 0x006798A7, 0x0067F81E, 0x00680806, 0x00681807,";
#"        0x006868BE, 0x006888BE, 0x0069D005, 0x0069E8C5, 0x006A0007,";
#"        0x006A28DE, 0x006A48FE, 0x006A68E6, 0x006A78B6, 0x006A981E,";
#"        0x006AB8A7, 0x006AF00B, 0x006B0805, 0x006B1806, 0x006B281E,";
#"        0x006B7809, 0x006BC976, 0x006C00BE, 0x006C0806, 0x006C20FE,";
#"        0x006CB005, 0x006CC81E, 0x006D90BE, 0x006DE0BE, 0x006DE805,";
#"        0x006DF81E, 0x006E3005, 0x006E53C6, 0x006E701E, 0x006E8807,";
#"        0x006EA8DE, 0x006EB8DE, 0x006EF807, 0x006F281E, 0x006F7809,";
#"        0x006F881E, 0x006FA0F2, 0x0070001E, 0x007188A6, 0x00719805,";
#"        0x0071D006, 0x0071FBD4, 0x007230A4, 0x007278D2, 0x0072C809,";
#"        0x0072D812, 0x0074001E, 0x007418BE, 0x007428BE, 0x007458BE,";
#"        0x007520BE, 0x007530BE, 0x007588A6, 0x00759805, 0x0075E8C5,";
#"        0x0075F81E, 0x007628BE, 0x0076389E, 0x007678DE, 0x0076C809,";
#"        0x0076D81E, 0x0076F805, 0x007803C5, 0x00781816, 0x00789A56,";
#"        0x0078A012, 0x0078B816, 0x0078C806, 0x0078F816, 0x00794809,";
#"        0x0079A176, 0x0079B0D6, 0x0079C0D6, 0x0079D0CE, 0x0079E1EE,";
#"        0x0079E80F, 0x0079F807, 0x007A40BE, 0x007B6005, 0x007B801E,";
#"        0x007BF8C7, 0x007C28D2, 0x007C3806, 0x007C6005, 0x007CC0DE,";
#"        0x007DE8DE, 0x007E32C6, 0x007E6ADE, 0x007E7816, 0x007EA012,";
#"        0x007EC016, 0x007ED012, 0x007FF81E, 0x00815005, 0x00816007,";
#"        0x008188C7, 0x0081C0C7, 0x0081D006, 0x0081E007, 0x0081F8C5,";
#"        0x00824809, 0x00827812, 0x0082A805, 0x0082B807, 0x0082C806,";
#"        0x0082E805, 0x008308C5, 0x00832007, 0x00833005, 0x00836807,";
#"        0x00838005, 0x0083A006, 0x008410A6, 0x00842007, 0x00843006,";
#"        0x008468E6, 0x008478A7, 0x0084C809, 0x0084E8E6, 0x0084F816,";
#"        0x0086303E, 0x00863801, 0x00866BC1, 0x0086781E, 0x0087D852,";
#"        0x0087E004, 0x0087F802, 0x009248BE, 0x00926805, 0x0092781E,";
#"        0x0092B8BE, 0x0092C8BE, 0x0092E805, 0x0092F81E, 0x009448BE,";
#"        0x00946805, 0x0094781E, 0x009588BE, 0x0095A805, 0x0095B81E,";
#"        0x0095F8BE, 0x009608BE, 0x00962805, 0x0096381E, 0x0096B8BE,";
#"        0x009888BE, 0x0098A805, 0x0098B81E, 0x009AD005, 0x009AE01E,";
#"        0x009AF806, 0x009B4012, 0x009BE00B, 0x009BF81E, 0x009C7805,";
#"        0x009CC816, 0x009CF81E, 0x009FA801, 0x009FB81E, 0x009FE802,";
#"        0x00A003CD, 0x00B368B6, 0x00B37012, 0x00B400B7, 0x00B4D8AE,";
#"        0x00B4E00F, 0x00B4F81E, 0x00B75005, 0x00B76812, 0x00B7800A,";
#"        0x00B7C005, 0x00B7F81E, 0x00B88805, 0x00B8A8C7, 0x00B8F01E,";
#"        0x00B98805, 0x00B9A0C7, 0x00B9B012, 0x00B9F81E, 0x00BA8805,";
#"        0x00BA9806, 0x00BAF81E, 0x00BB68BE, 0x00BB88BE, 0x00BB9806,";
#"        0x00BBF81E, 0x00BD9805, 0x00BDB0C7, 0x00BDE806, 0x00BE30E6,";
#"        0x00BE4007, 0x00BE9806, 0x00BEBA44, 0x00BEDA54, 0x00BEE8A6,";
#"        0x00BEF81E, 0x00BF4809, 0x00BF781E, 0x00BFC80B, 0x00BFF81E,";
#"        0x00C0324D, 0x00C05012, 0x00C070DB, 0x00C07806, 0x00C0C809,";
#"        0x00C0F81E, 0x00C218A4, 0x00C3C005, 0x00C3F81E, 0x00C42005,";
#"        0x00C43006, 0x00C548A6, 0x00C55005, 0x00C5781E, 0x00C7A805,";
#"        0x00C7F81E, 0x00C8F8BE, 0x00C91006, 0x00C93007, 0x00C94006,";
#"        0x00C95807, 0x00C9781E, 0x00C990E6, 0x00C9C007, 0x00C9D806,";
#"        0x00CA03D6, 0x00CA181E, 0x00CA2812, 0x00CA7809, 0x00CB6805,";
#"        0x00CB781E, 0x00CBA005, 0x00CBF81E, 0x00CD5805, 0x00CD781E,";
#"        0x00CE4805, 0x00CE781E, 0x00CED12B, 0x00CEE81E, 0x00CFF816,";
#"        0x00D0B005, 0x00D0C006, 0x00D0D8E6, 0x00D0E81E, 0x00D0F812,";
#"        0x00D2A8A7, 0x00D2B8C7, 0x00D2F8DE, 0x00D308C7, 0x00D31006,";
#"        0x00D32007, 0x00D36006, 0x00D39007, 0x00D3E006, 0x00D3FBC6,";
#"        0x00D44809, 0x00D4781E, 0x00D4C809, 0x00D4F81E, 0x00D53A44,";
#"        0x00D56812, 0x00D5781E, 0x00D5F0C8, 0x00D67006, 0x00D7F81E,";
#"        0x00D820C7, 0x00D9A0A6, 0x00D9A807, 0x00D9D8C7, 0x00D9E006,";
#"        0x00DA10E6, 0x00DA2007, 0x00DA68BE, 0x00DA7812, 0x00DAC809,";
#"        0x00DB0012, 0x00DB5016, 0x00DB9806, 0x00DBE016, 0x00DBF812,";
#"        0x00DC10C7, 0x00DD08A7, 0x00DD2806, 0x00DD3807, 0x00DD50C7,";
#"        0x00DD6806, 0x00DD7805, 0x00DDC809, 0x00DF30A6, 0x00DF3807,";
#"        0x00DF4806, 0x00DF68E6, 0x00DF7007, 0x00DF8806, 0x00DF9807,";
#"        0x00DFD81E, 0x00DFF812, 0x00E11805, 0x00E15807, 0x00E19806,";
#"        0x00E1A807, 0x00E1B806, 0x00E1D01E, 0x00E1F812, 0x00E24809,";
#"        0x00E2601E, 0x00E27805, 0x00E2C809, 0x00E3B805, 0x00E3E804,";
#"        0x00E3F812, 0x00E44002, 0x00E45402, 0x00E4781E, 0x00E5D001,";
#"        0x00E5E01E, 0x00E5F801, 0x00E63812, 0x00E6781E, 0x00E698D2,";
#"        0x00E708C7, 0x00E74006, 0x00E768A6, 0x00E7A0A6, 0x00E7B8A7,";
#"        0x00E7D0C5, 0x00E7F81E, 0x00E95802, 0x00EB5004, 0x00EBC044,";
#"        0x00ECD002, 0x00EDF804, 0x00EFF806, 0x00F4A401, 0x00F4E802,";
#"        0x00F7F401, 0x00F83802, 0x00F87801, 0x00F8A802, 0x00F8B81E,";
#"        0x00F8E801, 0x00F8F81E, 0x00F93802, 0x00F97801, 0x00F9B802,";
#"        0x00F9F801, 0x00FA2802, 0x00FA381E, 0x00FA6801, 0x00FA781E,";
#"        0x00FAC05E, 0x00FAD03E, 0x00FAE03E, 0x00FAF03E, 0x00FAF801,";
#"        0x00FB3802, 0x00FB7801, 0x00FBE802, 0x00FBF81E, 0x00FC3802,";
#"        0x00FC7803, 0x00FCB802, 0x00FCF803, 0x00FD3802, 0x00FD7803,";
#"        0x00FDA85E, 0x00FDB802, 0x00FDE023, 0x00FDF2A2, 0x00FE0815,";
#"        0x00FE285E, 0x00FE3802, 0x00FE6023, 0x00FE7815, 0x00FE9802,";
#"        0x00FEA81E, 0x00FEB802, 0x00FEE03E, 0x00FEF815, 0x00FF3802,";
#"        0x00FF6001, 0x00FF7815, 0x00FF881E, 0x00FFA85E, 0x00FFB802,";
#"        0x00FFE023, 0x00FFFABE, 0x01005017, 0x0100781B, 0x0100A80D,";
#"        0x0100C250, 0x0100D22E, 0x0100EA11, 0x0100F9D0, 0x01014258,";
#"        0x01014819, 0x01017B77, 0x0101CA50, 0x0101D011, 0x0101F012,";
#"        0x0102000C, 0x01022253, 0x010231CF, 0x01029253, 0x0102A24C,";
#"        0x0102FA57, 0x01032B7E, 0x0103836B, 0x01038804, 0x0103981E,";
#"        0x0103C80B, 0x0103EA6E, 0x0103F9E4, 0x0104480B, 0x01046A6E,";
#"        0x010479FE, 0x0104E004, 0x0104F81E, 0x01060014, 0x0106781E,";
#"        0x0106E006, 0x01070906, 0x01072008, 0x01078006, 0x0107F81E,";
#"        0x010812C1, 0x01083AC1, 0x010852C2, 0x01086801, 0x01087802,";
#"        0x01089822, 0x0108AAC1, 0x0108C2D3, 0x0108E801, 0x010922C1,";
#"        0x010932C1, 0x010942C1, 0x01094816, 0x01097036, 0x01097802,";
#"        0x0109A022, 0x0109C8A2, 0x0109D816, 0x0109E802, 0x0109F801,";
#"        0x010A2A61, 0x010A5056, 0x010A5813, 0x010A72C2, 0x010A7816,";
#"        0x010AF80B, 0x010C100A, 0x010C2402, 0x010C494B, 0x010C5816,";
#"        0x010C781E, 0x010CA013, 0x010CC816, 0x010CD813, 0x010D02D3,";
#"        0x010D1AD3, 0x010D32D3, 0x010D72D3, 0x010E6816, 0x010E7813,";
#"        0x010E92D3, 0x010EA2D3, 0x010F9816, 0x0117F813, 0x011842CE,";
#"        0x011851EE, 0x0118580F, 0x0118F816, 0x01190813, 0x01194ACE,";
#"        0x0119500F, 0x011BE2D3, 0x011CD016, 0x011D9813, 0x011ED816,";
#"        0x011F0813, 0x01214816, 0x0121F81E, 0x01225016, 0x0122F81E,";
#"        0x0124D80B, 0x01274816, 0x0127F80B, 0x012DBAD3, 0x012E0AD3,";
#"        0x012FB816, 0x012FF813, 0x01337AD3, 0x013B42CE, 0x013B51EE,";
#"        0x013B61EE, 0x013B71EE, 0x013B81EE, 0x013B91EE, 0x013BA1EE,";
#"        0x013BA80F, 0x013C980B, 0x013DF816, 0x013E2A6E, 0x013E300F,";
#"        0x013F326E, 0x013F41EE, 0x013F51EE, 0x013F61EE, 0x013F71EE,";
#"        0x013F780F, 0x013FF813, 0x0147F816, 0x014C1A6E, 0x014C29EE,";
#"        0x014C39EE, 0x014C49EE, 0x014C59EE, 0x014C69EE, 0x014C79EE,";
#"        0x014C89EE, 0x014C99EE, 0x014CA9EE, 0x014CB9EE, 0x014CC00F,";
#"        0x014EC26E, 0x014ED1EE, 0x014ED80F, 0x014FE26E, 0x014FE80F,";
#"        0x0157F813, 0x01597816, 0x015A2013, 0x015A3016, 0x015A6013,";
#"        0x015B9816, 0x015BA81E, 0x015CB2DE, 0x015FF816, 0x01617801,";
#"        0x0162F802, 0x01630C02, 0x01632001, 0x01633002, 0x01636402,";
#"        0x01638001, 0x01639401, 0x0163A841, 0x0163D802, 0x0163E804,";
#"        0x01640001, 0x01671401, 0x01672002, 0x01675016, 0x01677402,";
#"        0x01678806, 0x01679C02, 0x0167C01E, 0x0167EA4B, 0x0167F812,";
#"        0x0169305E, 0x01693802, 0x01696BC2, 0x0169781E, 0x016B3805,";
#"        0x016B7BC4, 0x016B8012, 0x016BFBC6, 0x016CB005, 0x016CF81E,";
#"        0x016D38BE, 0x016D78BE, 0x016DB8BE, 0x016DF8BE, 0x016E38BE,";
#"        0x016E78BE, 0x016EB8BE, 0x016EF8BE, 0x016FF806, 0x01701250,";
#"        0x01702230, 0x01702811, 0x01704A50, 0x01705A32, 0x01706A11,";
#"        0x0170BA4D, 0x0170D24D, 0x0170E250, 0x0170E811, 0x01710250,";
#"        0x0171122E, 0x017121EE, 0x017131EE, 0x017141EE, 0x0171480F,";
#"        0x01717A44, 0x0171C812, 0x0171D80D, 0x0172024D, 0x0172124E,";
#"        0x01727812, 0x01728816, 0x0172AA4E, 0x0172B9EE, 0x0172C9EE,";
#"        0x0172D9EE, 0x0172E9ED, 0x0173F81E, 0x0174D2DE, 0x01779816,";
#"        0x0177F81E, 0x017EA816, 0x017F781E, 0x018002D7, 0x01802256,";
#"        0x01803085, 0x0180414E, 0x018051EE, 0x018061EE, 0x018071EE,";
#"        0x018081EE, 0x0180880F, 0x0180A2CE, 0x0180B1EE, 0x0180C1EE,";
#"        0x0180D1EE, 0x0180E1ED, 0x0180E80E, 0x018101F6, 0x0181480A,";
#"        0x01816806, 0x018180ED, 0x0181A804, 0x0181B816, 0x0181D944,";
#"        0x0181E8B2, 0x018202DE, 0x0184B005, 0x0184C01E, 0x0184D006,";
#"        0x0184E015, 0x0184F885, 0x0185000D, 0x0187D8B2, 0x0187F885,";
#"        0x0188201E, 0x018980BE, 0x018C78BE, 0x018C8816, 0x018CA80B,";
#"        0x018CF816, 0x018DF805, 0x018F2816, 0x018F7BD6, 0x018FF805,";
#"        0x0190FADE, 0x0191480B, 0x01923816, 0x01928176, 0x0192F80B,";
#"        0x0193F816, 0x0194480B, 0x01958016, 0x0195F80B, 0x01A002C5,";
#"        0x026DFBC5, 0x027002C5, 0x04FFF01E, 0x0500A8A4, 0x05246005,";
#"        0x0524781E, 0x05263016, 0x0526781E, 0x0527B805, 0x0527E804,";
#"        0x0527F812, 0x053060A4, 0x05307812, 0x0530F805, 0x05314809,";
#"        0x05315805, 0x0531F81E, 0x05336C02, 0x053378A6, 0x05339912,";
#"        0x0533F0D2, 0x0533F804, 0x0534DC02, 0x0534E804, 0x0534F806,";
#"        0x05372805, 0x0537780A, 0x05378806, 0x0537B812, 0x0537F81E,";
#"        0x0538B015, 0x0538F804, 0x05390815, 0x05397401, 0x05398802,";
#"        0x053B7C02, 0x053B8004, 0x053BC002, 0x053BE402, 0x053BF001,";
#"        0x053C3C02, 0x053C4004, 0x053C5015, 0x053C7402, 0x053C7805,";
#"        0x053C9401, 0x053CA802, 0x053D4C02, 0x053D7822, 0x053DA001,";
#"        0x053E1C02, 0x053E3801, 0x053E5402, 0x053E6822, 0x053E781E,";
#"        0x053E8C02, 0x053E9BC2, 0x053EA01E, 0x053EE401, 0x053F881E,";
#"        0x053FA004, 0x053FB402, 0x053FB805, 0x053FD082, 0x054010A6,";
#"        0x054030A6, 0x054058A6, 0x05411005, 0x05412007, 0x054138C7,";
#"        0x054162C6, 0x0541781E, 0x0541A80B, 0x0541C2D4, 0x0541C816,";
#"        0x0541F81E, 0x05439805, 0x0543B812, 0x0543F81E, 0x05440807,";
#"        0x05459805, 0x05461807, 0x05462806, 0x0546681E, 0x05467812,";
#"        0x0546C809, 0x0546F81E, 0x05478806, 0x0547B805, 0x0547DA45,";
#"        0x0547E012, 0x0547F8A6, 0x05484809, 0x05492805, 0x05496806,";
#"        0x05497812, 0x054A3005, 0x054A8806, 0x054A9807, 0x054AFBD2,";
#"        0x054BE005, 0x054BF81E, 0x054C18C7, 0x054D98A6, 0x054DA807,";
#"        0x054DC806, 0x054DD807, 0x054DE806, 0x054E0007, 0x054E725E,";
#"        0x054E7804, 0x054EC809, 0x054EE81E, 0x054EF812, 0x054F28A6,";
#"        0x054F3004, 0x054F7805, 0x054FC809, 0x054FF8BE, 0x05514005,";
#"        0x05517006, 0x05518007, 0x05519006, 0x0551A007, 0x0551B006,";
#"        0x0551F81E, 0x055218A6, 0x055260A6, 0x05526807, 0x0552781E,";
#"        0x0552C809, 0x0552D81E, 0x0552F812, 0x055380A4, 0x0553B005,";
#"        0x0553D2C5, 0x0553E0E6, 0x0553E807, 0x055580A6, 0x05558805,";
#"        0x0555A006, 0x0555B005, 0x0555C006, 0x0555E805, 0x055600C5,";
#"        0x055610C5, 0x0556D01E, 0x0556E8A4, 0x0556F812, 0x055758A7,";
#"        0x05576806, 0x05577807, 0x05579245, 0x0557A887, 0x0557B006,";
#"        0x0558001E, 0x05583005, 0x0558401E, 0x05587005, 0x0558801E,";
#"        0x0558B005, 0x0558F81E, 0x055938BE, 0x055978BE, 0x055AD855,";
#"        0x055AF804, 0x055B4844, 0x055B5815, 0x055B781E, 0x055DF802,";
#"        0x055F1005, 0x055F28E6, 0x055F40E6, 0x055F58F2, 0x055F68E6,";
#"        0x055F781E, 0x055FC809, 0x055FF81E, 0x06BD1805, 0x06BD781E,";
#"        0x06BE3005, 0x06BE501E, 0x06BFD805, 0x06BFF81E, 0x06FFF81C,";
#"        0x07C7F81D, 0x07D36805, 0x07D3781E, 0x07D6C805, 0x07D7F81E,";
#"        0x07D83002, 0x07D8901E, 0x07D8B802, 0x07D8EBC5, 0x07D8F006,";
#"        0x07D948B3, 0x07D9B8BE, 0x07D9E8BE, 0x07D9F8BE, 0x07DA10BE,";
#"        0x07DA28BE, 0x07DD8805, 0x07DE1015, 0x07DE901E, 0x07E9F0AF,";
#"        0x07E9F80E, 0x07EA7816, 0x07EC7805, 0x07EC881E, 0x07EE3805,";
#"        0x07EE7BD6, 0x07EF781E, 0x07EFE0B4, 0x07EFF816, 0x07F07806,";
#"        0x07F0BA4E, 0x07F0C9F2, 0x07F0F81E, 0x07F180D2, 0x07F1900D,";
#"        0x07F1A98E, 0x07F1B9EE, 0x07F1C9EE, 0x07F1D9EE, 0x07F1E9EE,";
#"        0x07F1F9EE, 0x07F209EE, 0x07F219EE, 0x07F2200F, 0x07F23A4E,";
#"        0x07F2400F, 0x07F26012, 0x07F2780C, 0x07F29A5E, 0x07F2C24D,";
#"        0x07F2D1CF, 0x07F2E1CF, 0x07F2F1CF, 0x07F31253, 0x07F3180D,";
#"        0x07F33A7E, 0x07F34A54, 0x07F35812, 0x07F3781E, 0x07F3A8BE,";
#"        0x07F7E005, 0x07F7FBDB, 0x07F8001E, 0x07F82254, 0x07F8424E,";
#"        0x07F851F2, 0x07F86272, 0x07F8680D, 0x07F87812, 0x07F8C809,";
#"        0x07F8D812, 0x07F8F013, 0x07F90012, 0x07F9D82E, 0x07F9EA4F,";
#"        0x07F9FAAC, 0x07FA0015, 0x07FAD84E, 0x07FAEA6F, 0x07FAFA6E,";
#"        0x07FB09F2, 0x07FB19CF, 0x07FB2812, 0x07FB80A4, 0x07FCE805,";
#"        0x07FCF804, 0x07FDF005, 0x07FE081E, 0x07FE3805, 0x07FE481E,";
#"        0x07FE7805, 0x07FE881E, 0x07FEB805, 0x07FEC81E, 0x07FEE005,";
#"        0x07FEF81E, 0x07FF1293, 0x07FF22B6, 0x07FF3A9E, 0x07FF4016,";
#"        0x07FF6013, 0x07FF7016, 0x07FFC01E, 0x07FFD81B, 0x07FFE816,";
#"        0x07FFF81E, 0x080060BE, 0x080138BE, 0x0801D8BE, 0x0801F0BE,";
#"        0x08026805, 0x0802781E, 0x0802E805, 0x0803F81E, 0x0807D005,";
#"        0x0807F81E, 0x08081012, 0x0808301E, 0x0809980B, 0x0809B01E,";
#"        0x0809F816, 0x080BA00A, 0x080BC00B, 0x080C4816, 0x080C580B,";
#"        0x080C7ADE, 0x080CE016, 0x080D03D6, 0x080E781E, 0x080FEAC6,";
#"        0x0813F81E, 0x0814E005, 0x0814F81E, 0x08168005, 0x081703C6,";
#"        0x0817D80B, 0x0817F81E, 0x0818F805, 0x0819180B, 0x0819601E,";
#"        0x081A08AA, 0x081A50AA, 0x081A781E, 0x081BA805, 0x081BD006,";
#"        0x081BF81E, 0x081CF0BE, 0x081CF812, 0x081E1805, 0x081E381E,";
#"        0x081E80B2, 0x081EA80A, 0x081FF81E, 0x08213801, 0x08227802,";
#"        0x0824E805, 0x0824F81E, 0x08254809, 0x0825781E, 0x08269801,";
#"        0x0826B81E, 0x0827D802, 0x0827F81E, 0x08293805, 0x0829781E,";
#"        0x082B1805, 0x082B7BD2, 0x082BD83E, 0x082C583E, 0x082C983E,";
#"        0x082CB03E, 0x082D105E, 0x082D905E, 0x082DD05E, 0x082DE002,";
#"        0x082DF81E, 0x082F9805, 0x082FF81E, 0x0839B005, 0x0839F81E,";
#"        0x083AA805, 0x083AF81E, 0x083B3805, 0x083BF81E, 0x083C309E,";
#"        0x083D889E, 0x083DD004, 0x083FF81E, 0x08402805, 0x084043C5,";
#"        0x0840481E, 0x0841B0BE, 0x0841C005, 0x0841E3C5, 0x0841F01E,";
#"        0x0842B0BE, 0x0842B812, 0x0842F80B, 0x0843B005, 0x0843C016,";
#"        0x0843F80B, 0x0844F005, 0x0845301E, 0x0845780B, 0x0846F81E,";
#"        0x084798BE, 0x0847A805, 0x0847D01E, 0x0847F80B, 0x0848A805,";
#"        0x0848D80B, 0x0848FBD2, 0x0849C805, 0x0849FBD2, 0x084BF81E,";
#"        0x084DB805, 0x084DD81E, 0x084DE80B, 0x084DF805, 0x084E780B,";
#"        0x084E881E, 0x08500165, 0x085020DE, 0x08503006, 0x0850581E,";
#"        0x08507806, 0x0850A0BE, 0x0850C0BE, 0x0851A805, 0x0851B81E,";
#"        0x0851D006, 0x0851FBC6, 0x0852400B, 0x0852781E, 0x0852C012,";
#"        0x0852F81E, 0x0853E005, 0x0853F972, 0x0854E005, 0x0854F80B,";
#"        0x0855F81E, 0x085640B6, 0x08572005, 0x08573006, 0x0857501E,";
#"        0x0857780B, 0x0857B012, 0x0857F81E, 0x0859A805, 0x0859C01E,";
#"        0x0859F812, 0x085AA805, 0x085AB81E, 0x085AF80B, 0x085B9005,";
#"        0x085BB81E, 0x085BF80B, 0x085C8805, 0x085CC01E, 0x085CE012,";
#"        0x085D401E, 0x085D780B, 0x085FF81E, 0x08624005, 0x0863F81E,";
#"        0x08659001, 0x0865F81E, 0x08679002, 0x0867C81E, 0x0867F80B,";
#"        0x08691805, 0x08693806, 0x0869781E, 0x0869C809, 0x0869F81E,";
#"        0x086A4809, 0x086A70A4, 0x086A7805, 0x086B2801, 0x086B401E,";
#"        0x086B70CD, 0x086B7804, 0x086C2802, 0x086C681E, 0x086C7813,";
#"        0x0872F81E, 0x0873F97E, 0x087550BE, 0x087568CD, 0x0875781E,";
#"        0x08758805, 0x0876081E, 0x08762005, 0x0877D81E, 0x0877F806,";
#"        0x0878E005, 0x08793965, 0x0879781E, 0x087A2805, 0x087A8006,";
#"        0x087AA00B, 0x087AC812, 0x087B781E, 0x087C0805, 0x087C2806,";
#"        0x087C4812, 0x087D781E, 0x087E2005, 0x087E580B, 0x087EF81E,";
#"        0x087FB005, 0x088003C7, 0x088010C7, 0x0881B805, 0x08823006,";
#"        0x08826812, 0x0882881E, 0x0883280B, 0x08838126, 0x08839005,";
#"        0x0883A8C5, 0x0883F01E, 0x088410C7, 0x08857805, 0x08859007,";
#"        0x0885B006, 0x0885C007, 0x0885D006, 0x0885EA5B, 0x08861246,";
#"        0x08866BDB, 0x0886781E, 0x08874005, 0x0887781E, 0x0887C809,";
#"        0x0887F81E, 0x08881006, 0x08893005, 0x088960C7, 0x0889A8DE,";
#"        0x0889F809, 0x088A2245, 0x088A38E5, 0x088A781E, 0x088B98A6,";
#"        0x088BB245, 0x088BF81E, 0x088C10C7, 0x088D9005, 0x088DA807,";
#"        0x088DF006, 0x088E0007, 0x088E2005, 0x088E4012, 0x088E68D2,";
#"        0x088E78E6, 0x088ED125, 0x088EE245, 0x088F025E, 0x088FA00B,";
#"        0x088FF81E, 0x089090BE, 0x08915805, 0x08917007, 0x08918806,";
#"        0x0891A0E6, 0x0891A807, 0x0891B806, 0x0891F246, 0x089208A6,";
#"        0x0893F81E, 0x089438BE, 0x089448BE, 0x089470BE, 0x0894F0BE,";
#"        0x089548B2, 0x0895781E, 0x0896F8A6, 0x08971007, 0x08975006,";
#"        0x0897781E, 0x0897C809, 0x0897F81E, 0x08980806, 0x089820FE,";
#"        0x08986005, 0x0898701E, 0x08988005, 0x0898901E, 0x089948BE,";
#"        0x089988BE, 0x0899A0BE, 0x0899D0BE, 0x0899E8C5, 0x089A00E6,";
#"        0x089A2007, 0x089A301E, 0x089A4007, 0x089A501E, 0x089A6807,";
#"        0x089A83C5, 0x089ABBC7, 0x089AE01E, 0x089B0805, 0x089B1807,";
#"        0x089B281E, 0x089B6006, 0x089B781E, 0x089BA006, 0x089BF81E,";
#"        0x089C50BE, 0x089C5805, 0x089C73C5, 0x089C781E, 0x089DB0BE,";
#"        0x089DB805, 0x089DD007, 0x089E08DE, 0x089E1007, 0x089E2BC7,";
#"        0x089E301E, 0x089E58FE, 0x089E70E6, 0x089E80E6, 0x089E90A6,";
#"        0x089E9805, 0x089EB25E, 0x089EC012, 0x089F001E, 0x089F1006,";
#"        0x089FF81E, 0x08A1A005, 0x08A1B807, 0x08A1F806, 0x08A20807,";
#"        0x08A228C7, 0x08A23006, 0x08A25005, 0x08A27812, 0x08A2C809,";
#"        0x08A2E25E, 0x08A2F246, 0x08A30805, 0x08A3F81E, 0x08A57805,";
#"        0x08A59007, 0x08A5C8C7, 0x08A5D006, 0x08A5F007, 0x08A608C7,";
#"        0x08A61806, 0x08A630B2, 0x08A63805, 0x08A6781E, 0x08A6C809,";
#"        0x08ABF81E, 0x08AD7005, 0x08AD8807, 0x08ADA806, 0x08ADB81E,";
#"        0x08ADD807, 0x08ADF0C7, 0x08AE0006, 0x08AEB812, 0x08AED805,";
#"        0x08AEE806, 0x08AFF81E, 0x08B17805, 0x08B19007, 0x08B1D006,";
#"        0x08B1E8E6, 0x08B1F007, 0x08B20006, 0x08B22245, 0x08B2781E,";
#"        0x08B2C809, 0x08B2F81E, 0x08B36012, 0x08B3F81E, 0x08B558A6,";
#"        0x08B568E6, 0x08B57807, 0x08B5B0C7, 0x08B5C0C5, 0x08B5C812,";
#"        0x08B5F81E, 0x08B64809, 0x08B6781E, 0x08B71809, 0x08B7F81E,";
#"        0x08B8D005, 0x08B8EBC6, 0x08B8F8E6, 0x08B90807, 0x08B930C7,";
#"        0x08B95806, 0x08B9781E, 0x08B9C809, 0x08B9D80B, 0x08B9FA56,";
#"        0x08BA3005, 0x08BFF81E, 0x08C15805, 0x08C17007, 0x08C1C0C7,";
#"        0x08C1D8D2, 0x08C4F81E, 0x08C5F801, 0x08C6F802, 0x08C74809,";
#"        0x08C7900B, 0x08C7F01E, 0x08C83005, 0x08C84BC5, 0x08C8581E,";
#"        0x08C8A0BE, 0x08C8B8BE, 0x08C97805, 0x08C9B0FE, 0x08C9C007,";
#"        0x08C9D01E, 0x08C9E8C7, 0x08C9F8C5, 0x08CA08E5, 0x08CA18E6,";
#"        0x08CA3012, 0x08CA781E, 0x08CAC809, 0x08CCF81E, 0x08CD3805,";
#"        0x08CD481E, 0x08CE8005, 0x08CE9807, 0x08CEB806, 0x08CEC81E,";
#"        0x08CED806, 0x08CF00E6, 0x08CF10B2, 0x08CF20A7, 0x08D003C5,";
#"        0x08D05006, 0x08D19005, 0x08D1C8C7, 0x08D1D005, 0x08D1F006,";
#"        0x08D23A46, 0x08D283C5, 0x08D2B006, 0x08D2C007, 0x08D2D806,";
#"        0x08D44805, 0x08D4B8C7, 0x08D4C806, 0x08D4EA45, 0x08D51012,";
#"        0x08D5781E, 0x08D7C005, 0x08D7F81E, 0x08D84812, 0x08DDF81E,";
#"        0x08DF08B2, 0x08DF781E, 0x08DFC809, 0x08DFF81E, 0x08E048BE,";
#"        0x08E178A7, 0x08E1B8DE, 0x08E1F0C7, 0x08E200C5, 0x08E22812,";
#"        0x08E2781E, 0x08E2C809, 0x08E3600B, 0x08E3781E, 0x08E38812,";
#"        0x08E47805, 0x08E4881E, 0x08E540DE, 0x08E54807, 0x08E588C7,";
#"        0x08E5A0C7, 0x08E5B006, 0x08E7F81E, 0x08E838BE, 0x08E850BE,";
#"        0x08E98005, 0x08E9B006, 0x08E9D3C6, 0x08E9D81E, 0x08E9F0DE,";
#"        0x08EA30C5, 0x08EA3806, 0x08EA781E, 0x08EAC809, 0x08EAF81E,";
#"        0x08EB30BE, 0x08EB48BE, 0x08EC4805, 0x08EC78FE, 0x08EC90DE,";
#"        0x08ECA8E6, 0x08ECB8E6, 0x08ECC005, 0x08ECF81E, 0x08ED4809,";
#"        0x08F6F81E, 0x08F79005, 0x08F7A006, 0x08F7B007, 0x08F7C012,";
#"        0x08F7F81E, 0x08F810C5, 0x08F81807, 0x08F888BE, 0x08F99805,";
#"        0x08F9A807, 0x08F9D006, 0x08F9E81E, 0x08FA00E6, 0x08FA10E6,";
#"        0x08FA7812, 0x08FAD126, 0x08FD83C5, 0x08FDF81E, 0x08FEA00B,";
#"        0x08FEE016, 0x08FF0014, 0x08FF8816, 0x08FFFBD2, 0x091CC805,";
#"        0x091FF81E, 0x0923795E, 0x0923A012, 0x0923F81E, 0x092A1805,";
#"        0x097C781E, 0x097F8005, 0x097F9012, 0x097FF81E, 0x09A17805,";
#"        0x09A20366, 0x09A23005, 0x09A2A806, 0x09A2F81E, 0x0A1FD005,";
#"        0x0A1FF81E, 0x0A323005, 0x0B07F81E, 0x0B08E805, 0x0B094806,";
#"        0x0B096007, 0x0B097806, 0x0B09C809, 0x0B3FF81E, 0x0B51C005,";
#"        0x0B51F81E, 0x0B52F8BE, 0x0B534809, 0x0B53681E, 0x0B537812,";
#"        0x0B55F8BE, 0x0B564809, 0x0B56781E, 0x0B576805, 0x0B57781E,";
#"        0x0B57A8D2, 0x0B57F81E, 0x0B597805, 0x0B59B006, 0x0B59D812,";
#"        0x0B59F816, 0x0B5A2092, 0x0B5A2816, 0x0B5A781E, 0x0B5AD13E,";
#"        0x0B5B117E, 0x0B5BB805, 0x0B5BE01E, 0x0B5C7805, 0x0B69F81E,";
#"        0x0B6A1004, 0x0B6B5005, 0x0B6B6004, 0x0B6B7812, 0x0B6BC809,";
#"        0x0B71F81E, 0x0B72F801, 0x0B73F802, 0x0B74B00B, 0x0B74D012,";
#"        0x0B77F81E, 0x0B7A5005, 0x0B7A7BC6, 0x0B7A8005, 0x0B7C3807,";
#"        0x0B7C701E, 0x0B7C9006, 0x0B7CF804, 0x0B7EF81E, 0x0B7F1092,";
#"        0x0B7F2086, 0x0B7F781E, 0x0B7F8807, 0x0B8003C5, 0x0C3FBBC5,";
#"        0x0C3FF81E, 0x0C66A805, 0x0C67F01E, 0x0C680005, 0x0C6843C5,";
#"        0x0D7F781E, 0x0D7FA09E, 0x0D7FE09E, 0x0D7FF89E, 0x0D891005,";
#"        0x0D8993C5, 0x0D8A781E, 0x0D8A9005, 0x0D8AABC5, 0x0D8B181E,";
#"        0x0D8B3805, 0x0D8B781E, 0x0D97D805, 0x0DDFF81E, 0x0DE35005,";
#"        0x0DE3781E, 0x0DE3E005, 0x0DE3F81E, 0x0DE44005, 0x0DE4781E,";
#"        0x0DE4C805, 0x0DE4E3D6, 0x0DE4F8D2, 0x0DE5181B, 0x0E5FF81E,";
#"        0x0E677816, 0x0E67C809, 0x0E67F81E, 0x0E759816, 0x0E77F81E,";
#"        0x0E796806, 0x0E79781E, 0x0E7A3006, 0x0E7A781E, 0x0E7E1816,";
#"        0x0E7FF81E, 0x0E87A816, 0x0E87F81E, 0x0E893016, 0x0E89401E,";
#"        0x0E8B2016, 0x0E8B3007, 0x0E8B4806, 0x0E8B6016, 0x0E8B9007,";
#"        0x0E8BD01B, 0x0E8C1006, 0x0E8C2016, 0x0E8C5806, 0x0E8D4816,";
#"        0x0E8D6806, 0x0E8F5016, 0x0E8FF81E, 0x0E920816, 0x0E9228D6,";
#"        0x0E95F81E, 0x0E96980B, 0x0E96F81E, 0x0E97980B, 0x0E97F81E,";
#"        0x0E9AB016, 0x0E9AF81E, 0x0E9BC00B, 0x0E9FF81E, 0x0EA0C801,";
#"        0x0EA19802, 0x0EA26801, 0x0EA2A85E, 0x0EA33802, 0x0EA40801,";
#"        0x0EA4E041, 0x0EA4E81E, 0x0EA4F801, 0x0EA513C1, 0x0EA5201E,";
#"        0x0EA53001, 0x0EA5401E, 0x0EA5683E, 0x0EA5A801, 0x0EA5D05E,";
#"        0x0EA5E05E, 0x0EA6205E, 0x0EA67802, 0x0EA74801, 0x0EA81802,";
#"        0x0EA8303E, 0x0EA85001, 0x0EA8601E, 0x0EA8A83E, 0x0EA8E83E,";
#"        0x0EA9B802, 0x0EA9D03E, 0x0EA9F83E, 0x0EAA283E, 0x0EAA3001,";
#"        0x0EAA481E, 0x0EAA883E, 0x0EAB5802, 0x0EAC2801, 0x0EACF802,";
#"        0x0EADC801, 0x0EAE9802, 0x0EAF6801, 0x0EB03802, 0x0EB10801,";
#"        0x0EB1D802, 0x0EB2A801, 0x0EB37802, 0x0EB44801, 0x0EB52802,";
#"        0x0EB5381E, 0x0EB60833, 0x0EB6D853, 0x0EB70802, 0x0EB7D833,";
#"        0x0EB8A853, 0x0EB8D802, 0x0EB9A833, 0x0EBA7853, 0x0EBAA802,";
#"        0x0EBB7833, 0x0EBC4853, 0x0EBC7802, 0x0EBD4833, 0x0EBE1853,";
#"        0x0EBE4802, 0x0EBE5C02, 0x0EBE681E, 0x0EBFF809, 0x0ECFF816,";
#"        0x0ED1B006, 0x0ED1D016, 0x0ED36006, 0x0ED3AAC6, 0x0ED422C6,";
#"        0x0ED43016, 0x0ED45812, 0x0ED4D01E, 0x0ED500DE, 0x0ED57806,";
#"        0x0EF7F81E, 0x0EF85045, 0x0EF8F002, 0x0EF9201E, 0x0EF95002,";
#"        0x0EFFF81E, 0x0F0038DE, 0x0F00C006, 0x0F00D01E, 0x0F0110DE,";
#"        0x0F0128DE, 0x0F015006, 0x0F01781E, 0x0F036804, 0x0F047BC6,";
#"        0x0F07F81E, 0x0F096005, 0x0F09781E, 0x0F09B006, 0x0F09E804,";
#"        0x0F09F81E, 0x0F0A4809, 0x0F0A73C5, 0x0F0A7816, 0x0F14781E,";
#"        0x0F1570A6, 0x0F15F81E, 0x0F175805, 0x0F177806, 0x0F17C809,";
#"        0x0F17FBD4, 0x0F26781E, 0x0F2758A4, 0x0F277806, 0x0F27C809,";
#"        0x0F2E781E, 0x0F2F6805, 0x0F2F80C5, 0x0F2FD009, 0x0F2FFBD2,";
#"        0x0F3EF81E, 0x0F3F38BE, 0x0F3F60BE, 0x0F3F78BE, 0x0F3FF8BE,";
#"        0x0F462005, 0x0F46301E, 0x0F46780B, 0x0F46B006, 0x0F47F81E,";
#"        0x0F490801, 0x0F4A1802, 0x0F4A58C4, 0x0F4A781E, 0x0F4AC809,";
#"        0x0F4AE81E, 0x0F4AF812, 0x0F63801E, 0x0F656176, 0x0F658174,";
#"        0x0F65A00B, 0x0F68001E, 0x0F697176, 0x0F69E80B, 0x0F6FF81E,";
#"        0x0F7020BE, 0x0F7100BE, 0x0F7118BE, 0x0F712005, 0x0F713BC5,";
#"        0x0F71401E, 0x0F7198BE, 0x0F71C0BE, 0x0F71D0BE, 0x0F71D805,";
#"        0x0F7213C5, 0x0F723BC5, 0x0F724BC5, 0x0F725BC5, 0x0F72601E,";
#"        0x0F7280BE, 0x0F7298BE, 0x0F72A005, 0x0F72BBC5, 0x0F72CBC5,";
#"        0x0F72DBC5, 0x0F72EBC5, 0x0F72FBC5, 0x0F73001E, 0x0F7318BE,";
#"        0x0F732005, 0x0F73301E, 0x0F7358BE, 0x0F7398BE, 0x0F73C0BE,";
#"        0x0F73E8BE, 0x0F73F8BE, 0x0F7450BE, 0x0F74D805, 0x0F75001E,";
#"        0x0F7520BE, 0x0F7550BE, 0x0F75D805, 0x0F77781E, 0x0F778813,";
#"        0x0F7FF81E, 0x0F815816, 0x0F81781E, 0x0F849816, 0x0F84F81E,";
#"        0x0F857016, 0x0F85801E, 0x0F8602DE, 0x0F8682DE, 0x0F87A816,";
#"        0x0F87F81E, 0x0F88600B, 0x0F8D6816, 0x0F8F281E, 0x0F901016,";
#"        0x0F90781E, 0x0F91D816, 0x0F91F81E, 0x0F924016, 0x0F92781E,";
#"        0x0F928816, 0x0F92F81E, 0x0F932816, 0x0F97F81E, 0x0F9FD016,";
#"        0x0F9FF815, 0x0FB6B816, 0x0FB6D81E, 0x0FB76016, 0x0FB7781E,";
#"        0x0FB7E016, 0x0FB7F81E, 0x0FBBB016, 0x0FBBD01E, 0x0FBEC816,";
#"        0x0FBEF81E, 0x0FBF5816, 0x0FBF83D6, 0x0FBFF81E, 0x0FC05816,";
#"        0x0FC0781E, 0x0FC23816, 0x0FC2781E, 0x0FC2C816, 0x0FC2F81E,";
#"        0x0FC43816, 0x0FC4781E, 0x0FC56816, 0x0FC5781E, 0x0FC5D816,";
#"        0x0FC5F81E, 0x0FC60816, 0x0FC7F81E, 0x0FD29816, 0x0FD2F81E,";
#"        0x0FD36816, 0x0FD3781E, 0x0FD3E016, 0x0FD3F81E, 0x0FD44816,";
#"        0x0FD4701E, 0x0FD63016, 0x0FD6681E, 0x0FD6E016, 0x0FD6F01E,";
#"        0x0FD74816, 0x0FD7781E, 0x0FD7C016, 0x0FD7F81E, 0x0FDC9ADE,";
#"        0x0FDF7816, 0x0FDFC809, 0x100003C5, 0x1536FBC5, 0x153803C5,";
#"        0x15B9CBC5, 0x15B9F81E, 0x15C0E805, 0x15C103C5, 0x16750BC5,";
#"        0x167583C5, 0x175F03C5, 0x175F83C5, 0x1772EBC5, 0x17BFF81E,";
#"        0x17D0E805, 0x180003C5, 0x189A53C5, 0x189A83C5, 0x191D7BC5,";
#"        0x70000BDB, 0x7000F81E, 0x7003F81B, 0x7007F81E, 0x700F7806,";
#"        0x77FFF81E, 0x7FFFE81D, 0x7FFFF81E, 0x87FFE81D";
#"    };";
#"}";
#""].
(** src/Ystring/LowerCaseTables.hpp, the whole file *)
Definition LOWER_CASE_HEADER : str := lines_of [
#"//****************************************************************************";
#"// Copyright © 2025 Jan Erik Breimo. All rights reserved.";
#"// Created by Jan Erik Breimo on 2025-01-01.";
#"//";
#"// This file is distributed under the Zero-Clause BSD License.";
#"// License text is included with the source distribution.";
#"//****************************************************************************";
#"#pragma once";
#"";
#"#include ""CharMappingTypes.hpp""";
#"";
#"namespace ystring";
#"{";
#"    constexpr CompactCharMapping COMPACT_LOWER_CASE[] =";
#"    {";
#"        {0x000040, 0x00000020, 0x07FFFFFE, 0xF8000001},";
#"        {0x0000C0, 0x00000020, 0x7F7FFFFF, 0x80800000},";
#"        {0x000100, 0x00000001, 0x55555555, 0xAAAAAAAA},";
#"        {0x000120, 0x00000001, 0xAA545555, 0x55AAAAAA},";
#"        {0x000140, 0x00000001, 0x555554AA, 0xAAAAAB55},";
#"        {0x000160, 0x00000001, 0x2A555555, 0xD4AAAAAA},";
#"        {0x000180, 0x00000001, 0x01020894, 0x4E243129},";
#"        {0x0001A0, 0x00000001, 0x11289095, 0xEE512D2A},";
#"        {0x0001C0, 0x00000001, 0x4AAAA920, 0xB555524F},";
#"        {0x0001E0, 0x00000001, 0x55145555, 0xAA29AAAA},";
#"        {0x000200, 0x00000001, 0x55555555, 0xAAAAAAAA},";
#"        {0x000220, 0x00000001, 0x08055554, 0x93FAAAAA},";
#"        {0x000240, 0x00000001, 0x00005542, 0xFFFFAA85},";
#"        {0x000360, 0x00000001, 0x00450000, 0x7FBAFFFF},";
#"        {0x000380, 0x00000020, 0xFFFE0000, 0x000128BF},";
#"        {0x0003A0, 0x00000020, 0x00000FFB, 0xFFFFF004},";
#"        {0x0003C0, 0x00000001, 0x55000000, 0xAAFF7FFF},";
#"        {0x0003E0, 0x00000001, 0x04805555, 0x196FAAAA},";
#"        {0x000400, 0x00000050, 0x0000FFFF, 0x00000000},";
#"        {0x000420, 0x00000020, 0x0000FFFF, 0xFFFF0000},";
#"        {0x000460, 0x00000001, 0x55555555, 0xAAAAAAAA},";
#"        {0x000480, 0x00000001, 0x55555401, 0xAAAAABFE},";
#"        {0x0004A0, 0x00000001, 0x55555555, 0xAAAAAAAA},";
#"        {0x0004C0, 0x00000001, 0x55552AAA, 0xAAAAD554},";
#"        {0x0004E0, 0x00000001, 0x55555555, 0xAAAAAAAA},";
#"        {0x000500, 0x00000001, 0x55555555, 0xAAAAAAAA},";
#"        {0x000520, 0x00000030, 0xFFFE0000, 0x0001AAAA},";
#"        {0x000540, 0x00000030, 0x007FFFFF, 0xFF800000},";
#"        {0x0010A0, 0x00001C60, 0xFFFFFFFF, 0x00000000},";
#"        {0x0010C0, 0x00001C60, 0x000020BF, 0xFFFFDF40},";
#"        {0x0013A0, 0x000097D0, 0xFFFFFFFF, 0x00000000},";
#"        {0x0013C0, 0x000097D0, 0xFFFFFFFF, 0x00000000},";
#"        {0x0013E0, 0x000097D0, 0x0000FFFF, 0xFFC00000},";
#"        {0x001C80, 0xFFFFF440, 0xFFFF0000, 0x0000FDFF},";
#"        {0x001CA0, 0xFFFFF440, 0xE7FFFFFF, 0x18000000},";
#"        {0x001E00, 0x00000001, 0x55555555, 0xAAAAAAAA},";
#"        {0x001E20, 0x00000001, 0x55555555, 0xAAAAAAAA},";
#"        {0x001E40, 0x00000001, 0x55555555, 0xAAAAAAAA},";
#"        {0x001E60, 0x00000001, 0x55555555, 0xAAAAAAAA},";
#"        {0x001E80, 0x00000001, 0x00155555, 0xBFEAAAAA},";
#"        {0x001EA0, 0x00000001, 0x55555555, 0xAAAAAAAA},";
#"        {0x001EC0, 0x00000001, 0x55555555, 0xAAAAAAAA},";
#"        {0x001EE0, 0x00000001, 0x55555555, 0xAAAAAAAA},";
#"        {0x001F00, 0xFFFFFFF8, 0x3F00FF00, 0xC0FF00FF},";
#"        {0x001F20, 0xFFFFFFF8, 0xFF00FF00, 0x00FF00FF},";
#"        {0x001F40, 0xFFFFFFF8, 0xAA003F00, 0x55FFC0FF},";
#"        {0x001F60, 0xFFFFFFF8, 0x0000FF00, 0xFFFF00FF},";
#"        {0x001F80, 0xFFFFFFF8, 0xFF00FF00, 0x00FF00FF},";
#"        {0x001FA0, 0xFFFFFFF8, 0x0300FF00, 0xE0FF00FF},";
#"        {0x001FC0, 0xFFFFFFAA, 0x00000F00, 0xF0FFE0FF},";
#"        {0x002160, 0x00000010, 0x0000FFFF, 0xFFFF0000},";
#"        {0x0024A0, 0x0000001A, 0xFFC00000, 0x003FFFFF},";
#"        {0x0024C0, 0x0000001A, 0x0000FFFF, 0xFFFF0000},";
#"        {0x002C00, 0x00000030, 0xFFFFFFFF, 0x00000000},";
#"        {0x002C20, 0x00000030, 0x0000FFFF, 0xFFFF0000},";
#"        {0x002C60, 0x00000001, 0x00240A81, 0x3FDA1562},";
#"        {0x002C80, 0x00000001, 0x55555555, 0xAAAAAAAA},";
#"        {0x002CA0, 0x00000001, 0x55555555, 0xAAAAAAAA},";
#"        {0x002CC0, 0x00000001, 0x55555555, 0xAAAAAAAA},";
#"        {0x002CE0, 0x00000001, 0x00042805, 0xFFFBD7FA},";
#"        {0x00A640, 0x00000001, 0x55555555, 0xAAAAAAAA},";
#"        {0x00A660, 0x00000001, 0x00001555, 0xFFFFEAAA},";
#"        {0x00A680, 0x00000001, 0x05555555, 0xFAAAAAAA},";
#"        {0x00A720, 0x00000001, 0x55545554, 0xAAABAAAB},";
#"        {0x00A740, 0x00000001, 0x55555555, 0xAAAAAAAA},";
#"        {0x00A760, 0x00000001, 0x4A005555, 0x95FFAAAA},";
#"        {0x00A780, 0x00000001, 0x55450855, 0xAABAD7AA},";
#"        {0x00A7A0, 0x00000001, 0x55500155, 0xAAA082AA},";
#"        {0x00A7C0, 0x00000001, 0x05411285, 0xEABEE50A},";
#"        {0x00FF20, 0x00000020, 0x07FFFFFE, 0xF8000001},";
#"        {0x010400, 0x00000028, 0xFFFFFFFF, 0x00000000},";
#"        {0x010420, 0x00000028, 0x000000FF, 0xFFFFFF00},";
#"        {0x0104A0, 0x00000028, 0xFFFF0000, 0x0000FFFF},";
#"        {0x0104C0, 0x00000028, 0x000FFFFF, 0xFFF00000},";
#"        {0x010560, 0x00000027, 0xF7FF0000, 0x0800FFFF},";
#"        {0x010580, 0x00000027, 0x0037F7FF, 0xFFC80800},";
#"        {0x010C80, 0x00000040, 0xFFFFFFFF, 0x00000000},";
#"        {0x010CA0, 0x00000040, 0x0007FFFF, 0xFFF80000},";
#"        {0x010D40, 0x00000020, 0xFFFF0000, 0x0000FFFF},";
#"        {0x010D60, 0x00000020, 0x0000003F, 0xFFFFFFC0},";
#"        {0x0118A0, 0x00000020, 0xFFFFFFFF, 0x00000000},";
#"        {0x016E40, 0x00000020, 0xFFFFFFFF, 0x00000000},";
#"        {0x01E900, 0x00000022, 0xFFFFFFFF, 0x00000000},";
#"    };";
#"";
#"    constexpr CharMapping LOWER_CASE[] =";
#"    {";
#"        {0x000130, 0x000069},";
#"        {0x000178, 0x0000FF},";
#"        {0x000181, 0x000253},";
#"        {0x000186, 0x000254},";
#"        {0x000189, 0x000256},";
#"        {0x00018A, 0x000257},";
#"        {0x00018E, 0x0001DD},";
#"        {0x00018F, 0x000259},";
#"        {0x000190, 0x00025B},";
#"        {0x000193, 0x000260},";
#"        {0x000194, 0x000263},";
#"        {0x000196, 0x000269},";
#"        {0x000197, 0x000268},";
#"        {0x00019C, 0x00026F},";
#"        {0x00019D, 0x000272},";
#"        {0x00019F, 0x000275},";
#"        {0x0001A6, 0x000280},";
#"        {0x0001A9, 0x000283},";
#"        {0x0001AE, 0x000288},";
#"        {0x0001B1, 0x00028A},";
#"        {0x0001B2, 0x00028B},";
#"        {0x0001B7, 0x000292},";
#"        {0x0001C4, 0x0001C6},";
#"        {0x0001C7, 0x0001C9},";
#"        {0x0001CA, 0x0001CC},";
#"        {0x0001F1, 0x0001F3},";
#"        {0x0001F6, 0x000195},";
#"        {0x0001F7, 0x0001BF},";
#"        {0x000220, 0x00019E},";
#"        {0x00023A, 0x002C65},";
#"        {0x00023D, 0x00019A},";
#"        {0x00023E, 0x002C66},";
#"        {0x000243, 0x000180},";
#"        {0x000244, 0x000289},";
#"        {0x000245, 0x00028C},";
#"        {0x00037F, 0x0003F3},";
#"        {0x000386, 0x0003AC},";
#"        {0x000388, 0x0003AD},";
#"        {0x000389, 0x0003AE},";
#"        {0x00038A, 0x0003AF},";
#"        {0x00038C, 0x0003CC},";
#"        {0x00038E, 0x0003CD},";
#"        {0x00038F, 0x0003CE},";
#"        {0x0003CF, 0x0003D7},";
#"        {0x0003F4, 0x0003B8},";
#"        {0x0003F9, 0x0003F2},";
#"        {0x0003FD, 0x00037B},";
#"        {0x0003FE, 0x00037C},";
#"        {0x0003FF, 0x00037D},";
#"        {0x000410, 0x000430},";
#"        {0x000411, 0x000431},";
#"        {0x000412, 0x000432},";
#"        {0x000413, 0x000433},";
#"        {0x000414, 0x000434},";
#"        {0x000415, 0x000435},";
#"        {0x000416, 0x000436},";
#"        {0x000417, 0x000437},";
#"        {0x000418, 0x000438},";
#"        {0x000419, 0x000439},";
#"        {0x00041A, 0x00043A},";
#"        {0x00041B, 0x00043B},";
#"        {0x00041C, 0x00043C},";
#"        {0x00041D, 0x00043D},";
#"        {0x00041E, 0x00043E},";
#"        {0x00041F, 0x00043F},";
#"        {0x0004C0, 0x0004CF},";
#"        {0x000520, 0x000521},";
#"        {0x000522, 0x000523},";
#"        {0x000524, 0x000525},";
#"        {0x000526, 0x000527},";
#"        {0x000528, 0x000529},";
#"        {0x00052A, 0x00052B},";
#"        {0x00052C, 0x00052D},";
#"        {0x00052E, 0x00052F},";
#"        {0x0013F0, 0x0013F8},";
#"        {0x0013F1, 0x0013F9},";
#"        {0x0013F2, 0x0013FA},";
#"        {0x0013F3, 0x0013FB},";
#"        {0x0013F4, 0x0013FC},";
#"        {0x0013F5, 0x0013FD},";
#"        {0x001C89, 0x001C8A},";
#"        {0x001E9E, 0x0000DF},";
#"        {0x001FBA, 0x001F70},";
#"        {0x001FBB, 0x001F71},";
#"        {0x001FBC, 0x001FB3},";
#"        {0x001FCC, 0x001FC3},";
#"        {0x001FD8, 0x001FD0},";
#"        {0x001FD9, 0x001FD1},";
#"        {0x001FDA, 0x001F76},";
#"        {0x001FDB, 0x001F77},";
#"        {0x001FE8, 0x001FE0},";
#"        {0x001FE9, 0x001FE1},";
#"        {0x001FEA, 0x001F7A},";
#"        {0x001FEB, 0x001F7B},";
#"        {0x001FEC, 0x001FE5},";
#"        {0x001FF8, 0x001F78},";
#"        {0x001FF9, 0x001F79},";
#"        {0x001FFA, 0x001F7C},";
#"        {0x001FFB, 0x001F7D},";
#"        {0x001FFC, 0x001FF3},";
#"        {0x002126, 0x0003C9},";
#"        {0x00212A, 0x00006B},";
#"        {0x00212B, 0x0000E5},";
#"        {0x002132, 0x00214E},";
#"        {0x002183, 0x002184},";
#"        {0x002C62, 0x00026B},";
#"        {0x002C63, 0x001D7D},";
#"        {0x002C64, 0x00027D},";
#"        {0x002C6D, 0x000251},";
#"        {0x002C6E, 0x000271},";
#"        {0x002C6F, 0x000250},";
#"        {0x002C70, 0x000252},";
#"        {0x002C7E, 0x00023F},";
#"        {0x002C7F, 0x000240},";
#"        {0x00A77D, 0x001D79},";
#"        {0x00A78D, 0x000265},";
#"        {0x00A7AA, 0x000266},";
#"        {0x00A7AB, 0x00025C},";
#"        {0x00A7AC, 0x000261},";
#"        {0x00A7AD, 0x00026C},";
#"        {0x00A7AE, 0x00026A},";
#"        {0x00A7B0, 0x00029E},";
#"        {0x00A7B1, 0x000287},";
#"        {0x00A7B2, 0x00029D},";
#"        {0x00A7B3, 0x00AB53},";
#"        {0x00A7C4, 0x00A794},";
#"        {0x00A7C5, 0x000282},";
#"        {0x00A7C6, 0x001D8E},";
#"        {0x00A7CB, 0x000264},";
#"        {0x00A7DC, 0x00019B},";
#"        {0x00A7F5, 0x00A7F6},";
#"        {0x01E920, 0x01E942},";
#"        {0x01E921, 0x01E943},";
#"    };";
#"}";
#""].
(** src/Ystring/TitleCaseTables.hpp, the whole file *)
Definition TITLE_CASE_HEADER : str := lines_of [
#"//****************************************************************************";
#"// Copyright © 2025 Jan Erik Breimo. All rights reserved.";
#"// Created by Jan Erik Breimo on 2025-01-01.";
#"//";
#"// This file is distributed under the Zero-Clause BSD License.";
#"// License text is included with the source distribution.";
#"//****************************************************************************";
#"#pragma once";
#"";
#"#include ""CharMappingTypes.hpp""";
#"";
#"namespace ystring";
#"{";
#"    constexpr CompactCharMapping COMPACT_TITLE_CASE[] =";
#"    {";
#"        {0x000060, 0xFFFFFFE0, 0x07FFFFFE, 0xF8000001},";
#"        {0x0000E0, 0xFFFFFFE0, 0x7F7FFFFF, 0x00800000},";
#"        {0x000100, 0xFFFFFFFF, 0xAAAAAAAA, 0x55555555},";
#"        {0x000120, 0xFFFFFFFF, 0x54A8AAAA, 0xAB555555},";
#"        {0x000140, 0xFFFFFFFF, 0xAAAAA955, 0x555556AA},";
#"        {0x000160, 0xFFFFFFFF, 0x54AAAAAA, 0x2B555555},";
#"        {0x000180, 0xFFFFFFFF, 0x02041128, 0xB1DBEED6},";
#"        {0x0001A0, 0xFFFFFFFF, 0x2251212A, 0x5DAEDED5},";
#"        {0x0001C0, 0xFFFFFFFF, 0x95555240, 0x4AAAA00F},";
#"        {0x0001E0, 0xFFFFFFFF, 0xAA28AAAA, 0x55D15555},";
#"        {0x000200, 0xFFFFFFFF, 0xAAAAAAAA, 0x55555555},";
#"        {0x000220, 0xFFFFFFFF, 0x100AAAA8, 0x6FF55557},";
#"        {0x000240, 0xFFFFFFFF, 0x0000AA84, 0xE520557A},";
#"        {0x000280, 0xFFFFFF26, 0x00000109, 0x9FFBE072},";
#"        {0x000360, 0xFFFFFFFF, 0x008A0000, 0xC775FFFF},";
#"        {0x0003A0, 0xFFFFFFE0, 0xFFFE0000, 0x00010FFF},";
#"        {0x0003C0, 0xFFFFFFE0, 0x00000FFB, 0x551C8000},";
#"        {0x0003E0, 0xFFFFFFFF, 0x0900AAAA, 0xF6D05555},";
#"        {0x000420, 0xFFFFFFE0, 0xFFFF0000, 0x0000FFFF},";
#"        {0x000440, 0xFFFFFFE0, 0x0000FFFF, 0x00000000},";
#"        {0x000460, 0xFFFFFFFF, 0xAAAAAAAA, 0x55555555},";
#"        {0x000480, 0xFFFFFFFF, 0xAAAAA802, 0x555557FD},";
#"        {0x0004A0, 0xFFFFFFFF, 0xAAAAAAAA, 0x55555555},";
#"        {0x0004C0, 0xFFFFFFFF, 0xAAAA5554, 0x55552AAB},";
#"        {0x0004E0, 0xFFFFFFFF, 0xAAAAAAAA, 0x55555555},";
#"        {0x000500, 0xFFFFFFFF, 0xAAAAAAAA, 0x55555555},";
#"        {0x000520, 0xFFFFFFFF, 0x0000AAAA, 0xFFFF5555},";
#"        {0x000560, 0xFFFFFFD0, 0xFFFFFFFE, 0x00000001},";
#"        {0x000580, 0xFFFFFFD0, 0x0000007F, 0xFFFFFF80},";
#"        {0x0010C0, 0x00000000, 0xFFFF0000, 0x0000FFFF},";
#"        {0x0010E0, 0x00000000, 0xE7FFFFFF, 0x18000000},";
#"        {0x0013E0, 0xFFFFFFF8, 0x3F000000, 0xC0FFFFFF},";
#"        {0x001E00, 0xFFFFFFFF, 0xAAAAAAAA, 0x55555555},";
#"        {0x001E20, 0xFFFFFFFF, 0xAAAAAAAA, 0x55555555},";
#"        {0x001E40, 0xFFFFFFFF, 0xAAAAAAAA, 0x55555555},";
#"        {0x001E60, 0xFFFFFFFF, 0xAAAAAAAA, 0x55555555},";
#"        {0x001E80, 0xFFFFFFFF, 0x002AAAAA, 0xF7D55555},";
#"        {0x001EA0, 0xFFFFFFFF, 0xAAAAAAAA, 0x55555555},";
#"        {0x001EC0, 0xFFFFFFFF, 0xAAAAAAAA, 0x55555555},";
#"        {0x001EE0, 0xFFFFFFFF, 0xAAAAAAAA, 0x55555555},";
#"        {0x001F00, 0x00000008, 0x003F00FF, 0xFFC0FF00},";
#"        {0x001F20, 0x00000008, 0x00FF00FF, 0xFF00FF00},";
#"        {0x001F40, 0x00000008, 0x00AA003F, 0xFF55FFC0},";
#"        {0x001F60, 0x00000008, 0x000000FF, 0xC000FF00},";
#"        {0x001F80, 0x00000008, 0x00FF00FF, 0xFF00FF00},";
#"        {0x001FA0, 0x00000008, 0x000300FF, 0xBFF4FF00},";
#"        {0x002160, 0xFFFFFFF0, 0xFFFF0000, 0x0000FFFF},";
#"        {0x0024C0, 0xFFFFFFE6, 0xFFFF0000, 0x0000FFFF},";
#"        {0x0024E0, 0xFFFFFFE6, 0x000003FF, 0xFFFFFC00},";
#"        {0x002C20, 0xFFFFFFD0, 0xFFFF0000, 0x0000FFFF},";
#"        {0x002C40, 0xFFFFFFD0, 0xFFFFFFFF, 0x00000000},";
#"        {0x002C60, 0xFFFFFFFF, 0x00481502, 0xFFB7EA9D},";
#"        {0x002C80, 0xFFFFFFFF, 0xAAAAAAAA, 0x55555555},";
#"        {0x002CA0, 0xFFFFFFFF, 0xAAAAAAAA, 0x55555555},";
#"        {0x002CC0, 0xFFFFFFFF, 0xAAAAAAAA, 0x55555555},";
#"        {0x002CE0, 0xFFFFFFFF, 0x0008500A, 0xFFF7AFF5},";
#"        {0x002D00, 0xFFFFE3A0, 0xFFFFFFFF, 0x00000000},";
#"        {0x002D20, 0xFFFFE3A0, 0x000020BF, 0xFFFFDF40},";
#"        {0x00A640, 0xFFFFFFFF, 0xAAAAAAAA, 0x55555555},";
#"        {0x00A660, 0xFFFFFFFF, 0x00002AAA, 0xFFFFD555},";
#"        {0x00A680, 0xFFFFFFFF, 0x0AAAAAAA, 0xF5555555},";
#"        {0x00A720, 0xFFFFFFFF, 0xAAA8AAA8, 0x55575557},";
#"        {0x00A740, 0xFFFFFFFF, 0xAAAAAAAA, 0x55555555},";
#"        {0x00A760, 0xFFFFFFFF, 0x9400AAAA, 0x6BFF5555},";
#"        {0x00A780, 0xFFFFFFFF, 0xAA8A10AA, 0x5565EF55},";
#"        {0x00A7A0, 0xFFFFFFFF, 0xAAA002AA, 0x555FFD55},";
#"        {0x00A7C0, 0xFFFFFFFF, 0x0A82250A, 0xF57DDAF5},";
#"        {0x00AB60, 0xFFFF6830, 0xFFFF0000, 0x0000FFFF},";
#"        {0x00AB80, 0xFFFF6830, 0xFFFFFFFF, 0x00000000},";
#"        {0x00ABA0, 0xFFFF6830, 0xFFFFFFFF, 0x00000000},";
#"        {0x00FF40, 0xFFFFFFE0, 0x07FFFFFE, 0xF8000001},";
#"        {0x010420, 0xFFFFFFD8, 0xFFFFFF00, 0x000000FF},";
#"        {0x010440, 0xFFFFFFD8, 0x0000FFFF, 0xFFFF0000},";
#"        {0x0104C0, 0xFFFFFFD8, 0xFF000000, 0x00FFFFFF},";
#"        {0x0104E0, 0xFFFFFFD8, 0x0FFFFFFF, 0xF0000000},";
#"        {0x010580, 0xFFFFFFD9, 0xFF800000, 0x007FFFFF},";
#"        {0x0105A0, 0xFFFFFFD9, 0x1BFBFFFB, 0xE4040004},";
#"        {0x010CC0, 0xFFFFFFC0, 0xFFFFFFFF, 0x00000000},";
#"        {0x010CE0, 0xFFFFFFC0, 0x0007FFFF, 0xFFF80000},";
#"        {0x010D60, 0xFFFFFFE0, 0xFFFF0000, 0x0000FFFF},";
#"        {0x010D80, 0xFFFFFFE0, 0x0000003F, 0xFFFFFFC0},";
#"        {0x0118C0, 0xFFFFFFE0, 0xFFFFFFFF, 0x00000000},";
#"        {0x016E60, 0xFFFFFFE0, 0xFFFFFFFF, 0x00000000},";
#"        {0x01E920, 0xFFFFFFDE, 0xFFFFFFFC, 0x00000003},";
#"        {0x01E940, 0xFFFFFFDE, 0x0000000F, 0xFFFFFFF0},";
#"    };";
#"";
#"    constexpr CharMapping TITLE_CASE[] =";
#"    {";
#"        {0x0000B5, 0x00039C},";
#"        {0x0000FF, 0x000178},";
#"        {0x000131, 0x000049},";
#"        {0x00017F, 0x000053},";
#"        {0x000180, 0x000243},";
#"        {0x000195, 0x0001F6},";
#"        {0x00019A, 0x00023D},";
#"        {0x00019B, 0x00A7DC},";
#"        {0x00019E, 0x000220},";
#"        {0x0001BF, 0x0001F7},";
#"        {0x0001C4, 0x0001C5},";
#"        {0x0001C5, 0x0001C5},";
#"        {0x0001C7, 0x0001C8},";
#"        {0x0001C8, 0x0001C8},";
#"        {0x0001CA, 0x0001CB},";
#"        {0x0001CB, 0x0001CB},";
#"        {0x0001DD, 0x00018E},";
#"        {0x0001F1, 0x0001F2},";
#"        {0x0001F2, 0x0001F2},";
#"        {0x00023F, 0x002C7E},";
#"        {0x000240, 0x002C7F},";
#"        {0x000250, 0x002C6F},";
#"        {0x000251, 0x002C6D},";
#"        {0x000252, 0x002C70},";
#"        {0x000253, 0x000181},";
#"        {0x000254, 0x000186},";
#"        {0x000256, 0x000189},";
#"        {0x000257, 0x00018A},";
#"        {0x000259, 0x00018F},";
#"        {0x00025B, 0x000190},";
#"        {0x00025C, 0x00A7AB},";
#"        {0x000260, 0x000193},";
#"        {0x000261, 0x00A7AC},";
#"        {0x000263, 0x000194},";
#"        {0x000264, 0x00A7CB},";
#"        {0x000265, 0x00A78D},";
#"        {0x000266, 0x00A7AA},";
#"        {0x000268, 0x000197},";
#"        {0x000269, 0x000196},";
#"        {0x00026A, 0x00A7AE},";
#"        {0x00026B, 0x002C62},";
#"        {0x00026C, 0x00A7AD},";
#"        {0x00026F, 0x00019C},";
#"        {0x000271, 0x002C6E},";
#"        {0x000272, 0x00019D},";
#"        {0x000275, 0x00019F},";
#"        {0x00027D, 0x002C64},";
#"        {0x000282, 0x00A7C5},";
#"        {0x000287, 0x00A7B1},";
#"        {0x000289, 0x000244},";
#"        {0x00028A, 0x0001B1},";
#"        {0x00028B, 0x0001B2},";
#"        {0x00028C, 0x000245},";
#"        {0x000292, 0x0001B7},";
#"        {0x00029D, 0x00A7B2},";
#"        {0x00029E, 0x00A7B0},";
#"        {0x000345, 0x000399},";
#"        {0x00037B, 0x0003FD},";
#"        {0x00037C, 0x0003FE},";
#"        {0x00037D, 0x0003FF},";
#"        {0x0003AC, 0x000386},";
#"        {0x0003AD, 0x000388},";
#"        {0x0003AE, 0x000389},";
#"        {0x0003AF, 0x00038A},";
#"        {0x0003C2, 0x0003A3},";
#"        {0x0003CC, 0x00038C},";
#"        {0x0003CD, 0x00038E},";
#"        {0x0003CE, 0x00038F},";
#"        {0x0003D0, 0x000392},";
#"        {0x0003D1, 0x000398},";
#"        {0x0003D5, 0x0003A6},";
#"        {0x0003D6, 0x0003A0},";
#"        {0x0003D7, 0x0003CF},";
#"        {0x0003D9, 0x0003D8},";
#"        {0x0003DB, 0x0003DA},";
#"        {0x0003DD, 0x0003DC},";
#"        {0x0003DF, 0x0003DE},";
#"        {0x0003F0, 0x00039A},";
#"        {0x0003F1, 0x0003A1},";
#"        {0x0003F2, 0x0003F9},";
#"        {0x0003F3, 0x00037F},";
#"        {0x0003F5, 0x000395},";
#"        {0x000450, 0x000400},";
#"        {0x000451, 0x000401},";
#"        {0x000452, 0x000402},";
#"        {0x000453, 0x000403},";
#"        {0x000454, 0x000404},";
#"        {0x000455, 0x000405},";
#"        {0x000456, 0x000406},";
#"        {0x000457, 0x000407},";
#"        {0x000458, 0x000408},";
#"        {0x000459, 0x000409},";
#"        {0x00045A, 0x00040A},";
#"        {0x00045B, 0x00040B},";
#"        {0x00045C, 0x00040C},";
#"        {0x00045D, 0x00040D},";
#"        {0x00045E, 0x00040E},";
#"        {0x00045F, 0x00040F},";
#"        {0x0004CF, 0x0004C0},";
#"        {0x001C80, 0x000412},";
#"        {0x001C81, 0x000414},";
#"        {0x001C82, 0x00041E},";
#"        {0x001C83, 0x000421},";
#"        {0x001C84, 0x000422},";
#"        {0x001C85, 0x000422},";
#"        {0x001C86, 0x00042A},";
#"        {0x001C87, 0x000462},";
#"        {0x001C88, 0x00A64A},";
#"        {0x001C8A, 0x001C89},";
#"        {0x001D79, 0x00A77D},";
#"        {0x001D7D, 0x002C63},";
#"        {0x001D8E, 0x00A7C6},";
#"        {0x001E9B, 0x001E60},";
#"        {0x001F70, 0x001FBA},";
#"        {0x001F71, 0x001FBB},";
#"        {0x001F72, 0x001FC8},";
#"        {0x001F73, 0x001FC9},";
#"        {0x001F74, 0x001FCA},";
#"        {0x001F75, 0x001FCB},";
#"        {0x001F76, 0x001FDA},";
#"        {0x001F77, 0x001FDB},";
#"        {0x001F78, 0x001FF8},";
#"        {0x001F79, 0x001FF9},";
#"        {0x001F7A, 0x001FEA},";
#"        {0x001F7B, 0x001FEB},";
#"        {0x001F7C, 0x001FFA},";
#"        {0x001F7D, 0x001FFB},";
#"        {0x001FB3, 0x001FBC},";
#"        {0x001FBE, 0x000399},";
#"        {0x001FC3, 0x001FCC},";
#"        {0x001FD0, 0x001FD8},";
#"        {0x001FD1, 0x001FD9},";
#"        {0x001FE0, 0x001FE8},";
#"        {0x001FE1, 0x001FE9},";
#"        {0x001FE5, 0x001FEC},";
#"        {0x001FF3, 0x001FFC},";
#"        {0x00214E, 0x002132},";
#"        {0x002184, 0x002183},";
#"        {0x002C65, 0x00023A},";
#"        {0x002C66, 0x00023E},";
#"        {0x00A794, 0x00A7C4},";
#"        {0x00A7F6, 0x00A7F5},";
#"        {0x00AB53, 0x00A7B3},";
#"    };";
#"}";
#""].
(** src/Ystring/UpperCaseTables.hpp, the whole file *)
Definition UPPER_CASE_HEADER : str := lines_of [
#"//****************************************************************************";
#"// Copyright © 2025 Jan Erik Breimo. All rights reserved.";
#"// Created by Jan Erik Breimo on 2025-01-01.";
#"//";
#"// This file is distributed under the Zero-Clause BSD License.";
#"// License text is included with the source distribution.";
#"//****************************************************************************";
#"#pragma once";
#"";
#"#include ""CharMappingTypes.hpp""";
#"";
#"namespace ystring";
#"{";
#"    constexpr CompactCharMapping COMPACT_UPPER_CASE[] =";
#"    {";
#"        {0x000060, 0xFFFFFFE0, 0x07FFFFFE, 0xF8000001},";
#"        {0x0000E0, 0xFFFFFFE0, 0x7F7FFFFF, 0x00800000},";
#"        {0x000100, 0xFFFFFFFF, 0xAAAAAAAA, 0x55555555},";
#"        {0x000120, 0xFFFFFFFF, 0x54A8AAAA, 0xAB555555},";
#"        {0x000140, 0xFFFFFFFF, 0xAAAAA955, 0x555556AA},";
#"        {0x000160, 0xFFFFFFFF, 0x54AAAAAA, 0x2B555555},";
#"        {0x000180, 0xFFFFFFFF, 0x02041128, 0xB1DBEED6},";
#"        {0x0001A0, 0xFFFFFFFF, 0x2251212A, 0x5DAEDED5},";
#"        {0x0001C0, 0xFFFFFFFF, 0x95554920, 0x4AAAA49F},";
#"        {0x0001E0, 0xFFFFFFFF, 0xAA24AAAA, 0x55D35555},";
#"        {0x000200, 0xFFFFFFFF, 0xAAAAAAAA, 0x55555555},";
#"        {0x000220, 0xFFFFFFFF, 0x100AAAA8, 0x6FF55557},";
#"        {0x000240, 0xFFFFFFFF, 0x0000AA84, 0xE520557A},";
#"        {0x000280, 0xFFFFFF26, 0x00000109, 0x9FFBE072},";
#"        {0x000360, 0xFFFFFFFF, 0x008A0000, 0xC775FFFF},";
#"        {0x0003A0, 0xFFFFFFE0, 0xFFFE0000, 0x00010FFF},";
#"        {0x0003C0, 0xFFFFFFE0, 0x00000FFB, 0x551C8000},";
#"        {0x0003E0, 0xFFFFFFFF, 0x0900AAAA, 0xF6D05555},";
#"        {0x000420, 0xFFFFFFE0, 0xFFFF0000, 0x0000FFFF},";
#"        {0x000440, 0xFFFFFFE0, 0x0000FFFF, 0x00000000},";
#"        {0x000460, 0xFFFFFFFF, 0xAAAAAAAA, 0x55555555},";
#"        {0x000480, 0xFFFFFFFF, 0xAAAAA802, 0x555557FD},";
#"        {0x0004A0, 0xFFFFFFFF, 0xAAAAAAAA, 0x55555555},";
#"        {0x0004C0, 0xFFFFFFFF, 0xAAAA5554, 0x55552AAB},";
#"        {0x0004E0, 0xFFFFFFFF, 0xAAAAAAAA, 0x55555555},";
#"        {0x000500, 0xFFFFFFFF, 0xAAAAAAAA, 0x55555555},";
#"        {0x000520, 0xFFFFFFFF, 0x0000AAAA, 0xFFFF5555},";
#"        {0x000560, 0xFFFFFFD0, 0xFFFFFFFE, 0x00000001},";
#"        {0x000580, 0xFFFFFFD0, 0x0000007F, 0xFFFFFF80},";
#"        {0x0010C0, 0x00000BC0, 0xFFFF0000, 0x0000FFFF},";
#"        {0x0010E0, 0x00000BC0, 0xE7FFFFFF, 0x18000000},";
#"        {0x0013E0, 0xFFFFFFF8, 0x3F000000, 0xC0FFFFFF},";
#"        {0x001E00, 0xFFFFFFFF, 0xAAAAAAAA, 0x55555555},";
#"        {0x001E20, 0xFFFFFFFF, 0xAAAAAAAA, 0x55555555},";
#"        {0x001E40, 0xFFFFFFFF, 0xAAAAAAAA, 0x55555555},";
#"        {0x001E60, 0xFFFFFFFF, 0xAAAAAAAA, 0x55555555},";
#"        {0x001E80, 0xFFFFFFFF, 0x002AAAAA, 0xF7D55555},";
#"        {0x001EA0, 0xFFFFFFFF, 0xAAAAAAAA, 0x55555555},";
#"        {0x001EC0, 0xFFFFFFFF, 0xAAAAAAAA, 0x55555555},";
#"        {0x001EE0, 0xFFFFFFFF, 0xAAAAAAAA, 0x55555555},";
#"        {0x001F00, 0x00000008, 0x003F00FF, 0xFFC0FF00},";
#"        {0x001F20, 0x00000008, 0x00FF00FF, 0xFF00FF00},";
#"        {0x001F40, 0x00000008, 0x00AA003F, 0xFF55FFC0},";
#"        {0x001F60, 0x00000008, 0x000000FF, 0xC000FF00},";
#"        {0x001F80, 0x00000008, 0x00FF00FF, 0xFF00FF00},";
#"        {0x001FA0, 0x00000008, 0x000300FF, 0xBFF4FF00},";
#"        {0x002160, 0xFFFFFFF0, 0xFFFF0000, 0x0000FFFF},";
#"        {0x0024C0, 0xFFFFFFE6, 0xFFFF0000, 0x0000FFFF},";
#"        {0x0024E0, 0xFFFFFFE6, 0x000003FF, 0xFFFFFC00},";
#"        {0x002C20, 0xFFFFFFD0, 0xFFFF0000, 0x0000FFFF},";
#"        {0x002C40, 0xFFFFFFD0, 0xFFFFFFFF, 0x00000000},";
#"        {0x002C60, 0xFFFFFFFF, 0x00481502, 0xFFB7EA9D},";
#"        {0x002C80, 0xFFFFFFFF, 0xAAAAAAAA, 0x55555555},";
#"        {0x002CA0, 0xFFFFFFFF, 0xAAAAAAAA, 0x55555555},";
#"        {0x002CC0, 0xFFFFFFFF, 0xAAAAAAAA, 0x55555555},";
#"        {0x002CE0, 0xFFFFFFFF, 0x0008500A, 0xFFF7AFF5},";
#"        {0x002D00, 0xFFFFE3A0, 0xFFFFFFFF, 0x00000000},";
#"        {0x002D20, 0xFFFFE3A0, 0x000020BF, 0xFFFFDF40},";
#"        {0x00A640, 0xFFFFFFFF, 0xAAAAAAAA, 0x55555555},";
#"        {0x00A660, 0xFFFFFFFF, 0x00002AAA, 0xFFFFD555},";
#"        {0x00A680, 0xFFFFFFFF, 0x0AAAAAAA, 0xF5555555},";
#"        {0x00A720, 0xFFFFFFFF, 0xAAA8AAA8, 0x55575557},";
#"        {0x00A740, 0xFFFFFFFF, 0xAAAAAAAA, 0x55555555},";
#"        {0x00A760, 0xFFFFFFFF, 0x9400AAAA, 0x6BFF5555},";
#"        {0x00A780, 0xFFFFFFFF, 0xAA8A10AA, 0x5565EF55},";
#"        {0x00A7A0, 0xFFFFFFFF, 0xAAA002AA, 0x555FFD55},";
#"        {0x00A7C0, 0xFFFFFFFF, 0x0A82250A, 0xF57DDAF5},";
#"        {0x00AB60, 0xFFFF6830, 0xFFFF0000, 0x0000FFFF},";
#"        {0x00AB80, 0xFFFF6830, 0xFFFFFFFF, 0x00000000},";
#"        {0x00ABA0, 0xFFFF6830, 0xFFFFFFFF, 0x00000000},";
#"        {0x00FF40, 0xFFFFFFE0, 0x07FFFFFE, 0xF8000001},";
#"        {0x010420, 0xFFFFFFD8, 0xFFFFFF00, 0x000000FF},";
#"        {0x010440, 0xFFFFFFD8, 0x0000FFFF, 0xFFFF0000},";
#"        {0x0104C0, 0xFFFFFFD8, 0xFF000000, 0x00FFFFFF},";
#"        {0x0104E0, 0xFFFFFFD8, 0x0FFFFFFF, 0xF0000000},";
#"        {0x010580, 0xFFFFFFD9, 0xFF800000, 0x007FFFFF},";
#"        {0x0105A0, 0xFFFFFFD9, 0x1BFBFFFB, 0xE4040004},";
#"        {0x010CC0, 0xFFFFFFC0, 0xFFFFFFFF, 0x00000000},";
#"        {0x010CE0, 0xFFFFFFC0, 0x0007FFFF, 0xFFF80000},";
#"        {0x010D60, 0xFFFFFFE0, 0xFFFF0000, 0x0000FFFF},";
#"        {0x010D80, 0xFFFFFFE0, 0x0000003F, 0xFFFFFFC0},";
#"        {0x0118C0, 0xFFFFFFE0, 0xFFFFFFFF, 0x00000000},";
#"        {0x016E60, 0xFFFFFFE0, 0xFFFFFFFF, 0x00000000},";
#"        {0x01E920, 0xFFFFFFDE, 0xFFFFFFFC, 0x00000003},";
#"        {0x01E940, 0xFFFFFFDE, 0x0000000F, 0xFFFFFFF0},";
#"    };";
#"";
#"    constexpr CharMapping UPPER_CASE[] =";
#"    {";
#"        {0x0000B5, 0x00039C},";
#"        {0x0000FF, 0x000178},";
#"        {0x000131, 0x000049},";
#"        {0x00017F, 0x000053},";
#"        {0x000180, 0x000243},";
#"        {0x000195, 0x0001F6},";
#"        {0x00019A, 0x00023D},";
#"        {0x00019B, 0x00A7DC},";
#"        {0x00019E, 0x000220},";
#"        {0x0001BF, 0x0001F7},";
#"        {0x0001C6, 0x0001C4},";
#"        {0x0001C9, 0x0001C7},";
#"        {0x0001CC, 0x0001CA},";
#"        {0x0001DD, 0x00018E},";
#"        {0x0001F3, 0x0001F1},";
#"        {0x00023F, 0x002C7E},";
#"        {0x000240, 0x002C7F},";
#"        {0x000250, 0x002C6F},";
#"        {0x000251, 0x002C6D},";
#"        {0x000252, 0x002C70},";
#"        {0x000253, 0x000181},";
#"        {0x000254, 0x000186},";
#"        {0x000256, 0x000189},";
#"        {0x000257, 0x00018A},";
#"        {0x000259, 0x00018F},";
#"        {0x00025B, 0x000190},";
#"        {0x00025C, 0x00A7AB},";
#"        {0x000260, 0x000193},";
#"        {0x000261, 0x00A7AC},";
#"        {0x000263, 0x000194},";
#"        {0x000264, 0x00A7CB},";
#"        {0x000265, 0x00A78D},";
#"        {0x000266, 0x00A7AA},";
#"        {0x000268, 0x000197},";
#"        {0x000269, 0x000196},";
#"        {0x00026A, 0x00A7AE},";
#"        {0x00026B, 0x002C62},";
#"        {0x00026C, 0x00A7AD},";
#"        {0x00026F, 0x00019C},";
#"        {0x000271, 0x002C6E},";
#"        {0x000272, 0x00019D},";
#"        {0x000275, 0x00019F},";
#"        {0x00027D, 0x002C64},";
#"        {0x000282, 0x00A7C5},";
#"        {0x000287, 0x00A7B1},";
#"        {0x000289, 0x000244},";
#"        {0x00028A, 0x0001B1},";
#"        {0x00028B, 0x0001B2},";
#"        {0x00028C, 0x000245},";
#"        {0x000292, 0x0001B7},";
#"        {0x00029D, 0x00A7B2},";
#"        {0x00029E, 0x00A7B0},";
#"        {0x000345, 0x000399},";
#"        {0x00037B, 0x0003FD},";
#"        {0x00037C, 0x0003FE},";
#"        {0x00037D, 0x0003FF},";
#"        {0x0003AC, 0x000386},";
#"        {0x0003AD, 0x000388},";
#"        {0x0003AE, 0x000389},";
#"        {0x0003AF, 0x00038A},";
#"        {0x0003C2, 0x0003A3},";
#"        {0x0003CC, 0x00038C},";
#"        {0x0003CD, 0x00038E},";
#"        {0x0003CE, 0x00038F},";
#"        {0x0003D0, 0x000392},";
#"        {0x0003D1, 0x000398},";
#"        {0x0003D5, 0x0003A6},";
#"        {0x0003D6, 0x0003A0},";
#"        {0x0003D7, 0x0003CF},";
#"        {0x0003D9, 0x0003D8},";
#"        {0x0003DB, 0x0003DA},";
#"        {0x0003DD, 0x0003DC},";
#"        {0x0003DF, 0x0003DE},";
#"        {0x0003F0, 0x00039A},";
#"        {0x0003F1, 0x0003A1},";
#"        {0x0003F2, 0x0003F9},";
#"        {0x0003F3, 0x00037F},";
#"        {0x0003F5, 0x000395},";
#"        {0x000450, 0x000400},";
#"        {0x000451, 0x000401},";
#"        {0x000452, 0x000402},";
#"        {0x000453, 0x000403},";
#"        {0x000454, 0x000404},";
#"        {0x000455, 0x000405},";
#"        {0x000456, 0x000406},";
#"        {0x000457, 0x000407},";
#"        {0x000458, 0x000408},";
#"        {0x000459, 0x000409},";
#"        {0x00045A, 0x00040A},";
#"        {0x00045B, 0x00040B},";
#"        {0x00045C, 0x00040C},";
#"        {0x00045D, 0x00040D},";
#"        {0x00045E, 0x00040E},";
#"        {0x00045F, 0x00040F},";
#"        {0x0004CF, 0x0004C0},";
#"        {0x001C80, 0x000412},";
#"        {0x001C81, 0x000414},";
#"        {0x001C82, 0x00041E},";
#"        {0x001C83, 0x000421},";
#"        {0x001C84, 0x000422},";
#"        {0x001C85, 0x000422},";
#"        {0x001C86, 0x00042A},";
#"        {0x001C87, 0x000462},";
#"        {0x001C88, 0x00A64A},";
#"        {0x001C8A, 0x001C89},";
#"        {0x001D79, 0x00A77D},";
#"        {0x001D7D, 0x002C63},";
#"        {0x001D8E, 0x00A7C6},";
#"        {0x001E9B, 0x001E60},";
#"        {0x001F70, 0x001FBA},";
#"        {0x001F71, 0x001FBB},";
#"        {0x001F72, 0x001FC8},";
#"        {0x001F73, 0x001FC9},";
#"        {0x001F74, 0x001FCA},";
#"        {0x001F75, 0x001FCB},";
#"        {0x001F76, 0x001FDA},";
#"        {0x001F77, 0x001FDB},";
#"        {0x001F78, 0x001FF8},";
#"        {0x001F79, 0x001FF9},";
#"        {0x001F7A, 0x001FEA},";
#"        {0x001F7B, 0x001FEB},";
#"        {0x001F7C, 0x001FFA},";
#"        {0x001F7D, 0x001FFB},";
#"        {0x001FB3, 0x001FBC},";
#"        {0x001FBE, 0x000399},";
#"        {0x001FC3, 0x001FCC},";
#"        {0x001FD0, 0x001FD8},";
#"        {0x001FD1, 0x001FD9},";
#"        {0x001FE0, 0x001FE8},";
#"        {0x001FE1, 0x001FE9},";
#"        {0x001FE5, 0x001FEC},";
#"        {0x001FF3, 0x001FFC},";
#"        {0x00214E, 0x002132},";
#"        {0x002184, 0x002183},";
#"        {0x002C65, 0x00023A},";
#"        {0x002C66, 0x00023E},";
#"        {0x00A794, 0x00A7C4},";
#"        {0x00A7F6, 0x00A7F5},";
#"        {0x00AB53, 0x00A7B3},";
#"    };";
#"}";
#""].
(** src/Ystring/NormalizationTables.hpp, the whole file *)
Definition NORMALIZATION_HEADER : str := lines_of [
#"//****************************************************************************";
#"// Copyright © 2025 Jan Erik Breimo. All rights reserved.";
#"// Created by Jan Erik Breimo on 2025-01-01";
#"//";
#"// This file is distributed under the Zero-Clause BSD License.";
#"// License text is included with the source distribution.";
#"//****************************************************************************";
#"#include <cstdint>";
#"";
#"namespace ystring";
#"{";
#"    constexpr uint64_t TO_DECOMPOSED[] =";
#"    {";
#"        0x0000C00004100300, 0x0000C10004100301, 0x0000C20004100302,";
#"        0x0000C30004100303, 0x0000C40004100308, 0x0000C5000410030A,";
#"        0x0000C70004300327, 0x0000C80004500300, 0x0000C90004500301,";
#"        0x0000CA0004500302, 0x0000CB0004500308, 0x0000CC0004900300,";
#"        0x0000CD0004900301, 0x0000CE0004900302, 0x0000CF0004900308,";
#"        0x0000D10004E00303, 0x0000D20004F00300, 0x0000D30004F00301,";
#"        0x0000D40004F00302, 0x0000D50004F00303, 0x0000D60004F00308,";
#"        0x0000D90005500300, 0x0000DA0005500301, 0x0000DB0005500302,";
#"        0x0000DC0005500308, 0x0000DD0005900301, 0x0000E00006100300,";
#"        0x0000E10006100301, 0x0000E20006100302, 0x0000E30006100303,";
#"        0x0000E40006100308, 0x0000E5000610030A, 0x0000E70006300327,";
#"        0x0000E80006500300, 0x0000E90006500301, 0x0000EA0006500302,";
#"        0x0000EB0006500308, 0x0000EC0006900300, 0x0000ED0006900301,";
#"        0x0000EE0006900302, 0x0000EF0006900308, 0x0000F10006E00303,";
#"        0x0000F20006F00300, 0x0000F30006F00301, 0x0000F40006F00302,";
#"        0x0000F50006F00303, 0x0000F60006F00308, 0x0000F90007500300,";
#"        0x0000FA0007500301, 0x0000FB0007500302, 0x0000FC0007500308,";
#"        0x0000FD0007900301, 0x0000FF0007900308, 0x0001000004100304,";
#"        0x0001010006100304, 0x0001020004100306, 0x0001030006100306,";
#"        0x0001040004100328, 0x0001050006100328, 0x0001060004300301,";
#"        0x0001070006300301, 0x0001080004300302, 0x0001090006300302,";
#"        0x00010A0004300307, 0x00010B0006300307, 0x00010C000430030C,";
#"        0x00010D000630030C, 0x00010E000440030C, 0x00010F000640030C,";
#"        0x0001120004500304, 0x0001130006500304, 0x0001140004500306,";
#"        0x0001150006500306, 0x0001160004500307, 0x0001170006500307,";
#"        0x0001180004500328, 0x0001190006500328, 0x00011A000450030C,";
#"        0x00011B000650030C, 0x00011C0004700302, 0x00011D0006700302,";
#"        0x00011E0004700306, 0x00011F0006700306, 0x0001200004700307,";
#"        0x0001210006700307, 0x0001220004700327, 0x0001230006700327,";
#"        0x0001240004800302, 0x0001250006800302, 0x0001280004900303,";
#"        0x0001290006900303, 0x00012A0004900304, 0x00012B0006900304,";
#"        0x00012C0004900306, 0x00012D0006900306, 0x00012E0004900328,";
#"        0x00012F0006900328, 0x0001300004900307, 0x0001340004A00302,";
#"        0x0001350006A00302, 0x0001360004B00327, 0x0001370006B00327,";
#"        0x0001390004C00301, 0x00013A0006C00301, 0x00013B0004C00327,";
#"        0x00013C0006C00327, 0x00013D0004C0030C, 0x00013E0006C0030C,";
#"        0x0001430004E00301, 0x0001440006E00301, 0x0001450004E00327,";
#"        0x0001460006E00327, 0x0001470004E0030C, 0x0001480006E0030C,";
#"        0x00014C0004F00304, 0x00014D0006F00304, 0x00014E0004F00306,";
#"        0x00014F0006F00306, 0x0001500004F0030B, 0x0001510006F0030B,";
#"        0x0001540005200301, 0x0001550007200301, 0x0001560005200327,";
#"        0x0001570007200327, 0x000158000520030C, 0x000159000720030C,";
#"        0x00015A0005300301, 0x00015B0007300301, 0x00015C0005300302,";
#"        0x00015D0007300302, 0x00015E0005300327, 0x00015F0007300327,";
#"        0x000160000530030C, 0x000161000730030C, 0x0001620005400327,";
#"        0x0001630007400327, 0x000164000540030C, 0x000165000740030C,";
#"        0x0001680005500303, 0x0001690007500303, 0x00016A0005500304,";
#"        0x00016B0007500304, 0x00016C0005500306, 0x00016D0007500306,";
#"        0x00016E000550030A, 0x00016F000750030A, 0x000170000550030B,";
#"        0x000171000750030B, 0x0001720005500328, 0x0001730007500328,";
#"        0x0001740005700302, 0x0001750007700302, 0x0001760005900302,";
#"        0x0001770007900302, 0x0001780005900308, 0x0001790005A00301,";
#"        0x00017A0007A00301, 0x00017B0005A00307, 0x00017C0007A00307,";
#"        0x00017D0005A0030C, 0x00017E0007A0030C, 0x0001A00004F0031B,";
#"        0x0001A10006F0031B, 0x0001AF000550031B, 0x0001B0000750031B,";
#"        0x0001CD000410030C, 0x0001CE000610030C, 0x0001CF000490030C,";
#"        0x0001D0000690030C, 0x0001D10004F0030C, 0x0001D20006F0030C,";
#"        0x0001D3000550030C, 0x0001D4000750030C, 0x0001D5000DC00304,";
#"        0x0001D6000FC00304, 0x0001D7000DC00301, 0x0001D8000FC00301,";
#"        0x0001D9000DC0030C, 0x0001DA000FC0030C, 0x0001DB000DC00300,";
#"        0x0001DC000FC00300, 0x0001DE000C400304, 0x0001DF000E400304,";
#"        0x0001E00022600304, 0x0001E10022700304, 0x0001E2000C600304,";
#"        0x0001E3000E600304, 0x0001E6000470030C, 0x0001E7000670030C,";
#"        0x0001E80004B0030C, 0x0001E90006B0030C, 0x0001EA0004F00328,";
#"        0x0001EB0006F00328, 0x0001EC001EA00304, 0x0001ED001EB00304,";
#"        0x0001EE001B70030C, 0x0001EF002920030C, 0x0001F00006A0030C,";
#"        0x0001F40004700301, 0x0001F50006700301, 0x0001F80004E00300,";
#"        0x0001F90006E00300, 0x0001FA000C500301, 0x0001FB000E500301,";
#"        0x0001FC000C600301, 0x0001FD000E600301, 0x0001FE000D800301,";
#"        0x0001FF000F800301, 0x000200000410030F, 0x000201000610030F,";
#"        0x0002020004100311, 0x0002030006100311, 0x000204000450030F,";
#"        0x000205000650030F, 0x0002060004500311, 0x0002070006500311,";
#"        0x000208000490030F, 0x000209000690030F, 0x00020A0004900311,";
#"        0x00020B0006900311, 0x00020C0004F0030F, 0x00020D0006F0030F,";
#"        0x00020E0004F00311, 0x00020F0006F00311, 0x000210000520030F,";
#"        0x000211000720030F, 0x0002120005200311, 0x0002130007200311,";
#"        0x000214000550030F, 0x000215000750030F, 0x0002160005500311,";
#"        0x0002170007500311, 0x0002180005300326, 0x0002190007300326,";
#"        0x00021A0005400326, 0x00021B0007400326, 0x00021E000480030C,";
#"        0x00021F000680030C, 0x0002260004100307, 0x0002270006100307,";
#"        0x0002280004500327, 0x0002290006500327, 0x00022A000D600304,";
#"        0x00022B000F600304, 0x00022C000D500304, 0x00022D000F500304,";
#"        0x00022E0004F00307, 0x00022F0006F00307, 0x0002300022E00304,";
#"        0x0002310022F00304, 0x0002320005900304, 0x0002330007900304,";
#"        0x0003440030800301, 0x000385000A800301, 0x0003860039100301,";
#"        0x0003880039500301, 0x0003890039700301, 0x00038A0039900301,";
#"        0x00038C0039F00301, 0x00038E003A500301, 0x00038F003A900301,";
#"        0x000390003CA00301, 0x0003AA0039900308, 0x0003AB003A500308,";
#"        0x0003AC003B100301, 0x0003AD003B500301, 0x0003AE003B700301,";
#"        0x0003AF003B900301, 0x0003B0003CB00301, 0x0003CA003B900308,";
#"        0x0003CB003C500308, 0x0003CC003BF00301, 0x0003CD003C500301,";
#"        0x0003CE003C900301, 0x0003D3003D200301, 0x0003D4003D200308,";
#"        0x0004000041500300, 0x0004010041500308, 0x0004030041300301,";
#"        0x0004070040600308, 0x00040C0041A00301, 0x00040D0041800300,";
#"        0x00040E0042300306, 0x0004190041800306, 0x0004390043800306,";
#"        0x0004500043500300, 0x0004510043500308, 0x0004530043300301,";
#"        0x0004570045600308, 0x00045C0043A00301, 0x00045D0043800300,";
#"        0x00045E0044300306, 0x000476004740030F, 0x000477004750030F,";
#"        0x0004C10041600306, 0x0004C20043600306, 0x0004D00041000306,";
#"        0x0004D10043000306, 0x0004D20041000308, 0x0004D30043000308,";
#"        0x0004D60041500306, 0x0004D70043500306, 0x0004DA004D800308,";
#"        0x0004DB004D900308, 0x0004DC0041600308, 0x0004DD0043600308,";
#"        0x0004DE0041700308, 0x0004DF0043700308, 0x0004E20041800304,";
#"        0x0004E30043800304, 0x0004E40041800308, 0x0004E50043800308,";
#"        0x0004E60041E00308, 0x0004E70043E00308, 0x0004EA004E800308,";
#"        0x0004EB004E900308, 0x0004EC0042D00308, 0x0004ED0044D00308,";
#"        0x0004EE0042300304, 0x0004EF0044300304, 0x0004F00042300308,";
#"        0x0004F10044300308, 0x0004F2004230030B, 0x0004F3004430030B,";
#"        0x0004F40042700308, 0x0004F50044700308, 0x0004F80042B00308,";
#"        0x0004F90044B00308, 0x0006220062700653, 0x0006230062700654,";
#"        0x0006240064800654, 0x0006250062700655, 0x0006260064A00654,";
#"        0x0006C0006D500654, 0x0006C2006C100654, 0x0006D3006D200654,";
#"        0x000929009280093C, 0x000931009300093C, 0x000934009330093C,";
#"        0x000958009150093C, 0x000959009160093C, 0x00095A009170093C,";
#"        0x00095B0091C0093C, 0x00095C009210093C, 0x00095D009220093C,";
#"        0x00095E0092B0093C, 0x00095F0092F0093C, 0x0009CB009C7009BE,";
#"        0x0009CC009C7009D7, 0x0009DC009A1009BC, 0x0009DD009A2009BC,";
#"        0x0009DF009AF009BC, 0x000A3300A3200A3C, 0x000A3600A3800A3C,";
#"        0x000A5900A1600A3C, 0x000A5A00A1700A3C, 0x000A5B00A1C00A3C,";
#"        0x000A5E00A2B00A3C, 0x000B4800B4700B56, 0x000B4B00B4700B3E,";
#"        0x000B4C00B4700B57, 0x000B5C00B2100B3C, 0x000B5D00B2200B3C,";
#"        0x000B9400B9200BD7, 0x000BCA00BC600BBE, 0x000BCB00BC700BBE,";
#"        0x000BCC00BC600BD7, 0x000C4800C4600C56, 0x000CC000CBF00CD5,";
#"        0x000CC700CC600CD5, 0x000CC800CC600CD6, 0x000CCA00CC600CC2,";
#"        0x000CCB00CCA00CD5, 0x000D4A00D4600D3E, 0x000D4B00D4700D3E,";
#"        0x000D4C00D4600D57, 0x000DDA00DD900DCA, 0x000DDC00DD900DCF,";
#"        0x000DDD00DDC00DCA, 0x000DDE00DD900DDF, 0x000F4300F4200FB7,";
#"        0x000F4D00F4C00FB7, 0x000F5200F5100FB7, 0x000F5700F5600FB7,";
#"        0x000F5C00F5B00FB7, 0x000F6900F4000FB5, 0x000F7300F7100F72,";
#"        0x000F7500F7100F74, 0x000F7600FB200F80, 0x000F7800FB300F80,";
#"        0x000F8100F7100F80, 0x000F9300F9200FB7, 0x000F9D00F9C00FB7,";
#"        0x000FA200FA100FB7, 0x000FA700FA600FB7, 0x000FAC00FAB00FB7,";
#"        0x000FB900F9000FB5, 0x001026010250102E, 0x001B0601B0501B35,";
#"        0x001B0801B0701B35, 0x001B0A01B0901B35, 0x001B0C01B0B01B35,";
#"        0x001B0E01B0D01B35, 0x001B1201B1101B35, 0x001B3B01B3A01B35,";
#"        0x001B3D01B3C01B35, 0x001B4001B3E01B35, 0x001B4101B3F01B35,";
#"        0x001B4301B4201B35, 0x001E000004100325, 0x001E010006100325,";
#"        0x001E020004200307, 0x001E030006200307, 0x001E040004200323,";
#"        0x001E050006200323, 0x001E060004200331, 0x001E070006200331,";
#"        0x001E08000C700301, 0x001E09000E700301, 0x001E0A0004400307,";
#"        0x001E0B0006400307, 0x001E0C0004400323, 0x001E0D0006400323,";
#"        0x001E0E0004400331, 0x001E0F0006400331, 0x001E100004400327,";
#"        0x001E110006400327, 0x001E12000440032D, 0x001E13000640032D,";
#"        0x001E140011200300, 0x001E150011300300, 0x001E160011200301,";
#"        0x001E170011300301, 0x001E18000450032D, 0x001E19000650032D,";
#"        0x001E1A0004500330, 0x001E1B0006500330, 0x001E1C0022800306,";
#"        0x001E1D0022900306, 0x001E1E0004600307, 0x001E1F0006600307,";
#"        0x001E200004700304, 0x001E210006700304, 0x001E220004800307,";
#"        0x001E230006800307, 0x001E240004800323, 0x001E250006800323,";
#"        0x001E260004800308, 0x001E270006800308, 0x001E280004800327,";
#"        0x001E290006800327, 0x001E2A000480032E, 0x001E2B000680032E,";
#"        0x001E2C0004900330, 0x001E2D0006900330, 0x001E2E000CF00301,";
#"        0x001E2F000EF00301, 0x001E300004B00301, 0x001E310006B00301,";
#"        0x001E320004B00323, 0x001E330006B00323, 0x001E340004B00331,";
#"        0x001E350006B00331, 0x001E360004C00323, 0x001E370006C00323,";
#"        0x001E3801E3600304, 0x001E3901E3700304, 0x001E3A0004C00331,";
#"        0x001E3B0006C00331, 0x001E3C0004C0032D, 0x001E3D0006C0032D,";
#"        0x001E3E0004D00301, 0x001E3F0006D00301, 0x001E400004D00307,";
#"        0x001E410006D00307, 0x001E420004D00323, 0x001E430006D00323,";
#"        0x001E440004E00307, 0x001E450006E00307, 0x001E460004E00323,";
#"        0x001E470006E00323, 0x001E480004E00331, 0x001E490006E00331,";
#"        0x001E4A0004E0032D, 0x001E4B0006E0032D, 0x001E4C000D500301,";
#"        0x001E4D000F500301, 0x001E4E000D500308, 0x001E4F000F500308,";
#"        0x001E500014C00300, 0x001E510014D00300, 0x001E520014C00301,";
#"        0x001E530014D00301, 0x001E540005000301, 0x001E550007000301,";
#"        0x001E560005000307, 0x001E570007000307, 0x001E580005200307,";
#"        0x001E590007200307, 0x001E5A0005200323, 0x001E5B0007200323,";
#"        0x001E5C01E5A00304, 0x001E5D01E5B00304, 0x001E5E0005200331,";
#"        0x001E5F0007200331, 0x001E600005300307, 0x001E610007300307,";
#"        0x001E620005300323, 0x001E630007300323, 0x001E640015A00307,";
#"        0x001E650015B00307, 0x001E660016000307, 0x001E670016100307,";
#"        0x001E6801E6200307, 0x001E6901E6300307, 0x001E6A0005400307,";
#"        0x001E6B0007400307, 0x001E6C0005400323, 0x001E6D0007400323,";
#"        0x001E6E0005400331, 0x001E6F0007400331, 0x001E70000540032D,";
#"        0x001E71000740032D, 0x001E720005500324, 0x001E730007500324,";
#"        0x001E740005500330, 0x001E750007500330, 0x001E76000550032D,";
#"        0x001E77000750032D, 0x001E780016800301, 0x001E790016900301,";
#"        0x001E7A0016A00308, 0x001E7B0016B00308, 0x001E7C0005600303,";
#"        0x001E7D0007600303, 0x001E7E0005600323, 0x001E7F0007600323,";
#"        0x001E800005700300, 0x001E810007700300, 0x001E820005700301,";
#"        0x001E830007700301, 0x001E840005700308, 0x001E850007700308,";
#"        0x001E860005700307, 0x001E870007700307, 0x001E880005700323,";
#"        0x001E890007700323, 0x001E8A0005800307, 0x001E8B0007800307,";
#"        0x001E8C0005800308, 0x001E8D0007800308, 0x001E8E0005900307,";
#"        0x001E8F0007900307, 0x001E900005A00302, 0x001E910007A00302,";
#"        0x001E920005A00323, 0x001E930007A00323, 0x001E940005A00331,";
#"        0x001E950007A00331, 0x001E960006800331, 0x001E970007400308,";
#"        0x001E98000770030A, 0x001E99000790030A, 0x001E9B0017F00307,";
#"        0x001EA00004100323, 0x001EA10006100323, 0x001EA20004100309,";
#"        0x001EA30006100309, 0x001EA4000C200301, 0x001EA5000E200301,";
#"        0x001EA6000C200300, 0x001EA7000E200300, 0x001EA8000C200309,";
#"        0x001EA9000E200309, 0x001EAA000C200303, 0x001EAB000E200303,";
#"        0x001EAC01EA000302, 0x001EAD01EA100302, 0x001EAE0010200301,";
#"        0x001EAF0010300301, 0x001EB00010200300, 0x001EB10010300300,";
#"        0x001EB20010200309, 0x001EB30010300309, 0x001EB40010200303,";
#"        0x001EB50010300303, 0x001EB601EA000306, 0x001EB701EA100306,";
#"        0x001EB80004500323, 0x001EB90006500323, 0x001EBA0004500309,";
#"        0x001EBB0006500309, 0x001EBC0004500303, 0x001EBD0006500303,";
#"        0x001EBE000CA00301, 0x001EBF000EA00301, 0x001EC0000CA00300,";
#"        0x001EC1000EA00300, 0x001EC2000CA00309, 0x001EC3000EA00309,";
#"        0x001EC4000CA00303, 0x001EC5000EA00303, 0x001EC601EB800302,";
#"        0x001EC701EB900302, 0x001EC80004900309, 0x001EC90006900309,";
#"        0x001ECA0004900323, 0x001ECB0006900323, 0x001ECC0004F00323,";
#"        0x001ECD0006F00323, 0x001ECE0004F00309, 0x001ECF0006F00309,";
#"        0x001ED0000D400301, 0x001ED1000F400301, 0x001ED2000D400300,";
#"        0x001ED3000F400300, 0x001ED4000D400309, 0x001ED5000F400309,";
#"        0x001ED6000D400303, 0x001ED7000F400303, 0x001ED801ECC00302,";
#"        0x001ED901ECD00302, 0x001EDA001A000301, 0x001EDB001A100301,";
#"        0x001EDC001A000300, 0x001EDD001A100300, 0x001EDE001A000309,";
#"        0x001EDF001A100309, 0x001EE0001A000303, 0x001EE1001A100303,";
#"        0x001EE2001A000323, 0x001EE3001A100323, 0x001EE40005500323,";
#"        0x001EE50007500323, 0x001EE60005500309, 0x001EE70007500309,";
#"        0x001EE8001AF00301, 0x001EE9001B000301, 0x001EEA001AF00300,";
#"        0x001EEB001B000300, 0x001EEC001AF00309, 0x001EED001B000309,";
#"        0x001EEE001AF00303, 0x001EEF001B000303, 0x001EF0001AF00323,";
#"        0x001EF1001B000323, 0x001EF20005900300, 0x001EF30007900300,";
#"        0x001EF40005900323, 0x001EF50007900323, 0x001EF60005900309,";
#"        0x001EF70007900309, 0x001EF80005900303, 0x001EF90007900303,";
#"        0x001F00003B100313, 0x001F01003B100314, 0x001F0201F0000300,";
#"        0x001F0301F0100300, 0x001F0401F0000301, 0x001F0501F0100301,";
#"        0x001F0601F0000342, 0x001F0701F0100342, 0x001F080039100313,";
#"        0x001F090039100314, 0x001F0A01F0800300, 0x001F0B01F0900300,";
#"        0x001F0C01F0800301, 0x001F0D01F0900301, 0x001F0E01F0800342,";
#"        0x001F0F01F0900342, 0x001F10003B500313, 0x001F11003B500314,";
#"        0x001F1201F1000300, 0x001F1301F1100300, 0x001F1401F1000301,";
#"        0x001F1501F1100301, 0x001F180039500313, 0x001F190039500314,";
#"        0x001F1A01F1800300, 0x001F1B01F1900300, 0x001F1C01F1800301,";
#"        0x001F1D01F1900301, 0x001F20003B700313, 0x001F21003B700314,";
#"        0x001F2201F2000300, 0x001F2301F2100300, 0x001F2401F2000301,";
#"        0x001F2501F2100301, 0x001F2601F2000342, 0x001F2701F2100342,";
#"        0x001F280039700313, 0x001F290039700314, 0x001F2A01F2800300,";
#"        0x001F2B01F2900300, 0x001F2C01F2800301, 0x001F2D01F2900301,";
#"        0x001F2E01F2800342, 0x001F2F01F2900342, 0x001F30003B900313,";
#"        0x001F31003B900314, 0x001F3201F3000300, 0x001F3301F3100300,";
#"        0x001F3401F3000301, 0x001F3501F3100301, 0x001F3601F3000342,";
#"        0x001F3701F3100342, 0x001F380039900313, 0x001F390039900314,";
#"        0x001F3A01F3800300, 0x001F3B01F3900300, 0x001F3C01F3800301,";
#"        0x001F3D01F3900301, 0x001F3E01F3800342, 0x001F3F01F3900342,";
#"        0x001F40003BF00313, 0x001F41003BF00314, 0x001F4201F4000300,";
#"        0x001F4301F4100300, 0x001F4401F4000301, 0x001F4501F4100301,";
#"        0x001F480039F00313, 0x001F490039F00314, 0x001F4A01F4800300,";
#"        0x001F4B01F4900300, 0x001F4C01F4800301, 0x001F4D01F4900301,";
#"        0x001F50003C500313, 0x001F51003C500314, 0x001F5201F5000300,";
#"        0x001F5301F5100300, 0x001F5401F5000301, 0x001F5501F5100301,";
#"        0x001F5601F5000342, 0x001F5701F5100342, 0x001F59003A500314,";
#"        0x001F5B01F5900300, 0x001F5D01F5900301, 0x001F5F01F5900342,";
#"        0x001F60003C900313, 0x001F61003C900314, 0x001F6201F6000300,";
#"        0x001F6301F6100300, 0x001F6401F6000301, 0x001F6501F6100301,";
#"        0x001F6601F6000342, 0x001F6701F6100342, 0x001F68003A900313,";
#"        0x001F69003A900314, 0x001F6A01F6800300, 0x001F6B01F6900300,";
#"        0x001F6C01F6800301, 0x001F6D01F6900301, 0x001F6E01F6800342,";
#"        0x001F6F01F6900342, 0x001F70003B100300, 0x001F72003B500300,";
#"        0x001F74003B700300, 0x001F76003B900300, 0x001F78003BF00300,";
#"        0x001F7A003C500300, 0x001F7C003C900300, 0x001F8001F0000345,";
#"        0x001F8101F0100345, 0x001F8201F0200345, 0x001F8301F0300345,";
#"        0x001F8401F0400345, 0x001F8501F0500345, 0x001F8601F0600345,";
#"        0x001F8701F0700345, 0x001F8801F0800345, 0x001F8901F0900345,";
#"        0x001F8A01F0A00345, 0x001F8B01F0B00345, 0x001F8C01F0C00345,";
#"        0x001F8D01F0D00345, 0x001F8E01F0E00345, 0x001F8F01F0F00345,";
#"        0x001F9001F2000345, 0x001F9101F2100345, 0x001F9201F2200345,";
#"        0x001F9301F2300345, 0x001F9401F2400345, 0x001F9501F2500345,";
#"        0x001F9601F2600345, 0x001F9701F2700345, 0x001F9801F2800345,";
#"        0x001F9901F2900345, 0x001F9A01F2A00345, 0x001F9B01F2B00345,";
#"        0x001F9C01F2C00345, 0x001F9D01F2D00345, 0x001F9E01F2E00345,";
#"        0x001F9F01F2F00345, 0x001FA001F6000345, 0x001FA101F6100345,";
#"        0x001FA201F6200345, 0x001FA301F6300345, 0x001FA401F6400345,";
#"        0x001FA501F6500345, 0x001FA601F6600345, 0x001FA701F6700345,";
#"        0x001FA801F6800345, 0x001FA901F6900345, 0x001FAA01F6A00345,";
#"        0x001FAB01F6B00345, 0x001FAC01F6C00345, 0x001FAD01F6D00345,";
#"        0x001FAE01F6E00345, 0x001FAF01F6F00345, 0x001FB0003B100306,";
#"        0x001FB1003B100304, 0x001FB201F7000345, 0x001FB3003B100345,";
#"        0x001FB4003AC00345, 0x001FB6003B100342, 0x001FB701FB600345,";
#"        0x001FB80039100306, 0x001FB90039100304, 0x001FBA0039100300,";
#"        0x001FBC0039100345, 0x001FC1000A800342, 0x001FC201F7400345,";
#"        0x001FC3003B700345, 0x001FC4003AE00345, 0x001FC6003B700342,";
#"        0x001FC701FC600345, 0x001FC80039500300, 0x001FCA0039700300,";
#"        0x001FCC0039700345, 0x001FCD01FBF00300, 0x001FCE01FBF00301,";
#"        0x001FCF01FBF00342, 0x001FD0003B900306, 0x001FD1003B900304,";
#"        0x001FD2003CA00300, 0x001FD6003B900342, 0x001FD7003CA00342,";
#"        0x001FD80039900306, 0x001FD90039900304, 0x001FDA0039900300,";
#"        0x001FDD01FFE00300, 0x001FDE01FFE00301, 0x001FDF01FFE00342,";
#"        0x001FE0003C500306, 0x001FE1003C500304, 0x001FE2003CB00300,";
#"        0x001FE4003C100313, 0x001FE5003C100314, 0x001FE6003C500342,";
#"        0x001FE7003CB00342, 0x001FE8003A500306, 0x001FE9003A500304,";
#"        0x001FEA003A500300, 0x001FEC003A100314, 0x001FED000A800300,";
#"        0x001FF201F7C00345, 0x001FF3003C900345, 0x001FF4003CE00345,";
#"        0x001FF6003C900342, 0x001FF701FF600345, 0x001FF80039F00300,";
#"        0x001FFA003A900300, 0x001FFC003A900345, 0x00219A0219000338,";
#"        0x00219B0219200338, 0x0021AE0219400338, 0x0021CD021D000338,";
#"        0x0021CE021D400338, 0x0021CF021D200338, 0x0022040220300338,";
#"        0x0022090220800338, 0x00220C0220B00338, 0x0022240222300338,";
#"        0x0022260222500338, 0x0022410223C00338, 0x0022440224300338,";
#"        0x0022470224500338, 0x0022490224800338, 0x0022600003D00338,";
#"        0x0022620226100338, 0x00226D0224D00338, 0x00226E0003C00338,";
#"        0x00226F0003E00338, 0x0022700226400338, 0x0022710226500338,";
#"        0x0022740227200338, 0x0022750227300338, 0x0022780227600338,";
#"        0x0022790227700338, 0x0022800227A00338, 0x0022810227B00338,";
#"        0x0022840228200338, 0x0022850228300338, 0x0022880228600338,";
#"        0x0022890228700338, 0x0022AC022A200338, 0x0022AD022A800338,";
#"        0x0022AE022A900338, 0x0022AF022AB00338, 0x0022E00227C00338,";
#"        0x0022E10227D00338, 0x0022E20229100338, 0x0022E30229200338,";
#"        0x0022EA022B200338, 0x0022EB022B300338, 0x0022EC022B400338,";
#"        0x0022ED022B500338, 0x002ADC02ADD00338, 0x00304C0304B03099,";
#"        0x00304E0304D03099, 0x0030500304F03099, 0x0030520305103099,";
#"        0x0030540305303099, 0x0030560305503099, 0x0030580305703099,";
#"        0x00305A0305903099, 0x00305C0305B03099, 0x00305E0305D03099,";
#"        0x0030600305F03099, 0x0030620306103099, 0x0030650306403099,";
#"        0x0030670306603099, 0x0030690306803099, 0x0030700306F03099,";
#"        0x0030710306F0309A, 0x0030730307203099, 0x003074030720309A,";
#"        0x0030760307503099, 0x003077030750309A, 0x0030790307803099,";
#"        0x00307A030780309A, 0x00307C0307B03099, 0x00307D0307B0309A,";
#"        0x0030940304603099, 0x00309E0309D03099, 0x0030AC030AB03099,";
#"        0x0030AE030AD03099, 0x0030B0030AF03099, 0x0030B2030B103099,";
#"        0x0030B4030B303099, 0x0030B6030B503099, 0x0030B8030B703099,";
#"        0x0030BA030B903099, 0x0030BC030BB03099, 0x0030BE030BD03099,";
#"        0x0030C0030BF03099, 0x0030C2030C103099, 0x0030C5030C403099,";
#"        0x0030C7030C603099, 0x0030C9030C803099, 0x0030D0030CF03099,";
#"        0x0030D1030CF0309A, 0x0030D3030D203099, 0x0030D4030D20309A,";
#"        0x0030D6030D503099, 0x0030D7030D50309A, 0x0030D9030D803099,";
#"        0x0030DA030D80309A, 0x0030DC030DB03099, 0x0030DD030DB0309A,";
#"        0x0030F4030A603099, 0x0030F7030EF03099, 0x0030F8030F003099,";
#"        0x0030F9030F103099, 0x0030FA030F203099, 0x0030FE030FD03099,";
#"        0x00FB1D005D9005B4, 0x00FB1F005F2005B7, 0x00FB2A005E9005C1,";
#"        0x00FB2B005E9005C2, 0x00FB2C0FB49005C1, 0x00FB2D0FB49005C2,";
#"        0x00FB2E005D0005B7, 0x00FB2F005D0005B8, 0x00FB30005D0005BC,";
#"        0x00FB31005D1005BC, 0x00FB32005D2005BC, 0x00FB33005D3005BC,";
#"        0x00FB34005D4005BC, 0x00FB35005D5005BC, 0x00FB36005D6005BC,";
#"        0x00FB38005D8005BC, 0x00FB39005D9005BC, 0x00FB3A005DA005BC,";
#"        0x00FB3B005DB005BC, 0x00FB3C005DC005BC, 0x00FB3E005DE005BC,";
#"        0x00FB40005E0005BC, 0x00FB41005E1005BC, 0x00FB43005E3005BC,";
#"        0x00FB44005E4005BC, 0x00FB46005E6005BC, 0x00FB47005E7005BC,";
#"        0x00FB48005E8005BC, 0x00FB49005E9005BC, 0x00FB4A005EA005BC,";
#"        0x00FB4B005D5005B9, 0x00FB4C005D1005BF, 0x00FB4D005DB005BF,";
#"        0x00FB4E005E4005BF, 0x0105C9105D200307, 0x0105E4105DA00307,";
#"        0x01109A11099110BA, 0x01109C1109B110BA, 0x0110AB110A5110BA,";
#"        0x01112E1113111127, 0x01112F1113211127, 0x01134B113471133E,";
#"        0x01134C1134711357, 0x01138311382113C9, 0x01138511384113BB,";
#"        0x01138E1138B113C2, 0x01139111390113C9, 0x0113C5113C2113C2,";
#"        0x0113C7113C2113B8, 0x0113C8113C2113C9, 0x0114BB114B9114BA,";
#"        0x0114BC114B9114B0, 0x0114BE114B9114BD, 0x0115BA115B8115AF,";
#"        0x0115BB115B9115AF, 0x0119381193511930, 0x0161211611E1611E,";
#"        0x0161221611E16129, 0x0161231611E1611F, 0x016124161291611F,";
#"        0x0161251611E16120, 0x016126161211611F, 0x016127161221611F,";
#"        0x0161281612116120, 0x016D6816D6716D67, 0x016D6916D6316D67,";
#"        0x016D6A16D6916D67, 0x01D15E1D1571D165, 0x01D15F1D1581D165,";
#"        0x01D1601D15F1D16E, 0x01D1611D15F1D16F, 0x01D1621D15F1D170,";
#"        0x01D1631D15F1D171, 0x01D1641D15F1D172, 0x01D1BB1D1B91D165,";
#"        0x01D1BC1D1BA1D165, 0x01D1BD1D1BB1D16E, 0x01D1BE1D1BC1D16E,";
#"        0x01D1BF1D1BB1D16F, 0x01D1C01D1BC1D16F";
#"    };";
#"";
#"    constexpr uint64_t TO_COMPOSED[] =";
#"    {";
#"        0x00003C003380226E, 0x00003D0033802260, 0x00003E003380226F,";
#"        0x00004100300000C0, 0x00004100301000C1, 0x00004100302000C2,";
#"        0x00004100303000C3, 0x0000410030400100, 0x0000410030600102,";
#"        0x0000410030700226, 0x00004100308000C4, 0x0000410030901EA2,";
#"        0x0000410030A000C5, 0x0000410030C001CD, 0x0000410030F00200,";
#"        0x0000410031100202, 0x0000410032301EA0, 0x0000410032501E00,";
#"        0x0000410032800104, 0x0000420030701E02, 0x0000420032301E04,";
#"        0x0000420033101E06, 0x0000430030100106, 0x0000430030200108,";
#"        0x000043003070010A, 0x0000430030C0010C, 0x00004300327000C7,";
#"        0x0000440030701E0A, 0x0000440030C0010E, 0x0000440032301E0C,";
#"        0x0000440032701E10, 0x0000440032D01E12, 0x0000440033101E0E,";
#"        0x00004500300000C8, 0x00004500301000C9, 0x00004500302000CA,";
#"        0x0000450030301EBC, 0x0000450030400112, 0x0000450030600114,";
#"        0x0000450030700116, 0x00004500308000CB, 0x0000450030901EBA,";
#"        0x0000450030C0011A, 0x0000450030F00204, 0x0000450031100206,";
#"        0x0000450032301EB8, 0x0000450032700228, 0x0000450032800118,";
#"        0x0000450032D01E18, 0x0000450033001E1A, 0x0000460030701E1E,";
#"        0x00004700301001F4, 0x000047003020011C, 0x0000470030401E20,";
#"        0x000047003060011E, 0x0000470030700120, 0x0000470030C001E6,";
#"        0x0000470032700122, 0x0000480030200124, 0x0000480030701E22,";
#"        0x0000480030801E26, 0x0000480030C0021E, 0x0000480032301E24,";
#"        0x0000480032701E28, 0x0000480032E01E2A, 0x00004900300000CC,";
#"        0x00004900301000CD, 0x00004900302000CE, 0x0000490030300128,";
#"        0x000049003040012A, 0x000049003060012C, 0x0000490030700130,";
#"        0x00004900308000CF, 0x0000490030901EC8, 0x0000490030C001CF,";
#"        0x0000490030F00208, 0x000049003110020A, 0x0000490032301ECA,";
#"        0x000049003280012E, 0x0000490033001E2C, 0x00004A0030200134,";
#"        0x00004B0030101E30, 0x00004B0030C001E8, 0x00004B0032301E32,";
#"        0x00004B0032700136, 0x00004B0033101E34, 0x00004C0030100139,";
#"        0x00004C0030C0013D, 0x00004C0032301E36, 0x00004C003270013B,";
#"        0x00004C0032D01E3C, 0x00004C0033101E3A, 0x00004D0030101E3E,";
#"        0x00004D0030701E40, 0x00004D0032301E42, 0x00004E00300001F8,";
#"        0x00004E0030100143, 0x00004E00303000D1, 0x00004E0030701E44,";
#"        0x00004E0030C00147, 0x00004E0032301E46, 0x00004E0032700145,";
#"        0x00004E0032D01E4A, 0x00004E0033101E48, 0x00004F00300000D2,";
#"        0x00004F00301000D3, 0x00004F00302000D4, 0x00004F00303000D5,";
#"        0x00004F003040014C, 0x00004F003060014E, 0x00004F003070022E,";
#"        0x00004F00308000D6, 0x00004F0030901ECE, 0x00004F0030B00150,";
#"        0x00004F0030C001D1, 0x00004F0030F0020C, 0x00004F003110020E,";
#"        0x00004F0031B001A0, 0x00004F0032301ECC, 0x00004F00328001EA,";
#"        0x0000500030101E54, 0x0000500030701E56, 0x0000520030100154,";
#"        0x0000520030701E58, 0x0000520030C00158, 0x0000520030F00210,";
#"        0x0000520031100212, 0x0000520032301E5A, 0x0000520032700156,";
#"        0x0000520033101E5E, 0x000053003010015A, 0x000053003020015C,";
#"        0x0000530030701E60, 0x0000530030C00160, 0x0000530032301E62,";
#"        0x0000530032600218, 0x000053003270015E, 0x0000540030701E6A,";
#"        0x0000540030C00164, 0x0000540032301E6C, 0x000054003260021A,";
#"        0x0000540032700162, 0x0000540032D01E70, 0x0000540033101E6E,";
#"        0x00005500300000D9, 0x00005500301000DA, 0x00005500302000DB,";
#"        0x0000550030300168, 0x000055003040016A, 0x000055003060016C,";
#"        0x00005500308000DC, 0x0000550030901EE6, 0x0000550030A0016E,";
#"        0x0000550030B00170, 0x0000550030C001D3, 0x0000550030F00214,";
#"        0x0000550031100216, 0x0000550031B001AF, 0x0000550032301EE4,";
#"        0x0000550032401E72, 0x0000550032800172, 0x0000550032D01E76,";
#"        0x0000550033001E74, 0x0000560030301E7C, 0x0000560032301E7E,";
#"        0x0000570030001E80, 0x0000570030101E82, 0x0000570030200174,";
#"        0x0000570030701E86, 0x0000570030801E84, 0x0000570032301E88,";
#"        0x0000580030701E8A, 0x0000580030801E8C, 0x0000590030001EF2,";
#"        0x00005900301000DD, 0x0000590030200176, 0x0000590030301EF8,";
#"        0x0000590030400232, 0x0000590030701E8E, 0x0000590030800178,";
#"        0x0000590030901EF6, 0x0000590032301EF4, 0x00005A0030100179,";
#"        0x00005A0030201E90, 0x00005A003070017B, 0x00005A0030C0017D,";
#"        0x00005A0032301E92, 0x00005A0033101E94, 0x00006100300000E0,";
#"        0x00006100301000E1, 0x00006100302000E2, 0x00006100303000E3,";
#"        0x0000610030400101, 0x0000610030600103, 0x0000610030700227,";
#"        0x00006100308000E4, 0x0000610030901EA3, 0x0000610030A000E5,";
#"        0x0000610030C001CE, 0x0000610030F00201, 0x0000610031100203,";
#"        0x0000610032301EA1, 0x0000610032501E01, 0x0000610032800105,";
#"        0x0000620030701E03, 0x0000620032301E05, 0x0000620033101E07,";
#"        0x0000630030100107, 0x0000630030200109, 0x000063003070010B,";
#"        0x0000630030C0010D, 0x00006300327000E7, 0x0000640030701E0B,";
#"        0x0000640030C0010F, 0x0000640032301E0D, 0x0000640032701E11,";
#"        0x0000640032D01E13, 0x0000640033101E0F, 0x00006500300000E8,";
#"        0x00006500301000E9, 0x00006500302000EA, 0x0000650030301EBD,";
#"        0x0000650030400113, 0x0000650030600115, 0x0000650030700117,";
#"        0x00006500308000EB, 0x0000650030901EBB, 0x0000650030C0011B,";
#"        0x0000650030F00205, 0x0000650031100207, 0x0000650032301EB9,";
#"        0x0000650032700229, 0x0000650032800119, 0x0000650032D01E19,";
#"        0x0000650033001E1B, 0x0000660030701E1F, 0x00006700301001F5,";
#"        0x000067003020011D, 0x0000670030401E21, 0x000067003060011F,";
#"        0x0000670030700121, 0x0000670030C001E7, 0x0000670032700123,";
#"        0x0000680030200125, 0x0000680030701E23, 0x0000680030801E27,";
#"        0x0000680030C0021F, 0x0000680032301E25, 0x0000680032701E29,";
#"        0x0000680032E01E2B, 0x0000680033101E96, 0x00006900300000EC,";
#"        0x00006900301000ED, 0x00006900302000EE, 0x0000690030300129,";
#"        0x000069003040012B, 0x000069003060012D, 0x00006900308000EF,";
#"        0x0000690030901EC9, 0x0000690030C001D0, 0x0000690030F00209,";
#"        0x000069003110020B, 0x0000690032301ECB, 0x000069003280012F,";
#"        0x0000690033001E2D, 0x00006A0030200135, 0x00006A0030C001F0,";
#"        0x00006B0030101E31, 0x00006B0030C001E9, 0x00006B0032301E33,";
#"        0x00006B0032700137, 0x00006B0033101E35, 0x00006C003010013A,";
#"        0x00006C0030C0013E, 0x00006C0032301E37, 0x00006C003270013C,";
#"        0x00006C0032D01E3D, 0x00006C0033101E3B, 0x00006D0030101E3F,";
#"        0x00006D0030701E41, 0x00006D0032301E43, 0x00006E00300001F9,";
#"        0x00006E0030100144, 0x00006E00303000F1, 0x00006E0030701E45,";
#"        0x00006E0030C00148, 0x00006E0032301E47, 0x00006E0032700146,";
#"        0x00006E0032D01E4B, 0x00006E0033101E49, 0x00006F00300000F2,";
#"        0x00006F00301000F3, 0x00006F00302000F4, 0x00006F00303000F5,";
#"        0x00006F003040014D, 0x00006F003060014F, 0x00006F003070022F,";
#"        0x00006F00308000F6, 0x00006F0030901ECF, 0x00006F0030B00151,";
#"        0x00006F0030C001D2, 0x00006F0030F0020D, 0x00006F003110020F,";
#"        0x00006F0031B001A1, 0x00006F0032301ECD, 0x00006F00328001EB,";
#"        0x0000700030101E55, 0x0000700030701E57, 0x0000720030100155,";
#"        0x0000720030701E59, 0x0000720030C00159, 0x0000720030F00211,";
#"        0x0000720031100213, 0x0000720032301E5B, 0x0000720032700157,";
#"        0x0000720033101E5F, 0x000073003010015B, 0x000073003020015D,";
#"        0x0000730030701E61, 0x0000730030C00161, 0x0000730032301E63,";
#"        0x0000730032600219, 0x000073003270015F, 0x0000740030701E6B,";
#"        0x0000740030801E97, 0x0000740030C00165, 0x0000740032301E6D,";
#"        0x000074003260021B, 0x0000740032700163, 0x0000740032D01E71,";
#"        0x0000740033101E6F, 0x00007500300000F9, 0x00007500301000FA,";
#"        0x00007500302000FB, 0x0000750030300169, 0x000075003040016B,";
#"        0x000075003060016D, 0x00007500308000FC, 0x0000750030901EE7,";
#"        0x0000750030A0016F, 0x0000750030B00171, 0x0000750030C001D4,";
#"        0x0000750030F00215, 0x0000750031100217, 0x0000750031B001B0,";
#"        0x0000750032301EE5, 0x0000750032401E73, 0x0000750032800173,";
#"        0x0000750032D01E77, 0x0000750033001E75, 0x0000760030301E7D,";
#"        0x0000760032301E7F, 0x0000770030001E81, 0x0000770030101E83,";
#"        0x0000770030200175, 0x0000770030701E87, 0x0000770030801E85,";
#"        0x0000770030A01E98, 0x0000770032301E89, 0x0000780030701E8B,";
#"        0x0000780030801E8D, 0x0000790030001EF3, 0x00007900301000FD,";
#"        0x0000790030200177, 0x0000790030301EF9, 0x0000790030400233,";
#"        0x0000790030701E8F, 0x00007900308000FF, 0x0000790030901EF7,";
#"        0x0000790030A01E99, 0x0000790032301EF5, 0x00007A003010017A,";
#"        0x00007A0030201E91, 0x00007A003070017C, 0x00007A0030C0017E,";
#"        0x00007A0032301E93, 0x00007A0033101E95, 0x0000A80030001FED,";
#"        0x0000A80030100385, 0x0000A80034201FC1, 0x0000C20030001EA6,";
#"        0x0000C20030101EA4, 0x0000C20030301EAA, 0x0000C20030901EA8,";
#"        0x0000C400304001DE, 0x0000C500301001FA, 0x0000C600301001FC,";
#"        0x0000C600304001E2, 0x0000C70030101E08, 0x0000CA0030001EC0,";
#"        0x0000CA0030101EBE, 0x0000CA0030301EC4, 0x0000CA0030901EC2,";
#"        0x0000CF0030101E2E, 0x0000D40030001ED2, 0x0000D40030101ED0,";
#"        0x0000D40030301ED6, 0x0000D40030901ED4, 0x0000D50030101E4C,";
#"        0x0000D5003040022C, 0x0000D50030801E4E, 0x0000D6003040022A,";
#"        0x0000D800301001FE, 0x0000DC00300001DB, 0x0000DC00301001D7,";
#"        0x0000DC00304001D5, 0x0000DC0030C001D9, 0x0000E20030001EA7,";
#"        0x0000E20030101EA5, 0x0000E20030301EAB, 0x0000E20030901EA9,";
#"        0x0000E400304001DF, 0x0000E500301001FB, 0x0000E600301001FD,";
#"        0x0000E600304001E3, 0x0000E70030101E09, 0x0000EA0030001EC1,";
#"        0x0000EA0030101EBF, 0x0000EA0030301EC5, 0x0000EA0030901EC3,";
#"        0x0000EF0030101E2F, 0x0000F40030001ED3, 0x0000F40030101ED1,";
#"        0x0000F40030301ED7, 0x0000F40030901ED5, 0x0000F50030101E4D,";
#"        0x0000F5003040022D, 0x0000F50030801E4F, 0x0000F6003040022B,";
#"        0x0000F800301001FF, 0x0000FC00300001DC, 0x0000FC00301001D8,";
#"        0x0000FC00304001D6, 0x0000FC0030C001DA, 0x0001020030001EB0,";
#"        0x0001020030101EAE, 0x0001020030301EB4, 0x0001020030901EB2,";
#"        0x0001030030001EB1, 0x0001030030101EAF, 0x0001030030301EB5,";
#"        0x0001030030901EB3, 0x0001120030001E14, 0x0001120030101E16,";
#"        0x0001130030001E15, 0x0001130030101E17, 0x00014C0030001E50,";
#"        0x00014C0030101E52, 0x00014D0030001E51, 0x00014D0030101E53,";
#"        0x00015A0030701E64, 0x00015B0030701E65, 0x0001600030701E66,";
#"        0x0001610030701E67, 0x0001680030101E78, 0x0001690030101E79,";
#"        0x00016A0030801E7A, 0x00016B0030801E7B, 0x00017F0030701E9B,";
#"        0x0001A00030001EDC, 0x0001A00030101EDA, 0x0001A00030301EE0,";
#"        0x0001A00030901EDE, 0x0001A00032301EE2, 0x0001A10030001EDD,";
#"        0x0001A10030101EDB, 0x0001A10030301EE1, 0x0001A10030901EDF,";
#"        0x0001A10032301EE3, 0x0001AF0030001EEA, 0x0001AF0030101EE8,";
#"        0x0001AF0030301EEE, 0x0001AF0030901EEC, 0x0001AF0032301EF0,";
#"        0x0001B00030001EEB, 0x0001B00030101EE9, 0x0001B00030301EEF,";
#"        0x0001B00030901EED, 0x0001B00032301EF1, 0x0001B70030C001EE,";
#"        0x0001EA00304001EC, 0x0001EB00304001ED, 0x00022600304001E0,";
#"        0x00022700304001E1, 0x0002280030601E1C, 0x0002290030601E1D,";
#"        0x00022E0030400230, 0x00022F0030400231, 0x0002920030C001EF,";
#"        0x0003080030100344, 0x0003910030001FBA, 0x0003910030100386,";
#"        0x0003910030401FB9, 0x0003910030601FB8, 0x0003910031301F08,";
#"        0x0003910031401F09, 0x0003910034501FBC, 0x0003950030001FC8,";
#"        0x0003950030100388, 0x0003950031301F18, 0x0003950031401F19,";
#"        0x0003970030001FCA, 0x0003970030100389, 0x0003970031301F28,";
#"        0x0003970031401F29, 0x0003970034501FCC, 0x0003990030001FDA,";
#"        0x000399003010038A, 0x0003990030401FD9, 0x0003990030601FD8,";
#"        0x00039900308003AA, 0x0003990031301F38, 0x0003990031401F39,";
#"        0x00039F0030001FF8, 0x00039F003010038C, 0x00039F0031301F48,";
#"        0x00039F0031401F49, 0x0003A10031401FEC, 0x0003A50030001FEA,";
#"        0x0003A5003010038E, 0x0003A50030401FE9, 0x0003A50030601FE8,";
#"        0x0003A500308003AB, 0x0003A50031401F59, 0x0003A90030001FFA,";
#"        0x0003A9003010038F, 0x0003A90031301F68, 0x0003A90031401F69,";
#"        0x0003A90034501FFC, 0x0003AC0034501FB4, 0x0003AE0034501FC4,";
#"        0x0003B10030001F70, 0x0003B100301003AC, 0x0003B10030401FB1,";
#"        0x0003B10030601FB0, 0x0003B10031301F00, 0x0003B10031401F01,";
#"        0x0003B10034201FB6, 0x0003B10034501FB3, 0x0003B50030001F72,";
#"        0x0003B500301003AD, 0x0003B50031301F10, 0x0003B50031401F11,";
#"        0x0003B70030001F74, 0x0003B700301003AE, 0x0003B70031301F20,";
#"        0x0003B70031401F21, 0x0003B70034201FC6, 0x0003B70034501FC3,";
#"        0x0003B90030001F76, 0x0003B900301003AF, 0x0003B90030401FD1,";
#"        0x0003B90030601FD0, 0x0003B900308003CA, 0x0003B90031301F30,";
#"        0x0003B90031401F31, 0x0003B90034201FD6, 0x0003BF0030001F78,";
#"        0x0003BF00301003CC, 0x0003BF0031301F40, 0x0003BF0031401F41,";
#"        0x0003C10031301FE4, 0x0003C10031401FE5, 0x0003C50030001F7A,";
#"        0x0003C500301003CD, 0x0003C50030401FE1, 0x0003C50030601FE0,";
#"        0x0003C500308003CB, 0x0003C50031301F50, 0x0003C50031401F51,";
#"        0x0003C50034201FE6, 0x0003C90030001F7C, 0x0003C900301003CE,";
#"        0x0003C90031301F60, 0x0003C90031401F61, 0x0003C90034201FF6,";
#"        0x0003C90034501FF3, 0x0003CA0030001FD2, 0x0003CA0030100390,";
#"        0x0003CA0034201FD7, 0x0003CB0030001FE2, 0x0003CB00301003B0,";
#"        0x0003CB0034201FE7, 0x0003CE0034501FF4, 0x0003D200301003D3,";
#"        0x0003D200308003D4, 0x0004060030800407, 0x00041000306004D0,";
#"        0x00041000308004D2, 0x0004130030100403, 0x0004150030000400,";
#"        0x00041500306004D6, 0x0004150030800401, 0x00041600306004C1,";
#"        0x00041600308004DC, 0x00041700308004DE, 0x000418003000040D,";
#"        0x00041800304004E2, 0x0004180030600419, 0x00041800308004E4,";
#"        0x00041A003010040C, 0x00041E00308004E6, 0x00042300304004EE,";
#"        0x000423003060040E, 0x00042300308004F0, 0x0004230030B004F2,";
#"        0x00042700308004F4, 0x00042B00308004F8, 0x00042D00308004EC,";
#"        0x00043000306004D1, 0x00043000308004D3, 0x0004330030100453,";
#"        0x0004350030000450, 0x00043500306004D7, 0x0004350030800451,";
#"        0x00043600306004C2, 0x00043600308004DD, 0x00043700308004DF,";
#"        0x000438003000045D, 0x00043800304004E3, 0x0004380030600439,";
#"        0x00043800308004E5, 0x00043A003010045C, 0x00043E00308004E7,";
#"        0x00044300304004EF, 0x000443003060045E, 0x00044300308004F1,";
#"        0x0004430030B004F3, 0x00044700308004F5, 0x00044B00308004F9,";
#"        0x00044D00308004ED, 0x0004560030800457, 0x0004740030F00476,";
#"        0x0004750030F00477, 0x0004D800308004DA, 0x0004D900308004DB,";
#"        0x0004E800308004EA, 0x0004E900308004EB, 0x0005D0005B70FB2E,";
#"        0x0005D0005B80FB2F, 0x0005D0005BC0FB30, 0x0005D1005BC0FB31,";
#"        0x0005D1005BF0FB4C, 0x0005D2005BC0FB32, 0x0005D3005BC0FB33,";
#"        0x0005D4005BC0FB34, 0x0005D5005B90FB4B, 0x0005D5005BC0FB35,";
#"        0x0005D6005BC0FB36, 0x0005D8005BC0FB38, 0x0005D9005B40FB1D,";
#"        0x0005D9005BC0FB39, 0x0005DA005BC0FB3A, 0x0005DB005BC0FB3B,";
#"        0x0005DB005BF0FB4D, 0x0005DC005BC0FB3C, 0x0005DE005BC0FB3E,";
#"        0x0005E0005BC0FB40, 0x0005E1005BC0FB41, 0x0005E3005BC0FB43,";
#"        0x0005E4005BC0FB44, 0x0005E4005BF0FB4E, 0x0005E6005BC0FB46,";
#"        0x0005E7005BC0FB47, 0x0005E8005BC0FB48, 0x0005E9005BC0FB49,";
#"        0x0005E9005C10FB2A, 0x0005E9005C20FB2B, 0x0005EA005BC0FB4A,";
#"        0x0005F2005B70FB1F, 0x0006270065300622, 0x0006270065400623,";
#"        0x0006270065500625, 0x0006480065400624, 0x00064A0065400626,";
#"        0x0006C100654006C2, 0x0006D200654006D3, 0x0006D500654006C0,";
#"        0x0009150093C00958, 0x0009160093C00959, 0x0009170093C0095A,";
#"        0x00091C0093C0095B, 0x0009210093C0095C, 0x0009220093C0095D,";
#"        0x0009280093C00929, 0x00092B0093C0095E, 0x00092F0093C0095F,";
#"        0x0009300093C00931, 0x0009330093C00934, 0x0009A1009BC009DC,";
#"        0x0009A2009BC009DD, 0x0009AF009BC009DF, 0x0009C7009BE009CB,";
#"        0x0009C7009D7009CC, 0x000A1600A3C00A59, 0x000A1700A3C00A5A,";
#"        0x000A1C00A3C00A5B, 0x000A2B00A3C00A5E, 0x000A3200A3C00A33,";
#"        0x000A3800A3C00A36, 0x000B2100B3C00B5C, 0x000B2200B3C00B5D,";
#"        0x000B4700B3E00B4B, 0x000B4700B5600B48, 0x000B4700B5700B4C,";
#"        0x000B9200BD700B94, 0x000BC600BBE00BCA, 0x000BC600BD700BCC,";
#"        0x000BC700BBE00BCB, 0x000C4600C5600C48, 0x000CBF00CD500CC0,";
#"        0x000CC600CC200CCA, 0x000CC600CD500CC7, 0x000CC600CD600CC8,";
#"        0x000CCA00CD500CCB, 0x000D4600D3E00D4A, 0x000D4600D5700D4C,";
#"        0x000D4700D3E00D4B, 0x000DD900DCA00DDA, 0x000DD900DCF00DDC,";
#"        0x000DD900DDF00DDE, 0x000DDC00DCA00DDD, 0x000F4000FB500F69,";
#"        0x000F4200FB700F43, 0x000F4C00FB700F4D, 0x000F5100FB700F52,";
#"        0x000F5600FB700F57, 0x000F5B00FB700F5C, 0x000F7100F7200F73,";
#"        0x000F7100F7400F75, 0x000F7100F8000F81, 0x000F9000FB500FB9,";
#"        0x000F9200FB700F93, 0x000F9C00FB700F9D, 0x000FA100FB700FA2,";
#"        0x000FA600FB700FA7, 0x000FAB00FB700FAC, 0x000FB200F8000F76,";
#"        0x000FB300F8000F78, 0x0010250102E01026, 0x001B0501B3501B06,";
#"        0x001B0701B3501B08, 0x001B0901B3501B0A, 0x001B0B01B3501B0C,";
#"        0x001B0D01B3501B0E, 0x001B1101B3501B12, 0x001B3A01B3501B3B,";
#"        0x001B3C01B3501B3D, 0x001B3E01B3501B40, 0x001B3F01B3501B41,";
#"        0x001B4201B3501B43, 0x001E360030401E38, 0x001E370030401E39,";
#"        0x001E5A0030401E5C, 0x001E5B0030401E5D, 0x001E620030701E68,";
#"        0x001E630030701E69, 0x001EA00030201EAC, 0x001EA00030601EB6,";
#"        0x001EA10030201EAD, 0x001EA10030601EB7, 0x001EB80030201EC6,";
#"        0x001EB90030201EC7, 0x001ECC0030201ED8, 0x001ECD0030201ED9,";
#"        0x001F000030001F02, 0x001F000030101F04, 0x001F000034201F06,";
#"        0x001F000034501F80, 0x001F010030001F03, 0x001F010030101F05,";
#"        0x001F010034201F07, 0x001F010034501F81, 0x001F020034501F82,";
#"        0x001F030034501F83, 0x001F040034501F84, 0x001F050034501F85,";
#"        0x001F060034501F86, 0x001F070034501F87, 0x001F080030001F0A,";
#"        0x001F080030101F0C, 0x001F080034201F0E, 0x001F080034501F88,";
#"        0x001F090030001F0B, 0x001F090030101F0D, 0x001F090034201F0F,";
#"        0x001F090034501F89, 0x001F0A0034501F8A, 0x001F0B0034501F8B,";
#"        0x001F0C0034501F8C, 0x001F0D0034501F8D, 0x001F0E0034501F8E,";
#"        0x001F0F0034501F8F, 0x001F100030001F12, 0x001F100030101F14,";
#"        0x001F110030001F13, 0x001F110030101F15, 0x001F180030001F1A,";
#"        0x001F180030101F1C, 0x001F190030001F1B, 0x001F190030101F1D,";
#"        0x001F200030001F22, 0x001F200030101F24, 0x001F200034201F26,";
#"        0x001F200034501F90, 0x001F210030001F23, 0x001F210030101F25,";
#"        0x001F210034201F27, 0x001F210034501F91, 0x001F220034501F92,";
#"        0x001F230034501F93, 0x001F240034501F94, 0x001F250034501F95,";
#"        0x001F260034501F96, 0x001F270034501F97, 0x001F280030001F2A,";
#"        0x001F280030101F2C, 0x001F280034201F2E, 0x001F280034501F98,";
#"        0x001F290030001F2B, 0x001F290030101F2D, 0x001F290034201F2F,";
#"        0x001F290034501F99, 0x001F2A0034501F9A, 0x001F2B0034501F9B,";
#"        0x001F2C0034501F9C, 0x001F2D0034501F9D, 0x001F2E0034501F9E,";
#"        0x001F2F0034501F9F, 0x001F300030001F32, 0x001F300030101F34,";
#"        0x001F300034201F36, 0x001F310030001F33, 0x001F310030101F35,";
#"        0x001F310034201F37, 0x001F380030001F3A, 0x001F380030101F3C,";
#"        0x001F380034201F3E, 0x001F390030001F3B, 0x001F390030101F3D,";
#"        0x001F390034201F3F, 0x001F400030001F42, 0x001F400030101F44,";
#"        0x001F410030001F43, 0x001F410030101F45, 0x001F480030001F4A,";
#"        0x001F480030101F4C, 0x001F490030001F4B, 0x001F490030101F4D,";
#"        0x001F500030001F52, 0x001F500030101F54, 0x001F500034201F56,";
#"        0x001F510030001F53, 0x001F510030101F55, 0x001F510034201F57,";
#"        0x001F590030001F5B, 0x001F590030101F5D, 0x001F590034201F5F,";
#"        0x001F600030001F62, 0x001F600030101F64, 0x001F600034201F66,";
#"        0x001F600034501FA0, 0x001F610030001F63, 0x001F610030101F65,";
#"        0x001F610034201F67, 0x001F610034501FA1, 0x001F620034501FA2,";
#"        0x001F630034501FA3, 0x001F640034501FA4, 0x001F650034501FA5,";
#"        0x001F660034501FA6, 0x001F670034501FA7, 0x001F680030001F6A,";
#"        0x001F680030101F6C, 0x001F680034201F6E, 0x001F680034501FA8,";
#"        0x001F690030001F6B, 0x001F690030101F6D, 0x001F690034201F6F,";
#"        0x001F690034501FA9, 0x001F6A0034501FAA, 0x001F6B0034501FAB,";
#"        0x001F6C0034501FAC, 0x001F6D0034501FAD, 0x001F6E0034501FAE,";
#"        0x001F6F0034501FAF, 0x001F700034501FB2, 0x001F740034501FC2,";
#"        0x001F7C0034501FF2, 0x001FB60034501FB7, 0x001FBF0030001FCD,";
#"        0x001FBF0030101FCE, 0x001FBF0034201FCF, 0x001FC60034501FC7,";
#"        0x001FF60034501FF7, 0x001FFE0030001FDD, 0x001FFE0030101FDE,";
#"        0x001FFE0034201FDF, 0x002190003380219A, 0x002192003380219B,";
#"        0x00219400338021AE, 0x0021D000338021CD, 0x0021D200338021CF,";
#"        0x0021D400338021CE, 0x0022030033802204, 0x0022080033802209,";
#"        0x00220B003380220C, 0x0022230033802224, 0x0022250033802226,";
#"        0x00223C0033802241, 0x0022430033802244, 0x0022450033802247,";
#"        0x0022480033802249, 0x00224D003380226D, 0x0022610033802262,";
#"        0x0022640033802270, 0x0022650033802271, 0x0022720033802274,";
#"        0x0022730033802275, 0x0022760033802278, 0x0022770033802279,";
#"        0x00227A0033802280, 0x00227B0033802281, 0x00227C00338022E0,";
#"        0x00227D00338022E1, 0x0022820033802284, 0x0022830033802285,";
#"        0x0022860033802288, 0x0022870033802289, 0x00229100338022E2,";
#"        0x00229200338022E3, 0x0022A200338022AC, 0x0022A800338022AD,";
#"        0x0022A900338022AE, 0x0022AB00338022AF, 0x0022B200338022EA,";
#"        0x0022B300338022EB, 0x0022B400338022EC, 0x0022B500338022ED,";
#"        0x002ADD0033802ADC, 0x0030460309903094, 0x00304B030990304C,";
#"        0x00304D030990304E, 0x00304F0309903050, 0x0030510309903052,";
#"        0x0030530309903054, 0x0030550309903056, 0x0030570309903058,";
#"        0x003059030990305A, 0x00305B030990305C, 0x00305D030990305E,";
#"        0x00305F0309903060, 0x0030610309903062, 0x0030640309903065,";
#"        0x0030660309903067, 0x0030680309903069, 0x00306F0309903070,";
#"        0x00306F0309A03071, 0x0030720309903073, 0x0030720309A03074,";
#"        0x0030750309903076, 0x0030750309A03077, 0x0030780309903079,";
#"        0x0030780309A0307A, 0x00307B030990307C, 0x00307B0309A0307D,";
#"        0x00309D030990309E, 0x0030A603099030F4, 0x0030AB03099030AC,";
#"        0x0030AD03099030AE, 0x0030AF03099030B0, 0x0030B103099030B2,";
#"        0x0030B303099030B4, 0x0030B503099030B6, 0x0030B703099030B8,";
#"        0x0030B903099030BA, 0x0030BB03099030BC, 0x0030BD03099030BE,";
#"        0x0030BF03099030C0, 0x0030C103099030C2, 0x0030C403099030C5,";
#"        0x0030C603099030C7, 0x0030C803099030C9, 0x0030CF03099030D0,";
#"        0x0030CF0309A030D1, 0x0030D203099030D3, 0x0030D20309A030D4,";
#"        0x0030D503099030D6, 0x0030D50309A030D7, 0x0030D803099030D9,";
#"        0x0030D80309A030DA, 0x0030DB03099030DC, 0x0030DB0309A030DD,";
#"        0x0030EF03099030F7, 0x0030F003099030F8, 0x0030F103099030F9,";
#"        0x0030F203099030FA, 0x0030FD03099030FE, 0x00FB49005C10FB2C,";
#"        0x00FB49005C20FB2D, 0x0105D200307105C9, 0x0105DA00307105E4,";
#"        0x011099110BA1109A, 0x01109B110BA1109C, 0x0110A5110BA110AB,";
#"        0x011131111271112E, 0x011132111271112F, 0x0113471133E1134B,";
#"        0x011347113571134C, 0x011382113C911383, 0x011384113BB11385,";
#"        0x01138B113C21138E, 0x011390113C911391, 0x0113C2113B8113C7,";
#"        0x0113C2113C2113C5, 0x0113C2113C9113C8, 0x0114B9114B0114BC,";
#"        0x0114B9114BA114BB, 0x0114B9114BD114BE, 0x0115B8115AF115BA,";
#"        0x0115B9115AF115BB, 0x0119351193011938, 0x01611E1611E16121,";
#"        0x01611E1611F16123, 0x01611E1612016125, 0x01611E1612916122,";
#"        0x0161211611F16126, 0x0161211612016128, 0x0161221611F16127,";
#"        0x0161291611F16124, 0x016D6316D6716D69, 0x016D6716D6716D68,";
#"        0x016D6916D6716D6A, 0x01D1571D1651D15E, 0x01D1581D1651D15F,";
#"        0x01D15F1D16E1D160, 0x01D15F1D16F1D161, 0x01D15F1D1701D162,";
#"        0x01D15F1D1711D163, 0x01D15F1D1721D164, 0x01D1B91D1651D1BB,";
#"        0x01D1BA1D1651D1BC, 0x01D1BB1D16E1D1BD, 0x01D1BB1D16F1D1BF,";
#"        0x01D1BC1D16E1D1BE, 0x01D1BC1D16F1D1C0";
#"    };";
#"}";
#""].
