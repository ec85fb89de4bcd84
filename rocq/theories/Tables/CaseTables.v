(** Generated by tools/gen_tables.py; do not edit. *)
From Verif Require Import Base.

(** src/Ystring/LowerCaseTables.hpp:14-99 *)
Definition COMPACT_LOWER_CASE : list (N * N * N * N) := [
  (0x000040, 0x00000020, 0x07FFFFFE, 0xF8000001); (0x0000C0, 0x00000020, 0x7F7FFFFF, 0x80800000);
  (0x000100, 0x00000001, 0x55555555, 0xAAAAAAAA); (0x000120, 0x00000001, 0xAA545555, 0x55AAAAAA);
  (0x000140, 0x00000001, 0x555554AA, 0xAAAAAB55); (0x000160, 0x00000001, 0x2A555555, 0xD4AAAAAA);
  (0x000180, 0x00000001, 0x01020894, 0x4E243129); (0x0001A0, 0x00000001, 0x11289095, 0xEE512D2A);
  (0x0001C0, 0x00000001, 0x4AAAA920, 0xB555524F); (0x0001E0, 0x00000001, 0x55145555, 0xAA29AAAA);
  (0x000200, 0x00000001, 0x55555555, 0xAAAAAAAA); (0x000220, 0x00000001, 0x08055554, 0x93FAAAAA);
  (0x000240, 0x00000001, 0x00005542, 0xFFFFAA85); (0x000360, 0x00000001, 0x00450000, 0x7FBAFFFF);
  (0x000380, 0x00000020, 0xFFFE0000, 0x000128BF); (0x0003A0, 0x00000020, 0x00000FFB, 0xFFFFF004);
  (0x0003C0, 0x00000001, 0x55000000, 0xAAFF7FFF); (0x0003E0, 0x00000001, 0x04805555, 0x196FAAAA);
  (0x000400, 0x00000050, 0x0000FFFF, 0x00000000); (0x000420, 0x00000020, 0x0000FFFF, 0xFFFF0000);
  (0x000460, 0x00000001, 0x55555555, 0xAAAAAAAA); (0x000480, 0x00000001, 0x55555401, 0xAAAAABFE);
  (0x0004A0, 0x00000001, 0x55555555, 0xAAAAAAAA); (0x0004C0, 0x00000001, 0x55552AAA, 0xAAAAD554);
  (0x0004E0, 0x00000001, 0x55555555, 0xAAAAAAAA); (0x000500, 0x00000001, 0x55555555, 0xAAAAAAAA);
  (0x000520, 0x00000030, 0xFFFE0000, 0x0001AAAA); (0x000540, 0x00000030, 0x007FFFFF, 0xFF800000);
  (0x0010A0, 0x00001C60, 0xFFFFFFFF, 0x00000000); (0x0010C0, 0x00001C60, 0x000020BF, 0xFFFFDF40);
  (0x0013A0, 0x000097D0, 0xFFFFFFFF, 0x00000000); (0x0013C0, 0x000097D0, 0xFFFFFFFF, 0x00000000);
  (0x0013E0, 0x000097D0, 0x0000FFFF, 0xFFC00000); (0x001C80, 0xFFFFF440, 0xFFFF0000, 0x0000FDFF);
  (0x001CA0, 0xFFFFF440, 0xE7FFFFFF, 0x18000000); (0x001E00, 0x00000001, 0x55555555, 0xAAAAAAAA);
  (0x001E20, 0x00000001, 0x55555555, 0xAAAAAAAA); (0x001E40, 0x00000001, 0x55555555, 0xAAAAAAAA);
  (0x001E60, 0x00000001, 0x55555555, 0xAAAAAAAA); (0x001E80, 0x00000001, 0x00155555, 0xBFEAAAAA);
  (0x001EA0, 0x00000001, 0x55555555, 0xAAAAAAAA); (0x001EC0, 0x00000001, 0x55555555, 0xAAAAAAAA);
  (0x001EE0, 0x00000001, 0x55555555, 0xAAAAAAAA); (0x001F00, 0xFFFFFFF8, 0x3F00FF00, 0xC0FF00FF);
  (0x001F20, 0xFFFFFFF8, 0xFF00FF00, 0x00FF00FF); (0x001F40, 0xFFFFFFF8, 0xAA003F00, 0x55FFC0FF);
  (0x001F60, 0xFFFFFFF8, 0x0000FF00, 0xFFFF00FF); (0x001F80, 0xFFFFFFF8, 0xFF00FF00, 0x00FF00FF);
  (0x001FA0, 0xFFFFFFF8, 0x0300FF00, 0xE0FF00FF); (0x001FC0, 0xFFFFFFAA, 0x00000F00, 0xF0FFE0FF);
  (0x002160, 0x00000010, 0x0000FFFF, 0xFFFF0000); (0x0024A0, 0x0000001A, 0xFFC00000, 0x003FFFFF);
  (0x0024C0, 0x0000001A, 0x0000FFFF, 0xFFFF0000); (0x002C00, 0x00000030, 0xFFFFFFFF, 0x00000000);
  (0x002C20, 0x00000030, 0x0000FFFF, 0xFFFF0000); (0x002C60, 0x00000001, 0x00240A81, 0x3FDA1562);
  (0x002C80, 0x00000001, 0x55555555, 0xAAAAAAAA); (0x002CA0, 0x00000001, 0x55555555, 0xAAAAAAAA);
  (0x002CC0, 0x00000001, 0x55555555, 0xAAAAAAAA); (0x002CE0, 0x00000001, 0x00042805, 0xFFFBD7FA);
  (0x00A640, 0x00000001, 0x55555555, 0xAAAAAAAA); (0x00A660, 0x00000001, 0x00001555, 0xFFFFEAAA);
  (0x00A680, 0x00000001, 0x05555555, 0xFAAAAAAA); (0x00A720, 0x00000001, 0x55545554, 0xAAABAAAB);
  (0x00A740, 0x00000001, 0x55555555, 0xAAAAAAAA); (0x00A760, 0x00000001, 0x4A005555, 0x95FFAAAA);
  (0x00A780, 0x00000001, 0x55450855, 0xAABAD7AA); (0x00A7A0, 0x00000001, 0x55500155, 0xAAA082AA);
  (0x00A7C0, 0x00000001, 0x05411285, 0xEABEE50A); (0x00FF20, 0x00000020, 0x07FFFFFE, 0xF8000001);
  (0x010400, 0x00000028, 0xFFFFFFFF, 0x00000000); (0x010420, 0x00000028, 0x000000FF, 0xFFFFFF00);
  (0x0104A0, 0x00000028, 0xFFFF0000, 0x0000FFFF); (0x0104C0, 0x00000028, 0x000FFFFF, 0xFFF00000);
  (0x010560, 0x00000027, 0xF7FF0000, 0x0800FFFF); (0x010580, 0x00000027, 0x0037F7FF, 0xFFC80800);
  (0x010C80, 0x00000040, 0xFFFFFFFF, 0x00000000); (0x010CA0, 0x00000040, 0x0007FFFF, 0xFFF80000);
  (0x010D40, 0x00000020, 0xFFFF0000, 0x0000FFFF); (0x010D60, 0x00000020, 0x0000003F, 0xFFFFFFC0);
  (0x0118A0, 0x00000020, 0xFFFFFFFF, 0x00000000); (0x016E40, 0x00000020, 0xFFFFFFFF, 0x00000000);
  (0x01E900, 0x00000022, 0xFFFFFFFF, 0x00000000)
].

(** src/Ystring/LowerCaseTables.hpp:101-236 *)
Definition LOWER_CASE : list (N * N) := [
  (0x000130, 0x000069); (0x000178, 0x0000FF); (0x000181, 0x000253); (0x000186, 0x000254);
  (0x000189, 0x000256); (0x00018A, 0x000257); (0x00018E, 0x0001DD); (0x00018F, 0x000259);
  (0x000190, 0x00025B); (0x000193, 0x000260); (0x000194, 0x000263); (0x000196, 0x000269);
  (0x000197, 0x000268); (0x00019C, 0x00026F); (0x00019D, 0x000272); (0x00019F, 0x000275);
  (0x0001A6, 0x000280); (0x0001A9, 0x000283); (0x0001AE, 0x000288); (0x0001B1, 0x00028A);
  (0x0001B2, 0x00028B); (0x0001B7, 0x000292); (0x0001C4, 0x0001C6); (0x0001C7, 0x0001C9);
  (0x0001CA, 0x0001CC); (0x0001F1, 0x0001F3); (0x0001F6, 0x000195); (0x0001F7, 0x0001BF);
  (0x000220, 0x00019E); (0x00023A, 0x002C65); (0x00023D, 0x00019A); (0x00023E, 0x002C66);
  (0x000243, 0x000180); (0x000244, 0x000289); (0x000245, 0x00028C); (0x00037F, 0x0003F3);
  (0x000386, 0x0003AC); (0x000388, 0x0003AD); (0x000389, 0x0003AE); (0x00038A, 0x0003AF);
  (0x00038C, 0x0003CC); (0x00038E, 0x0003CD); (0x00038F, 0x0003CE); (0x0003CF, 0x0003D7);
  (0x0003F4, 0x0003B8); (0x0003F9, 0x0003F2); (0x0003FD, 0x00037B); (0x0003FE, 0x00037C);
  (0x0003FF, 0x00037D); (0x000410, 0x000430); (0x000411, 0x000431); (0x000412, 0x000432);
  (0x000413, 0x000433); (0x000414, 0x000434); (0x000415, 0x000435); (0x000416, 0x000436);
  (0x000417, 0x000437); (0x000418, 0x000438); (0x000419, 0x000439); (0x00041A, 0x00043A);
  (0x00041B, 0x00043B); (0x00041C, 0x00043C); (0x00041D, 0x00043D); (0x00041E, 0x00043E);
  (0x00041F, 0x00043F); (0x0004C0, 0x0004CF); (0x000520, 0x000521); (0x000522, 0x000523);
  (0x000524, 0x000525); (0x000526, 0x000527); (0x000528, 0x000529); (0x00052A, 0x00052B);
  (0x00052C, 0x00052D); (0x00052E, 0x00052F); (0x0013F0, 0x0013F8); (0x0013F1, 0x0013F9);
  (0x0013F2, 0x0013FA); (0x0013F3, 0x0013FB); (0x0013F4, 0x0013FC); (0x0013F5, 0x0013FD);
  (0x001C89, 0x001C8A); (0x001E9E, 0x0000DF); (0x001FBA, 0x001F70); (0x001FBB, 0x001F71);
  (0x001FBC, 0x001FB3); (0x001FCC, 0x001FC3); (0x001FD8, 0x001FD0); (0x001FD9, 0x001FD1);
  (0x001FDA, 0x001F76); (0x001FDB, 0x001F77); (0x001FE8, 0x001FE0); (0x001FE9, 0x001FE1);
  (0x001FEA, 0x001F7A); (0x001FEB, 0x001F7B); (0x001FEC, 0x001FE5); (0x001FF8, 0x001F78);
  (0x001FF9, 0x001F79); (0x001FFA, 0x001F7C); (0x001FFB, 0x001F7D); (0x001FFC, 0x001FF3);
  (0x002126, 0x0003C9); (0x00212A, 0x00006B); (0x00212B, 0x0000E5); (0x002132, 0x00214E);
  (0x002183, 0x002184); (0x002C62, 0x00026B); (0x002C63, 0x001D7D); (0x002C64, 0x00027D);
  (0x002C6D, 0x000251); (0x002C6E, 0x000271); (0x002C6F, 0x000250); (0x002C70, 0x000252);
  (0x002C7E, 0x00023F); (0x002C7F, 0x000240); (0x00A77D, 0x001D79); (0x00A78D, 0x000265);
  (0x00A7AA, 0x000266); (0x00A7AB, 0x00025C); (0x00A7AC, 0x000261); (0x00A7AD, 0x00026C);
  (0x00A7AE, 0x00026A); (0x00A7B0, 0x00029E); (0x00A7B1, 0x000287); (0x00A7B2, 0x00029D);
  (0x00A7B3, 0x00AB53); (0x00A7C4, 0x00A794); (0x00A7C5, 0x000282); (0x00A7C6, 0x001D8E);
  (0x00A7CB, 0x000264); (0x00A7DC, 0x00019B); (0x00A7F5, 0x00A7F6); (0x01E920, 0x01E942);
  (0x01E921, 0x01E943)
].

(** src/Ystring/TitleCaseTables.hpp:14-101 *)
Definition COMPACT_TITLE_CASE : list (N * N * N * N) := [
  (0x000060, 0xFFFFFFE0, 0x07FFFFFE, 0xF8000001); (0x0000E0, 0xFFFFFFE0, 0x7F7FFFFF, 0x00800000);
  (0x000100, 0xFFFFFFFF, 0xAAAAAAAA, 0x55555555); (0x000120, 0xFFFFFFFF, 0x54A8AAAA, 0xAB555555);
  (0x000140, 0xFFFFFFFF, 0xAAAAA955, 0x555556AA); (0x000160, 0xFFFFFFFF, 0x54AAAAAA, 0x2B555555);
  (0x000180, 0xFFFFFFFF, 0x02041128, 0xB1DBEED6); (0x0001A0, 0xFFFFFFFF, 0x2251212A, 0x5DAEDED5);
  (0x0001C0, 0xFFFFFFFF, 0x95555240, 0x4AAAA00F); (0x0001E0, 0xFFFFFFFF, 0xAA28AAAA, 0x55D15555);
  (0x000200, 0xFFFFFFFF, 0xAAAAAAAA, 0x55555555); (0x000220, 0xFFFFFFFF, 0x100AAAA8, 0x6FF55557);
  (0x000240, 0xFFFFFFFF, 0x0000AA84, 0xE520557A); (0x000280, 0xFFFFFF26, 0x00000109, 0x9FFBE072);
  (0x000360, 0xFFFFFFFF, 0x008A0000, 0xC775FFFF); (0x0003A0, 0xFFFFFFE0, 0xFFFE0000, 0x00010FFF);
  (0x0003C0, 0xFFFFFFE0, 0x00000FFB, 0x551C8000); (0x0003E0, 0xFFFFFFFF, 0x0900AAAA, 0xF6D05555);
  (0x000420, 0xFFFFFFE0, 0xFFFF0000, 0x0000FFFF); (0x000440, 0xFFFFFFE0, 0x0000FFFF, 0x00000000);
  (0x000460, 0xFFFFFFFF, 0xAAAAAAAA, 0x55555555); (0x000480, 0xFFFFFFFF, 0xAAAAA802, 0x555557FD);
  (0x0004A0, 0xFFFFFFFF, 0xAAAAAAAA, 0x55555555); (0x0004C0, 0xFFFFFFFF, 0xAAAA5554, 0x55552AAB);
  (0x0004E0, 0xFFFFFFFF, 0xAAAAAAAA, 0x55555555); (0x000500, 0xFFFFFFFF, 0xAAAAAAAA, 0x55555555);
  (0x000520, 0xFFFFFFFF, 0x0000AAAA, 0xFFFF5555); (0x000560, 0xFFFFFFD0, 0xFFFFFFFE, 0x00000001);
  (0x000580, 0xFFFFFFD0, 0x0000007F, 0xFFFFFF80); (0x0010C0, 0x00000000, 0xFFFF0000, 0x0000FFFF);
  (0x0010E0, 0x00000000, 0xE7FFFFFF, 0x18000000); (0x0013E0, 0xFFFFFFF8, 0x3F000000, 0xC0FFFFFF);
  (0x001E00, 0xFFFFFFFF, 0xAAAAAAAA, 0x55555555); (0x001E20, 0xFFFFFFFF, 0xAAAAAAAA, 0x55555555);
  (0x001E40, 0xFFFFFFFF, 0xAAAAAAAA, 0x55555555); (0x001E60, 0xFFFFFFFF, 0xAAAAAAAA, 0x55555555);
  (0x001E80, 0xFFFFFFFF, 0x002AAAAA, 0xF7D55555); (0x001EA0, 0xFFFFFFFF, 0xAAAAAAAA, 0x55555555);
  (0x001EC0, 0xFFFFFFFF, 0xAAAAAAAA, 0x55555555); (0x001EE0, 0xFFFFFFFF, 0xAAAAAAAA, 0x55555555);
  (0x001F00, 0x00000008, 0x003F00FF, 0xFFC0FF00); (0x001F20, 0x00000008, 0x00FF00FF, 0xFF00FF00);
  (0x001F40, 0x00000008, 0x00AA003F, 0xFF55FFC0); (0x001F60, 0x00000008, 0x000000FF, 0xC000FF00);
  (0x001F80, 0x00000008, 0x00FF00FF, 0xFF00FF00); (0x001FA0, 0x00000008, 0x000300FF, 0xBFF4FF00);
  (0x002160, 0xFFFFFFF0, 0xFFFF0000, 0x0000FFFF); (0x0024C0, 0xFFFFFFE6, 0xFFFF0000, 0x0000FFFF);
  (0x0024E0, 0xFFFFFFE6, 0x000003FF, 0xFFFFFC00); (0x002C20, 0xFFFFFFD0, 0xFFFF0000, 0x0000FFFF);
  (0x002C40, 0xFFFFFFD0, 0xFFFFFFFF, 0x00000000); (0x002C60, 0xFFFFFFFF, 0x00481502, 0xFFB7EA9D);
  (0x002C80, 0xFFFFFFFF, 0xAAAAAAAA, 0x55555555); (0x002CA0, 0xFFFFFFFF, 0xAAAAAAAA, 0x55555555);
  (0x002CC0, 0xFFFFFFFF, 0xAAAAAAAA, 0x55555555); (0x002CE0, 0xFFFFFFFF, 0x0008500A, 0xFFF7AFF5);
  (0x002D00, 0xFFFFE3A0, 0xFFFFFFFF, 0x00000000); (0x002D20, 0xFFFFE3A0, 0x000020BF, 0xFFFFDF40);
  (0x00A640, 0xFFFFFFFF, 0xAAAAAAAA, 0x55555555); (0x00A660, 0xFFFFFFFF, 0x00002AAA, 0xFFFFD555);
  (0x00A680, 0xFFFFFFFF, 0x0AAAAAAA, 0xF5555555); (0x00A720, 0xFFFFFFFF, 0xAAA8AAA8, 0x55575557);
  (0x00A740, 0xFFFFFFFF, 0xAAAAAAAA, 0x55555555); (0x00A760, 0xFFFFFFFF, 0x9400AAAA, 0x6BFF5555);
  (0x00A780, 0xFFFFFFFF, 0xAA8A10AA, 0x5565EF55); (0x00A7A0, 0xFFFFFFFF, 0xAAA002AA, 0x555FFD55);
  (0x00A7C0, 0xFFFFFFFF, 0x0A82250A, 0xF57DDAF5); (0x00AB60, 0xFFFF6830, 0xFFFF0000, 0x0000FFFF);
  (0x00AB80, 0xFFFF6830, 0xFFFFFFFF, 0x00000000); (0x00ABA0, 0xFFFF6830, 0xFFFFFFFF, 0x00000000);
  (0x00FF40, 0xFFFFFFE0, 0x07FFFFFE, 0xF8000001); (0x010420, 0xFFFFFFD8, 0xFFFFFF00, 0x000000FF);
  (0x010440, 0xFFFFFFD8, 0x0000FFFF, 0xFFFF0000); (0x0104C0, 0xFFFFFFD8, 0xFF000000, 0x00FFFFFF);
  (0x0104E0, 0xFFFFFFD8, 0x0FFFFFFF, 0xF0000000); (0x010580, 0xFFFFFFD9, 0xFF800000, 0x007FFFFF);
  (0x0105A0, 0xFFFFFFD9, 0x1BFBFFFB, 0xE4040004); (0x010CC0, 0xFFFFFFC0, 0xFFFFFFFF, 0x00000000);
  (0x010CE0, 0xFFFFFFC0, 0x0007FFFF, 0xFFF80000); (0x010D60, 0xFFFFFFE0, 0xFFFF0000, 0x0000FFFF);
  (0x010D80, 0xFFFFFFE0, 0x0000003F, 0xFFFFFFC0); (0x0118C0, 0xFFFFFFE0, 0xFFFFFFFF, 0x00000000);
  (0x016E60, 0xFFFFFFE0, 0xFFFFFFFF, 0x00000000); (0x01E920, 0xFFFFFFDE, 0xFFFFFFFC, 0x00000003);
  (0x01E940, 0xFFFFFFDE, 0x0000000F, 0xFFFFFFF0)
].

(** src/Ystring/TitleCaseTables.hpp:103-248 *)
Definition TITLE_CASE : list (N * N) := [
  (0x0000B5, 0x00039C); (0x0000FF, 0x000178); (0x000131, 0x000049); (0x00017F, 0x000053);
  (0x000180, 0x000243); (0x000195, 0x0001F6); (0x00019A, 0x00023D); (0x00019B, 0x00A7DC);
  (0x00019E, 0x000220); (0x0001BF, 0x0001F7); (0x0001C4, 0x0001C5); (0x0001C5, 0x0001C5);
  (0x0001C7, 0x0001C8); (0x0001C8, 0x0001C8); (0x0001CA, 0x0001CB); (0x0001CB, 0x0001CB);
  (0x0001DD, 0x00018E); (0x0001F1, 0x0001F2); (0x0001F2, 0x0001F2); (0x00023F, 0x002C7E);
  (0x000240, 0x002C7F); (0x000250, 0x002C6F); (0x000251, 0x002C6D); (0x000252, 0x002C70);
  (0x000253, 0x000181); (0x000254, 0x000186); (0x000256, 0x000189); (0x000257, 0x00018A);
  (0x000259, 0x00018F); (0x00025B, 0x000190); (0x00025C, 0x00A7AB); (0x000260, 0x000193);
  (0x000261, 0x00A7AC); (0x000263, 0x000194); (0x000264, 0x00A7CB); (0x000265, 0x00A78D);
  (0x000266, 0x00A7AA); (0x000268, 0x000197); (0x000269, 0x000196); (0x00026A, 0x00A7AE);
  (0x00026B, 0x002C62); (0x00026C, 0x00A7AD); (0x00026F, 0x00019C); (0x000271, 0x002C6E);
  (0x000272, 0x00019D); (0x000275, 0x00019F); (0x00027D, 0x002C64); (0x000282, 0x00A7C5);
  (0x000287, 0x00A7B1); (0x000289, 0x000244); (0x00028A, 0x0001B1); (0x00028B, 0x0001B2);
  (0x00028C, 0x000245); (0x000292, 0x0001B7); (0x00029D, 0x00A7B2); (0x00029E, 0x00A7B0);
  (0x000345, 0x000399); (0x00037B, 0x0003FD); (0x00037C, 0x0003FE); (0x00037D, 0x0003FF);
  (0x0003AC, 0x000386); (0x0003AD, 0x000388); (0x0003AE, 0x000389); (0x0003AF, 0x00038A);
  (0x0003C2, 0x0003A3); (0x0003CC, 0x00038C); (0x0003CD, 0x00038E); (0x0003CE, 0x00038F);
  (0x0003D0, 0x000392); (0x0003D1, 0x000398); (0x0003D5, 0x0003A6); (0x0003D6, 0x0003A0);
  (0x0003D7, 0x0003CF); (0x0003D9, 0x0003D8); (0x0003DB, 0x0003DA); (0x0003DD, 0x0003DC);
  (0x0003DF, 0x0003DE); (0x0003F0, 0x00039A); (0x0003F1, 0x0003A1); (0x0003F2, 0x0003F9);
  (0x0003F3, 0x00037F); (0x0003F5, 0x000395); (0x000450, 0x000400); (0x000451, 0x000401);
  (0x000452, 0x000402); (0x000453, 0x000403); (0x000454, 0x000404); (0x000455, 0x000405);
  (0x000456, 0x000406); (0x000457, 0x000407); (0x000458, 0x000408); (0x000459, 0x000409);
  (0x00045A, 0x00040A); (0x00045B, 0x00040B); (0x00045C, 0x00040C); (0x00045D, 0x00040D);
  (0x00045E, 0x00040E); (0x00045F, 0x00040F); (0x0004CF, 0x0004C0); (0x001C80, 0x000412);
  (0x001C81, 0x000414); (0x001C82, 0x00041E); (0x001C83, 0x000421); (0x001C84, 0x000422);
  (0x001C85, 0x000422); (0x001C86, 0x00042A); (0x001C87, 0x000462); (0x001C88, 0x00A64A);
  (0x001C8A, 0x001C89); (0x001D79, 0x00A77D); (0x001D7D, 0x002C63); (0x001D8E, 0x00A7C6);
  (0x001E9B, 0x001E60); (0x001F70, 0x001FBA); (0x001F71, 0x001FBB); (0x001F72, 0x001FC8);
  (0x001F73, 0x001FC9); (0x001F74, 0x001FCA); (0x001F75, 0x001FCB); (0x001F76, 0x001FDA);
  (0x001F77, 0x001FDB); (0x001F78, 0x001FF8); (0x001F79, 0x001FF9); (0x001F7A, 0x001FEA);
  (0x001F7B, 0x001FEB); (0x001F7C, 0x001FFA); (0x001F7D, 0x001FFB); (0x001FB3, 0x001FBC);
  (0x001FBE, 0x000399); (0x001FC3, 0x001FCC); (0x001FD0, 0x001FD8); (0x001FD1, 0x001FD9);
  (0x001FE0, 0x001FE8); (0x001FE1, 0x001FE9); (0x001FE5, 0x001FEC); (0x001FF3, 0x001FFC);
  (0x00214E, 0x002132); (0x002184, 0x002183); (0x002C65, 0x00023A); (0x002C66, 0x00023E);
  (0x00A794, 0x00A7C4); (0x00A7F6, 0x00A7F5); (0x00AB53, 0x00A7B3)
].

(** src/Ystring/UpperCaseTables.hpp:14-101 *)
Definition COMPACT_UPPER_CASE : list (N * N * N * N) := [
  (0x000060, 0xFFFFFFE0, 0x07FFFFFE, 0xF8000001); (0x0000E0, 0xFFFFFFE0, 0x7F7FFFFF, 0x00800000);
  (0x000100, 0xFFFFFFFF, 0xAAAAAAAA, 0x55555555); (0x000120, 0xFFFFFFFF, 0x54A8AAAA, 0xAB555555);
  (0x000140, 0xFFFFFFFF, 0xAAAAA955, 0x555556AA); (0x000160, 0xFFFFFFFF, 0x54AAAAAA, 0x2B555555);
  (0x000180, 0xFFFFFFFF, 0x02041128, 0xB1DBEED6); (0x0001A0, 0xFFFFFFFF, 0x2251212A, 0x5DAEDED5);
  (0x0001C0, 0xFFFFFFFF, 0x95554920, 0x4AAAA49F); (0x0001E0, 0xFFFFFFFF, 0xAA24AAAA, 0x55D35555);
  (0x000200, 0xFFFFFFFF, 0xAAAAAAAA, 0x55555555); (0x000220, 0xFFFFFFFF, 0x100AAAA8, 0x6FF55557);
  (0x000240, 0xFFFFFFFF, 0x0000AA84, 0xE520557A); (0x000280, 0xFFFFFF26, 0x00000109, 0x9FFBE072);
  (0x000360, 0xFFFFFFFF, 0x008A0000, 0xC775FFFF); (0x0003A0, 0xFFFFFFE0, 0xFFFE0000, 0x00010FFF);
  (0x0003C0, 0xFFFFFFE0, 0x00000FFB, 0x551C8000); (0x0003E0, 0xFFFFFFFF, 0x0900AAAA, 0xF6D05555);
  (0x000420, 0xFFFFFFE0, 0xFFFF0000, 0x0000FFFF); (0x000440, 0xFFFFFFE0, 0x0000FFFF, 0x00000000);
  (0x000460, 0xFFFFFFFF, 0xAAAAAAAA, 0x55555555); (0x000480, 0xFFFFFFFF, 0xAAAAA802, 0x555557FD);
  (0x0004A0, 0xFFFFFFFF, 0xAAAAAAAA, 0x55555555); (0x0004C0, 0xFFFFFFFF, 0xAAAA5554, 0x55552AAB);
  (0x0004E0, 0xFFFFFFFF, 0xAAAAAAAA, 0x55555555); (0x000500, 0xFFFFFFFF, 0xAAAAAAAA, 0x55555555);
  (0x000520, 0xFFFFFFFF, 0x0000AAAA, 0xFFFF5555); (0x000560, 0xFFFFFFD0, 0xFFFFFFFE, 0x00000001);
  (0x000580, 0xFFFFFFD0, 0x0000007F, 0xFFFFFF80); (0x0010C0, 0x00000BC0, 0xFFFF0000, 0x0000FFFF);
  (0x0010E0, 0x00000BC0, 0xE7FFFFFF, 0x18000000); (0x0013E0, 0xFFFFFFF8, 0x3F000000, 0xC0FFFFFF);
  (0x001E00, 0xFFFFFFFF, 0xAAAAAAAA, 0x55555555); (0x001E20, 0xFFFFFFFF, 0xAAAAAAAA, 0x55555555);
  (0x001E40, 0xFFFFFFFF, 0xAAAAAAAA, 0x55555555); (0x001E60, 0xFFFFFFFF, 0xAAAAAAAA, 0x55555555);
  (0x001E80, 0xFFFFFFFF, 0x002AAAAA, 0xF7D55555); (0x001EA0, 0xFFFFFFFF, 0xAAAAAAAA, 0x55555555);
  (0x001EC0, 0xFFFFFFFF, 0xAAAAAAAA, 0x55555555); (0x001EE0, 0xFFFFFFFF, 0xAAAAAAAA, 0x55555555);
  (0x001F00, 0x00000008, 0x003F00FF, 0xFFC0FF00); (0x001F20, 0x00000008, 0x00FF00FF, 0xFF00FF00);
  (0x001F40, 0x00000008, 0x00AA003F, 0xFF55FFC0); (0x001F60, 0x00000008, 0x000000FF, 0xC000FF00);
  (0x001F80, 0x00000008, 0x00FF00FF, 0xFF00FF00); (0x001FA0, 0x00000008, 0x000300FF, 0xBFF4FF00);
  (0x002160, 0xFFFFFFF0, 0xFFFF0000, 0x0000FFFF); (0x0024C0, 0xFFFFFFE6, 0xFFFF0000, 0x0000FFFF);
  (0x0024E0, 0xFFFFFFE6, 0x000003FF, 0xFFFFFC00); (0x002C20, 0xFFFFFFD0, 0xFFFF0000, 0x0000FFFF);
  (0x002C40, 0xFFFFFFD0, 0xFFFFFFFF, 0x00000000); (0x002C60, 0xFFFFFFFF, 0x00481502, 0xFFB7EA9D);
  (0x002C80, 0xFFFFFFFF, 0xAAAAAAAA, 0x55555555); (0x002CA0, 0xFFFFFFFF, 0xAAAAAAAA, 0x55555555);
  (0x002CC0, 0xFFFFFFFF, 0xAAAAAAAA, 0x55555555); (0x002CE0, 0xFFFFFFFF, 0x0008500A, 0xFFF7AFF5);
  (0x002D00, 0xFFFFE3A0, 0xFFFFFFFF, 0x00000000); (0x002D20, 0xFFFFE3A0, 0x000020BF, 0xFFFFDF40);
  (0x00A640, 0xFFFFFFFF, 0xAAAAAAAA, 0x55555555); (0x00A660, 0xFFFFFFFF, 0x00002AAA, 0xFFFFD555);
  (0x00A680, 0xFFFFFFFF, 0x0AAAAAAA, 0xF5555555); (0x00A720, 0xFFFFFFFF, 0xAAA8AAA8, 0x55575557);
  (0x00A740, 0xFFFFFFFF, 0xAAAAAAAA, 0x55555555); (0x00A760, 0xFFFFFFFF, 0x9400AAAA, 0x6BFF5555);
  (0x00A780, 0xFFFFFFFF, 0xAA8A10AA, 0x5565EF55); (0x00A7A0, 0xFFFFFFFF, 0xAAA002AA, 0x555FFD55);
  (0x00A7C0, 0xFFFFFFFF, 0x0A82250A, 0xF57DDAF5); (0x00AB60, 0xFFFF6830, 0xFFFF0000, 0x0000FFFF);
  (0x00AB80, 0xFFFF6830, 0xFFFFFFFF, 0x00000000); (0x00ABA0, 0xFFFF6830, 0xFFFFFFFF, 0x00000000);
  (0x00FF40, 0xFFFFFFE0, 0x07FFFFFE, 0xF8000001); (0x010420, 0xFFFFFFD8, 0xFFFFFF00, 0x000000FF);
  (0x010440, 0xFFFFFFD8, 0x0000FFFF, 0xFFFF0000); (0x0104C0, 0xFFFFFFD8, 0xFF000000, 0x00FFFFFF);
  (0x0104E0, 0xFFFFFFD8, 0x0FFFFFFF, 0xF0000000); (0x010580, 0xFFFFFFD9, 0xFF800000, 0x007FFFFF);
  (0x0105A0, 0xFFFFFFD9, 0x1BFBFFFB, 0xE4040004); (0x010CC0, 0xFFFFFFC0, 0xFFFFFFFF, 0x00000000);
  (0x010CE0, 0xFFFFFFC0, 0x0007FFFF, 0xFFF80000); (0x010D60, 0xFFFFFFE0, 0xFFFF0000, 0x0000FFFF);
  (0x010D80, 0xFFFFFFE0, 0x0000003F, 0xFFFFFFC0); (0x0118C0, 0xFFFFFFE0, 0xFFFFFFFF, 0x00000000);
  (0x016E60, 0xFFFFFFE0, 0xFFFFFFFF, 0x00000000); (0x01E920, 0xFFFFFFDE, 0xFFFFFFFC, 0x00000003);
  (0x01E940, 0xFFFFFFDE, 0x0000000F, 0xFFFFFFF0)
].

(** src/Ystring/UpperCaseTables.hpp:103-244 *)
Definition UPPER_CASE : list (N * N) := [
  (0x0000B5, 0x00039C); (0x0000FF, 0x000178); (0x000131, 0x000049); (0x00017F, 0x000053);
  (0x000180, 0x000243); (0x000195, 0x0001F6); (0x00019A, 0x00023D); (0x00019B, 0x00A7DC);
  (0x00019E, 0x000220); (0x0001BF, 0x0001F7); (0x0001C6, 0x0001C4); (0x0001C9, 0x0001C7);
  (0x0001CC, 0x0001CA); (0x0001DD, 0x00018E); (0x0001F3, 0x0001F1); (0x00023F, 0x002C7E);
  (0x000240, 0x002C7F); (0x000250, 0x002C6F); (0x000251, 0x002C6D); (0x000252, 0x002C70);
  (0x000253, 0x000181); (0x000254, 0x000186); (0x000256, 0x000189); (0x000257, 0x00018A);
  (0x000259, 0x00018F); (0x00025B, 0x000190); (0x00025C, 0x00A7AB); (0x000260, 0x000193);
  (0x000261, 0x00A7AC); (0x000263, 0x000194); (0x000264, 0x00A7CB); (0x000265, 0x00A78D);
  (0x000266, 0x00A7AA); (0x000268, 0x000197); (0x000269, 0x000196); (0x00026A, 0x00A7AE);
  (0x00026B, 0x002C62); (0x00026C, 0x00A7AD); (0x00026F, 0x00019C); (0x000271, 0x002C6E);
  (0x000272, 0x00019D); (0x000275, 0x00019F); (0x00027D, 0x002C64); (0x000282, 0x00A7C5);
  (0x000287, 0x00A7B1); (0x000289, 0x000244); (0x00028A, 0x0001B1); (0x00028B, 0x0001B2);
  (0x00028C, 0x000245); (0x000292, 0x0001B7); (0x00029D, 0x00A7B2); (0x00029E, 0x00A7B0);
  (0x000345, 0x000399); (0x00037B, 0x0003FD); (0x00037C, 0x0003FE); (0x00037D, 0x0003FF);
  (0x0003AC, 0x000386); (0x0003AD, 0x000388); (0x0003AE, 0x000389); (0x0003AF, 0x00038A);
  (0x0003C2, 0x0003A3); (0x0003CC, 0x00038C); (0x0003CD, 0x00038E); (0x0003CE, 0x00038F);
  (0x0003D0, 0x000392); (0x0003D1, 0x000398); (0x0003D5, 0x0003A6); (0x0003D6, 0x0003A0);
  (0x0003D7, 0x0003CF); (0x0003D9, 0x0003D8); (0x0003DB, 0x0003DA); (0x0003DD, 0x0003DC);
  (0x0003DF, 0x0003DE); (0x0003F0, 0x00039A); (0x0003F1, 0x0003A1); (0x0003F2, 0x0003F9);
  (0x0003F3, 0x00037F); (0x0003F5, 0x000395); (0x000450, 0x000400); (0x000451, 0x000401);
  (0x000452, 0x000402); (0x000453, 0x000403); (0x000454, 0x000404); (0x000455, 0x000405);
  (0x000456, 0x000406); (0x000457, 0x000407); (0x000458, 0x000408); (0x000459, 0x000409);
  (0x00045A, 0x00040A); (0x00045B, 0x00040B); (0x00045C, 0x00040C); (0x00045D, 0x00040D);
  (0x00045E, 0x00040E); (0x00045F, 0x00040F); (0x0004CF, 0x0004C0); (0x001C80, 0x000412);
  (0x001C81, 0x000414); (0x001C82, 0x00041E); (0x001C83, 0x000421); (0x001C84, 0x000422);
  (0x001C85, 0x000422); (0x001C86, 0x00042A); (0x001C87, 0x000462); (0x001C88, 0x00A64A);
  (0x001C8A, 0x001C89); (0x001D79, 0x00A77D); (0x001D7D, 0x002C63); (0x001D8E, 0x00A7C6);
  (0x001E9B, 0x001E60); (0x001F70, 0x001FBA); (0x001F71, 0x001FBB); (0x001F72, 0x001FC8);
  (0x001F73, 0x001FC9); (0x001F74, 0x001FCA); (0x001F75, 0x001FCB); (0x001F76, 0x001FDA);
  (0x001F77, 0x001FDB); (0x001F78, 0x001FF8); (0x001F79, 0x001FF9); (0x001F7A, 0x001FEA);
  (0x001F7B, 0x001FEB); (0x001F7C, 0x001FFA); (0x001F7D, 0x001FFB); (0x001FB3, 0x001FBC);
  (0x001FBE, 0x000399); (0x001FC3, 0x001FCC); (0x001FD0, 0x001FD8); (0x001FD1, 0x001FD9);
  (0x001FE0, 0x001FE8); (0x001FE1, 0x001FE9); (0x001FE5, 0x001FEC); (0x001FF3, 0x001FFC);
  (0x00214E, 0x002132); (0x002184, 0x002183); (0x002C65, 0x00023A); (0x002C66, 0x00023E);
  (0x00A794, 0x00A7C4); (0x00A7F6, 0x00A7F5); (0x00AB53, 0x00A7B3)
].
