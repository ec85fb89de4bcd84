(** Generated by tools/gen_tables.py; do not edit. *)
From Verif Require Import Base.

(** src/Ystring/NormalizationTables.hpp:12-363 *)
Definition TO_DECOMPOSED : list N := [
  0x0000C00004100300; 0x0000C10004100301; 0x0000C20004100302;
  0x0000C30004100303; 0x0000C40004100308; 0x0000C5000410030A;
  0x0000C70004300327; 0x0000C80004500300; 0x0000C90004500301;
  0x0000CA0004500302; 0x0000CB0004500308; 0x0000CC0004900300;
  0x0000CD0004900301; 0x0000CE0004900302; 0x0000CF0004900308;
  0x0000D10004E00303; 0x0000D20004F00300; 0x0000D30004F00301;
  0x0000D40004F00302; 0x0000D50004F00303; 0x0000D60004F00308;
  0x0000D90005500300; 0x0000DA0005500301; 0x0000DB0005500302;
  0x0000DC0005500308; 0x0000DD0005900301; 0x0000E00006100300;
  0x0000E10006100301; 0x0000E20006100302; 0x0000E30006100303;
  0x0000E40006100308; 0x0000E5000610030A; 0x0000E70006300327;
  0x0000E80006500300; 0x0000E90006500301; 0x0000EA0006500302;
  0x0000EB0006500308; 0x0000EC0006900300; 0x0000ED0006900301;
  0x0000EE0006900302; 0x0000EF0006900308; 0x0000F10006E00303;
  0x0000F20006F00300; 0x0000F30006F00301; 0x0000F40006F00302;
  0x0000F50006F00303; 0x0000F60006F00308; 0x0000F90007500300;
  0x0000FA0007500301; 0x0000FB0007500302; 0x0000FC0007500308;
  0x0000FD0007900301; 0x0000FF0007900308; 0x0001000004100304;
  0x0001010006100304; 0x0001020004100306; 0x0001030006100306;
  0x0001040004100328; 0x0001050006100328; 0x0001060004300301;
  0x0001070006300301; 0x0001080004300302; 0x0001090006300302;
  0x00010A0004300307; 0x00010B0006300307; 0x00010C000430030C;
  0x00010D000630030C; 0x00010E000440030C; 0x00010F000640030C;
  0x0001120004500304; 0x0001130006500304; 0x0001140004500306;
  0x0001150006500306; 0x0001160004500307; 0x0001170006500307;
  0x0001180004500328; 0x0001190006500328; 0x00011A000450030C;
  0x00011B000650030C; 0x00011C0004700302; 0x00011D0006700302;
  0x00011E0004700306; 0x00011F0006700306; 0x0001200004700307;
  0x0001210006700307; 0x0001220004700327; 0x0001230006700327;
  0x0001240004800302; 0x0001250006800302; 0x0001280004900303;
  0x0001290006900303; 0x00012A0004900304; 0x00012B0006900304;
  0x00012C0004900306; 0x00012D0006900306; 0x00012E0004900328;
  0x00012F0006900328; 0x0001300004900307; 0x0001340004A00302;
  0x0001350006A00302; 0x0001360004B00327; 0x0001370006B00327;
  0x0001390004C00301; 0x00013A0006C00301; 0x00013B0004C00327;
  0x00013C0006C00327; 0x00013D0004C0030C; 0x00013E0006C0030C;
  0x0001430004E00301; 0x0001440006E00301; 0x0001450004E00327;
  0x0001460006E00327; 0x0001470004E0030C; 0x0001480006E0030C;
  0x00014C0004F00304; 0x00014D0006F00304; 0x00014E0004F00306;
  0x00014F0006F00306; 0x0001500004F0030B; 0x0001510006F0030B;
  0x0001540005200301; 0x0001550007200301; 0x0001560005200327;
  0x0001570007200327; 0x000158000520030C; 0x000159000720030C;
  0x00015A0005300301; 0x00015B0007300301; 0x00015C0005300302;
  0x00015D0007300302; 0x00015E0005300327; 0x00015F0007300327;
  0x000160000530030C; 0x000161000730030C; 0x0001620005400327;
  0x0001630007400327; 0x000164000540030C; 0x000165000740030C;
  0x0001680005500303; 0x0001690007500303; 0x00016A0005500304;
  0x00016B0007500304; 0x00016C0005500306; 0x00016D0007500306;
  0x00016E000550030A; 0x00016F000750030A; 0x000170000550030B;
  0x000171000750030B; 0x0001720005500328; 0x0001730007500328;
  0x0001740005700302; 0x0001750007700302; 0x0001760005900302;
  0x0001770007900302; 0x0001780005900308; 0x0001790005A00301;
  0x00017A0007A00301; 0x00017B0005A00307; 0x00017C0007A00307;
  0x00017D0005A0030C; 0x00017E0007A0030C; 0x0001A00004F0031B;
  0x0001A10006F0031B; 0x0001AF000550031B; 0x0001B0000750031B;
  0x0001CD000410030C; 0x0001CE000610030C; 0x0001CF000490030C;
  0x0001D0000690030C; 0x0001D10004F0030C; 0x0001D20006F0030C;
  0x0001D3000550030C; 0x0001D4000750030C; 0x0001D5000DC00304;
  0x0001D6000FC00304; 0x0001D7000DC00301; 0x0001D8000FC00301;
  0x0001D9000DC0030C; 0x0001DA000FC0030C; 0x0001DB000DC00300;
  0x0001DC000FC00300; 0x0001DE000C400304; 0x0001DF000E400304;
  0x0001E00022600304; 0x0001E10022700304; 0x0001E2000C600304;
  0x0001E3000E600304; 0x0001E6000470030C; 0x0001E7000670030C;
  0x0001E80004B0030C; 0x0001E90006B0030C; 0x0001EA0004F00328;
  0x0001EB0006F00328; 0x0001EC001EA00304; 0x0001ED001EB00304;
  0x0001EE001B70030C; 0x0001EF002920030C; 0x0001F00006A0030C;
  0x0001F40004700301; 0x0001F50006700301; 0x0001F80004E00300;
  0x0001F90006E00300; 0x0001FA000C500301; 0x0001FB000E500301;
  0x0001FC000C600301; 0x0001FD000E600301; 0x0001FE000D800301;
  0x0001FF000F800301; 0x000200000410030F; 0x000201000610030F;
  0x0002020004100311; 0x0002030006100311; 0x000204000450030F;
  0x000205000650030F; 0x0002060004500311; 0x0002070006500311;
  0x000208000490030F; 0x000209000690030F; 0x00020A0004900311;
  0x00020B0006900311; 0x00020C0004F0030F; 0x00020D0006F0030F;
  0x00020E0004F00311; 0x00020F0006F00311; 0x000210000520030F;
  0x000211000720030F; 0x0002120005200311; 0x0002130007200311;
  0x000214000550030F; 0x000215000750030F; 0x0002160005500311;
  0x0002170007500311; 0x0002180005300326; 0x0002190007300326;
  0x00021A0005400326; 0x00021B0007400326; 0x00021E000480030C;
  0x00021F000680030C; 0x0002260004100307; 0x0002270006100307;
  0x0002280004500327; 0x0002290006500327; 0x00022A000D600304;
  0x00022B000F600304; 0x00022C000D500304; 0x00022D000F500304;
  0x00022E0004F00307; 0x00022F0006F00307; 0x0002300022E00304;
  0x0002310022F00304; 0x0002320005900304; 0x0002330007900304;
  0x0003440030800301; 0x000385000A800301; 0x0003860039100301;
  0x0003880039500301; 0x0003890039700301; 0x00038A0039900301;
  0x00038C0039F00301; 0x00038E003A500301; 0x00038F003A900301;
  0x000390003CA00301; 0x0003AA0039900308; 0x0003AB003A500308;
  0x0003AC003B100301; 0x0003AD003B500301; 0x0003AE003B700301;
  0x0003AF003B900301; 0x0003B0003CB00301; 0x0003CA003B900308;
  0x0003CB003C500308; 0x0003CC003BF00301; 0x0003CD003C500301;
  0x0003CE003C900301; 0x0003D3003D200301; 0x0003D4003D200308;
  0x0004000041500300; 0x0004010041500308; 0x0004030041300301;
  0x0004070040600308; 0x00040C0041A00301; 0x00040D0041800300;
  0x00040E0042300306; 0x0004190041800306; 0x0004390043800306;
  0x0004500043500300; 0x0004510043500308; 0x0004530043300301;
  0x0004570045600308; 0x00045C0043A00301; 0x00045D0043800300;
  0x00045E0044300306; 0x000476004740030F; 0x000477004750030F;
  0x0004C10041600306; 0x0004C20043600306; 0x0004D00041000306;
  0x0004D10043000306; 0x0004D20041000308; 0x0004D30043000308;
  0x0004D60041500306; 0x0004D70043500306; 0x0004DA004D800308;
  0x0004DB004D900308; 0x0004DC0041600308; 0x0004DD0043600308;
  0x0004DE0041700308; 0x0004DF0043700308; 0x0004E20041800304;
  0x0004E30043800304; 0x0004E40041800308; 0x0004E50043800308;
  0x0004E60041E00308; 0x0004E70043E00308; 0x0004EA004E800308;
  0x0004EB004E900308; 0x0004EC0042D00308; 0x0004ED0044D00308;
  0x0004EE0042300304; 0x0004EF0044300304; 0x0004F00042300308;
  0x0004F10044300308; 0x0004F2004230030B; 0x0004F3004430030B;
  0x0004F40042700308; 0x0004F50044700308; 0x0004F80042B00308;
  0x0004F90044B00308; 0x0006220062700653; 0x0006230062700654;
  0x0006240064800654; 0x0006250062700655; 0x0006260064A00654;
  0x0006C0006D500654; 0x0006C2006C100654; 0x0006D3006D200654;
  0x000929009280093C; 0x000931009300093C; 0x000934009330093C;
  0x000958009150093C; 0x000959009160093C; 0x00095A009170093C;
  0x00095B0091C0093C; 0x00095C009210093C; 0x00095D009220093C;
  0x00095E0092B0093C; 0x00095F0092F0093C; 0x0009CB009C7009BE;
  0x0009CC009C7009D7; 0x0009DC009A1009BC; 0x0009DD009A2009BC;
  0x0009DF009AF009BC; 0x000A3300A3200A3C; 0x000A3600A3800A3C;
  0x000A5900A1600A3C; 0x000A5A00A1700A3C; 0x000A5B00A1C00A3C;
  0x000A5E00A2B00A3C; 0x000B4800B4700B56; 0x000B4B00B4700B3E;
  0x000B4C00B4700B57; 0x000B5C00B2100B3C; 0x000B5D00B2200B3C;
  0x000B9400B9200BD7; 0x000BCA00BC600BBE; 0x000BCB00BC700BBE;
  0x000BCC00BC600BD7; 0x000C4800C4600C56; 0x000CC000CBF00CD5;
  0x000CC700CC600CD5; 0x000CC800CC600CD6; 0x000CCA00CC600CC2;
  0x000CCB00CCA00CD5; 0x000D4A00D4600D3E; 0x000D4B00D4700D3E;
  0x000D4C00D4600D57; 0x000DDA00DD900DCA; 0x000DDC00DD900DCF;
  0x000DDD00DDC00DCA; 0x000DDE00DD900DDF; 0x000F4300F4200FB7;
  0x000F4D00F4C00FB7; 0x000F5200F5100FB7; 0x000F5700F5600FB7;
  0x000F5C00F5B00FB7; 0x000F6900F4000FB5; 0x000F7300F7100F72;
  0x000F7500F7100F74; 0x000F7600FB200F80; 0x000F7800FB300F80;
  0x000F8100F7100F80; 0x000F9300F9200FB7; 0x000F9D00F9C00FB7;
  0x000FA200FA100FB7; 0x000FA700FA600FB7; 0x000FAC00FAB00FB7;
  0x000FB900F9000FB5; 0x001026010250102E; 0x001B0601B0501B35;
  0x001B0801B0701B35; 0x001B0A01B0901B35; 0x001B0C01B0B01B35;
  0x001B0E01B0D01B35; 0x001B1201B1101B35; 0x001B3B01B3A01B35;
  0x001B3D01B3C01B35; 0x001B4001B3E01B35; 0x001B4101B3F01B35;
  0x001B4301B4201B35; 0x001E000004100325; 0x001E010006100325;
  0x001E020004200307; 0x001E030006200307; 0x001E040004200323;
  0x001E050006200323; 0x001E060004200331; 0x001E070006200331;
  0x001E08000C700301; 0x001E09000E700301; 0x001E0A0004400307;
  0x001E0B0006400307; 0x001E0C0004400323; 0x001E0D0006400323;
  0x001E0E0004400331; 0x001E0F0006400331; 0x001E100004400327;
  0x001E110006400327; 0x001E12000440032D; 0x001E13000640032D;
  0x001E140011200300; 0x001E150011300300; 0x001E160011200301;
  0x001E170011300301; 0x001E18000450032D; 0x001E19000650032D;
  0x001E1A0004500330; 0x001E1B0006500330; 0x001E1C0022800306;
  0x001E1D0022900306; 0x001E1E0004600307; 0x001E1F0006600307;
  0x001E200004700304; 0x001E210006700304; 0x001E220004800307;
  0x001E230006800307; 0x001E240004800323; 0x001E250006800323;
  0x001E260004800308; 0x001E270006800308; 0x001E280004800327;
  0x001E290006800327; 0x001E2A000480032E; 0x001E2B000680032E;
  0x001E2C0004900330; 0x001E2D0006900330; 0x001E2E000CF00301;
  0x001E2F000EF00301; 0x001E300004B00301; 0x001E310006B00301;
  0x001E320004B00323; 0x001E330006B00323; 0x001E340004B00331;
  0x001E350006B00331; 0x001E360004C00323; 0x001E370006C00323;
  0x001E3801E3600304; 0x001E3901E3700304; 0x001E3A0004C00331;
  0x001E3B0006C00331; 0x001E3C0004C0032D; 0x001E3D0006C0032D;
  0x001E3E0004D00301; 0x001E3F0006D00301; 0x001E400004D00307;
  0x001E410006D00307; 0x001E420004D00323; 0x001E430006D00323;
  0x001E440004E00307; 0x001E450006E00307; 0x001E460004E00323;
  0x001E470006E00323; 0x001E480004E00331; 0x001E490006E00331;
  0x001E4A0004E0032D; 0x001E4B0006E0032D; 0x001E4C000D500301;
  0x001E4D000F500301; 0x001E4E000D500308; 0x001E4F000F500308;
  0x001E500014C00300; 0x001E510014D00300; 0x001E520014C00301;
  0x001E530014D00301; 0x001E540005000301; 0x001E550007000301;
  0x001E560005000307; 0x001E570007000307; 0x001E580005200307;
  0x001E590007200307; 0x001E5A0005200323; 0x001E5B0007200323;
  0x001E5C01E5A00304; 0x001E5D01E5B00304; 0x001E5E0005200331;
  0x001E5F0007200331; 0x001E600005300307; 0x001E610007300307;
  0x001E620005300323; 0x001E630007300323; 0x001E640015A00307;
  0x001E650015B00307; 0x001E660016000307; 0x001E670016100307;
  0x001E6801E6200307; 0x001E6901E6300307; 0x001E6A0005400307;
  0x001E6B0007400307; 0x001E6C0005400323; 0x001E6D0007400323;
  0x001E6E0005400331; 0x001E6F0007400331; 0x001E70000540032D;
  0x001E71000740032D; 0x001E720005500324; 0x001E730007500324;
  0x001E740005500330; 0x001E750007500330; 0x001E76000550032D;
  0x001E77000750032D; 0x001E780016800301; 0x001E790016900301;
  0x001E7A0016A00308; 0x001E7B0016B00308; 0x001E7C0005600303;
  0x001E7D0007600303; 0x001E7E0005600323; 0x001E7F0007600323;
  0x001E800005700300; 0x001E810007700300; 0x001E820005700301;
  0x001E830007700301; 0x001E840005700308; 0x001E850007700308;
  0x001E860005700307; 0x001E870007700307; 0x001E880005700323;
  0x001E890007700323; 0x001E8A0005800307; 0x001E8B0007800307;
  0x001E8C0005800308; 0x001E8D0007800308; 0x001E8E0005900307;
  0x001E8F0007900307; 0x001E900005A00302; 0x001E910007A00302;
  0x001E920005A00323; 0x001E930007A00323; 0x001E940005A00331;
  0x001E950007A00331; 0x001E960006800331; 0x001E970007400308;
  0x001E98000770030A; 0x001E99000790030A; 0x001E9B0017F00307;
  0x001EA00004100323; 0x001EA10006100323; 0x001EA20004100309;
  0x001EA30006100309; 0x001EA4000C200301; 0x001EA5000E200301;
  0x001EA6000C200300; 0x001EA7000E200300; 0x001EA8000C200309;
  0x001EA9000E200309; 0x001EAA000C200303; 0x001EAB000E200303;
  0x001EAC01EA000302; 0x001EAD01EA100302; 0x001EAE0010200301;
  0x001EAF0010300301; 0x001EB00010200300; 0x001EB10010300300;
  0x001EB20010200309; 0x001EB30010300309; 0x001EB40010200303;
  0x001EB50010300303; 0x001EB601EA000306; 0x001EB701EA100306;
  0x001EB80004500323; 0x001EB90006500323; 0x001EBA0004500309;
  0x001EBB0006500309; 0x001EBC0004500303; 0x001EBD0006500303;
  0x001EBE000CA00301; 0x001EBF000EA00301; 0x001EC0000CA00300;
  0x001EC1000EA00300; 0x001EC2000CA00309; 0x001EC3000EA00309;
  0x001EC4000CA00303; 0x001EC5000EA00303; 0x001EC601EB800302;
  0x001EC701EB900302; 0x001EC80004900309; 0x001EC90006900309;
  0x001ECA0004900323; 0x001ECB0006900323; 0x001ECC0004F00323;
  0x001ECD0006F00323; 0x001ECE0004F00309; 0x001ECF0006F00309;
  0x001ED0000D400301; 0x001ED1000F400301; 0x001ED2000D400300;
  0x001ED3000F400300; 0x001ED4000D400309; 0x001ED5000F400309;
  0x001ED6000D400303; 0x001ED7000F400303; 0x001ED801ECC00302;
  0x001ED901ECD00302; 0x001EDA001A000301; 0x001EDB001A100301;
  0x001EDC001A000300; 0x001EDD001A100300; 0x001EDE001A000309;
  0x001EDF001A100309; 0x001EE0001A000303; 0x001EE1001A100303;
  0x001EE2001A000323; 0x001EE3001A100323; 0x001EE40005500323;
  0x001EE50007500323; 0x001EE60005500309; 0x001EE70007500309;
  0x001EE8001AF00301; 0x001EE9001B000301; 0x001EEA001AF00300;
  0x001EEB001B000300; 0x001EEC001AF00309; 0x001EED001B000309;
  0x001EEE001AF00303; 0x001EEF001B000303; 0x001EF0001AF00323;
  0x001EF1001B000323; 0x001EF20005900300; 0x001EF30007900300;
  0x001EF40005900323; 0x001EF50007900323; 0x001EF60005900309;
  0x001EF70007900309; 0x001EF80005900303; 0x001EF90007900303;
  0x001F00003B100313; 0x001F01003B100314; 0x001F0201F0000300;
  0x001F0301F0100300; 0x001F0401F0000301; 0x001F0501F0100301;
  0x001F0601F0000342; 0x001F0701F0100342; 0x001F080039100313;
  0x001F090039100314; 0x001F0A01F0800300; 0x001F0B01F0900300;
  0x001F0C01F0800301; 0x001F0D01F0900301; 0x001F0E01F0800342;
  0x001F0F01F0900342; 0x001F10003B500313; 0x001F11003B500314;
  0x001F1201F1000300; 0x001F1301F1100300; 0x001F1401F1000301;
  0x001F1501F1100301; 0x001F180039500313; 0x001F190039500314;
  0x001F1A01F1800300; 0x001F1B01F1900300; 0x001F1C01F1800301;
  0x001F1D01F1900301; 0x001F20003B700313; 0x001F21003B700314;
  0x001F2201F2000300; 0x001F2301F2100300; 0x001F2401F2000301;
  0x001F2501F2100301; 0x001F2601F2000342; 0x001F2701F2100342;
  0x001F280039700313; 0x001F290039700314; 0x001F2A01F2800300;
  0x001F2B01F2900300; 0x001F2C01F2800301; 0x001F2D01F2900301;
  0x001F2E01F2800342; 0x001F2F01F2900342; 0x001F30003B900313;
  0x001F31003B900314; 0x001F3201F3000300; 0x001F3301F3100300;
  0x001F3401F3000301; 0x001F3501F3100301; 0x001F3601F3000342;
  0x001F3701F3100342; 0x001F380039900313; 0x001F390039900314;
  0x001F3A01F3800300; 0x001F3B01F3900300; 0x001F3C01F3800301;
  0x001F3D01F3900301; 0x001F3E01F3800342; 0x001F3F01F3900342;
  0x001F40003BF00313; 0x001F41003BF00314; 0x001F4201F4000300;
  0x001F4301F4100300; 0x001F4401F4000301; 0x001F4501F4100301;
  0x001F480039F00313; 0x001F490039F00314; 0x001F4A01F4800300;
  0x001F4B01F4900300; 0x001F4C01F4800301; 0x001F4D01F4900301;
  0x001F50003C500313; 0x001F51003C500314; 0x001F5201F5000300;
  0x001F5301F5100300; 0x001F5401F5000301; 0x001F5501F5100301;
  0x001F5601F5000342; 0x001F5701F5100342; 0x001F59003A500314;
  0x001F5B01F5900300; 0x001F5D01F5900301; 0x001F5F01F5900342;
  0x001F60003C900313; 0x001F61003C900314; 0x001F6201F6000300;
  0x001F6301F6100300; 0x001F6401F6000301; 0x001F6501F6100301;
  0x001F6601F6000342; 0x001F6701F6100342; 0x001F68003A900313;
  0x001F69003A900314; 0x001F6A01F6800300; 0x001F6B01F6900300;
  0x001F6C01F6800301; 0x001F6D01F6900301; 0x001F6E01F6800342;
  0x001F6F01F6900342; 0x001F70003B100300; 0x001F72003B500300;
  0x001F74003B700300; 0x001F76003B900300; 0x001F78003BF00300;
  0x001F7A003C500300; 0x001F7C003C900300; 0x001F8001F0000345;
  0x001F8101F0100345; 0x001F8201F0200345; 0x001F8301F0300345;
  0x001F8401F0400345; 0x001F8501F0500345; 0x001F8601F0600345;
  0x001F8701F0700345; 0x001F8801F0800345; 0x001F8901F0900345;
  0x001F8A01F0A00345; 0x001F8B01F0B00345; 0x001F8C01F0C00345;
  0x001F8D01F0D00345; 0x001F8E01F0E00345; 0x001F8F01F0F00345;
  0x001F9001F2000345; 0x001F9101F2100345; 0x001F9201F2200345;
  0x001F9301F2300345; 0x001F9401F2400345; 0x001F9501F2500345;
  0x001F9601F2600345; 0x001F9701F2700345; 0x001F9801F2800345;
  0x001F9901F2900345; 0x001F9A01F2A00345; 0x001F9B01F2B00345;
  0x001F9C01F2C00345; 0x001F9D01F2D00345; 0x001F9E01F2E00345;
  0x001F9F01F2F00345; 0x001FA001F6000345; 0x001FA101F6100345;
  0x001FA201F6200345; 0x001FA301F6300345; 0x001FA401F6400345;
  0x001FA501F6500345; 0x001FA601F6600345; 0x001FA701F6700345;
  0x001FA801F6800345; 0x001FA901F6900345; 0x001FAA01F6A00345;
  0x001FAB01F6B00345; 0x001FAC01F6C00345; 0x001FAD01F6D00345;
  0x001FAE01F6E00345; 0x001FAF01F6F00345; 0x001FB0003B100306;
  0x001FB1003B100304; 0x001FB201F7000345; 0x001FB3003B100345;
  0x001FB4003AC00345; 0x001FB6003B100342; 0x001FB701FB600345;
  0x001FB80039100306; 0x001FB90039100304; 0x001FBA0039100300;
  0x001FBC0039100345; 0x001FC1000A800342; 0x001FC201F7400345;
  0x001FC3003B700345; 0x001FC4003AE00345; 0x001FC6003B700342;
  0x001FC701FC600345; 0x001FC80039500300; 0x001FCA0039700300;
  0x001FCC0039700345; 0x001FCD01FBF00300; 0x001FCE01FBF00301;
  0x001FCF01FBF00342; 0x001FD0003B900306; 0x001FD1003B900304;
  0x001FD2003CA00300; 0x001FD6003B900342; 0x001FD7003CA00342;
  0x001FD80039900306; 0x001FD90039900304; 0x001FDA0039900300;
  0x001FDD01FFE00300; 0x001FDE01FFE00301; 0x001FDF01FFE00342;
  0x001FE0003C500306; 0x001FE1003C500304; 0x001FE2003CB00300;
  0x001FE4003C100313; 0x001FE5003C100314; 0x001FE6003C500342;
  0x001FE7003CB00342; 0x001FE8003A500306; 0x001FE9003A500304;
  0x001FEA003A500300; 0x001FEC003A100314; 0x001FED000A800300;
  0x001FF201F7C00345; 0x001FF3003C900345; 0x001FF4003CE00345;
  0x001FF6003C900342; 0x001FF701FF600345; 0x001FF80039F00300;
  0x001FFA003A900300; 0x001FFC003A900345; 0x00219A0219000338;
  0x00219B0219200338; 0x0021AE0219400338; 0x0021CD021D000338;
  0x0021CE021D400338; 0x0021CF021D200338; 0x0022040220300338;
  0x0022090220800338; 0x00220C0220B00338; 0x0022240222300338;
  0x0022260222500338; 0x0022410223C00338; 0x0022440224300338;
  0x0022470224500338; 0x0022490224800338; 0x0022600003D00338;
  0x0022620226100338; 0x00226D0224D00338; 0x00226E0003C00338;
  0x00226F0003E00338; 0x0022700226400338; 0x0022710226500338;
  0x0022740227200338; 0x0022750227300338; 0x0022780227600338;
  0x0022790227700338; 0x0022800227A00338; 0x0022810227B00338;
  0x0022840228200338; 0x0022850228300338; 0x0022880228600338;
  0x0022890228700338; 0x0022AC022A200338; 0x0022AD022A800338;
  0x0022AE022A900338; 0x0022AF022AB00338; 0x0022E00227C00338;
  0x0022E10227D00338; 0x0022E20229100338; 0x0022E30229200338;
  0x0022EA022B200338; 0x0022EB022B300338; 0x0022EC022B400338;
  0x0022ED022B500338; 0x002ADC02ADD00338; 0x00304C0304B03099;
  0x00304E0304D03099; 0x0030500304F03099; 0x0030520305103099;
  0x0030540305303099; 0x0030560305503099; 0x0030580305703099;
  0x00305A0305903099; 0x00305C0305B03099; 0x00305E0305D03099;
  0x0030600305F03099; 0x0030620306103099; 0x0030650306403099;
  0x0030670306603099; 0x0030690306803099; 0x0030700306F03099;
  0x0030710306F0309A; 0x0030730307203099; 0x003074030720309A;
  0x0030760307503099; 0x003077030750309A; 0x0030790307803099;
  0x00307A030780309A; 0x00307C0307B03099; 0x00307D0307B0309A;
  0x0030940304603099; 0x00309E0309D03099; 0x0030AC030AB03099;
  0x0030AE030AD03099; 0x0030B0030AF03099; 0x0030B2030B103099;
  0x0030B4030B303099; 0x0030B6030B503099; 0x0030B8030B703099;
  0x0030BA030B903099; 0x0030BC030BB03099; 0x0030BE030BD03099;
  0x0030C0030BF03099; 0x0030C2030C103099; 0x0030C5030C403099;
  0x0030C7030C603099; 0x0030C9030C803099; 0x0030D0030CF03099;
  0x0030D1030CF0309A; 0x0030D3030D203099; 0x0030D4030D20309A;
  0x0030D6030D503099; 0x0030D7030D50309A; 0x0030D9030D803099;
  0x0030DA030D80309A; 0x0030DC030DB03099; 0x0030DD030DB0309A;
  0x0030F4030A603099; 0x0030F7030EF03099; 0x0030F8030F003099;
  0x0030F9030F103099; 0x0030FA030F203099; 0x0030FE030FD03099;
  0x00FB1D005D9005B4; 0x00FB1F005F2005B7; 0x00FB2A005E9005C1;
  0x00FB2B005E9005C2; 0x00FB2C0FB49005C1; 0x00FB2D0FB49005C2;
  0x00FB2E005D0005B7; 0x00FB2F005D0005B8; 0x00FB30005D0005BC;
  0x00FB31005D1005BC; 0x00FB32005D2005BC; 0x00FB33005D3005BC;
  0x00FB34005D4005BC; 0x00FB35005D5005BC; 0x00FB36005D6005BC;
  0x00FB38005D8005BC; 0x00FB39005D9005BC; 0x00FB3A005DA005BC;
  0x00FB3B005DB005BC; 0x00FB3C005DC005BC; 0x00FB3E005DE005BC;
  0x00FB40005E0005BC; 0x00FB41005E1005BC; 0x00FB43005E3005BC;
  0x00FB44005E4005BC; 0x00FB46005E6005BC; 0x00FB47005E7005BC;
  0x00FB48005E8005BC; 0x00FB49005E9005BC; 0x00FB4A005EA005BC;
  0x00FB4B005D5005B9; 0x00FB4C005D1005BF; 0x00FB4D005DB005BF;
  0x00FB4E005E4005BF; 0x0105C9105D200307; 0x0105E4105DA00307;
  0x01109A11099110BA; 0x01109C1109B110BA; 0x0110AB110A5110BA;
  0x01112E1113111127; 0x01112F1113211127; 0x01134B113471133E;
  0x01134C1134711357; 0x01138311382113C9; 0x01138511384113BB;
  0x01138E1138B113C2; 0x01139111390113C9; 0x0113C5113C2113C2;
  0x0113C7113C2113B8; 0x0113C8113C2113C9; 0x0114BB114B9114BA;
  0x0114BC114B9114B0; 0x0114BE114B9114BD; 0x0115BA115B8115AF;
  0x0115BB115B9115AF; 0x0119381193511930; 0x0161211611E1611E;
  0x0161221611E16129; 0x0161231611E1611F; 0x016124161291611F;
  0x0161251611E16120; 0x016126161211611F; 0x016127161221611F;
  0x0161281612116120; 0x016D6816D6716D67; 0x016D6916D6316D67;
  0x016D6A16D6916D67; 0x01D15E1D1571D165; 0x01D15F1D1581D165;
  0x01D1601D15F1D16E; 0x01D1611D15F1D16F; 0x01D1621D15F1D170;
  0x01D1631D15F1D171; 0x01D1641D15F1D172; 0x01D1BB1D1B91D165;
  0x01D1BC1D1BA1D165; 0x01D1BD1D1BB1D16E; 0x01D1BE1D1BC1D16E;
  0x01D1BF1D1BB1D16F; 0x01D1C01D1BC1D16F
].

(** src/Ystring/NormalizationTables.hpp:365-716 *)
Definition TO_COMPOSED : list N := [
  0x00003C003380226E; 0x00003D0033802260; 0x00003E003380226F;
  0x00004100300000C0; 0x00004100301000C1; 0x00004100302000C2;
  0x00004100303000C3; 0x0000410030400100; 0x0000410030600102;
  0x0000410030700226; 0x00004100308000C4; 0x0000410030901EA2;
  0x0000410030A000C5; 0x0000410030C001CD; 0x0000410030F00200;
  0x0000410031100202; 0x0000410032301EA0; 0x0000410032501E00;
  0x0000410032800104; 0x0000420030701E02; 0x0000420032301E04;
  0x0000420033101E06; 0x0000430030100106; 0x0000430030200108;
  0x000043003070010A; 0x0000430030C0010C; 0x00004300327000C7;
  0x0000440030701E0A; 0x0000440030C0010E; 0x0000440032301E0C;
  0x0000440032701E10; 0x0000440032D01E12; 0x0000440033101E0E;
  0x00004500300000C8; 0x00004500301000C9; 0x00004500302000CA;
  0x0000450030301EBC; 0x0000450030400112; 0x0000450030600114;
  0x0000450030700116; 0x00004500308000CB; 0x0000450030901EBA;
  0x0000450030C0011A; 0x0000450030F00204; 0x0000450031100206;
  0x0000450032301EB8; 0x0000450032700228; 0x0000450032800118;
  0x0000450032D01E18; 0x0000450033001E1A; 0x0000460030701E1E;
  0x00004700301001F4; 0x000047003020011C; 0x0000470030401E20;
  0x000047003060011E; 0x0000470030700120; 0x0000470030C001E6;
  0x0000470032700122; 0x0000480030200124; 0x0000480030701E22;
  0x0000480030801E26; 0x0000480030C0021E; 0x0000480032301E24;
  0x0000480032701E28; 0x0000480032E01E2A; 0x00004900300000CC;
  0x00004900301000CD; 0x00004900302000CE; 0x0000490030300128;
  0x000049003040012A; 0x000049003060012C; 0x0000490030700130;
  0x00004900308000CF; 0x0000490030901EC8; 0x0000490030C001CF;
  0x0000490030F00208; 0x000049003110020A; 0x0000490032301ECA;
  0x000049003280012E; 0x0000490033001E2C; 0x00004A0030200134;
  0x00004B0030101E30; 0x00004B0030C001E8; 0x00004B0032301E32;
  0x00004B0032700136; 0x00004B0033101E34; 0x00004C0030100139;
  0x00004C0030C0013D; 0x00004C0032301E36; 0x00004C003270013B;
  0x00004C0032D01E3C; 0x00004C0033101E3A; 0x00004D0030101E3E;
  0x00004D0030701E40; 0x00004D0032301E42; 0x00004E00300001F8;
  0x00004E0030100143; 0x00004E00303000D1; 0x00004E0030701E44;
  0x00004E0030C00147; 0x00004E0032301E46; 0x00004E0032700145;
  0x00004E0032D01E4A; 0x00004E0033101E48; 0x00004F00300000D2;
  0x00004F00301000D3; 0x00004F00302000D4; 0x00004F00303000D5;
  0x00004F003040014C; 0x00004F003060014E; 0x00004F003070022E;
  0x00004F00308000D6; 0x00004F0030901ECE; 0x00004F0030B00150;
  0x00004F0030C001D1; 0x00004F0030F0020C; 0x00004F003110020E;
  0x00004F0031B001A0; 0x00004F0032301ECC; 0x00004F00328001EA;
  0x0000500030101E54; 0x0000500030701E56; 0x0000520030100154;
  0x0000520030701E58; 0x0000520030C00158; 0x0000520030F00210;
  0x0000520031100212; 0x0000520032301E5A; 0x0000520032700156;
  0x0000520033101E5E; 0x000053003010015A; 0x000053003020015C;
  0x0000530030701E60; 0x0000530030C00160; 0x0000530032301E62;
  0x0000530032600218; 0x000053003270015E; 0x0000540030701E6A;
  0x0000540030C00164; 0x0000540032301E6C; 0x000054003260021A;
  0x0000540032700162; 0x0000540032D01E70; 0x0000540033101E6E;
  0x00005500300000D9; 0x00005500301000DA; 0x00005500302000DB;
  0x0000550030300168; 0x000055003040016A; 0x000055003060016C;
  0x00005500308000DC; 0x0000550030901EE6; 0x0000550030A0016E;
  0x0000550030B00170; 0x0000550030C001D3; 0x0000550030F00214;
  0x0000550031100216; 0x0000550031B001AF; 0x0000550032301EE4;
  0x0000550032401E72; 0x0000550032800172; 0x0000550032D01E76;
  0x0000550033001E74; 0x0000560030301E7C; 0x0000560032301E7E;
  0x0000570030001E80; 0x0000570030101E82; 0x0000570030200174;
  0x0000570030701E86; 0x0000570030801E84; 0x0000570032301E88;
  0x0000580030701E8A; 0x0000580030801E8C; 0x0000590030001EF2;
  0x00005900301000DD; 0x0000590030200176; 0x0000590030301EF8;
  0x0000590030400232; 0x0000590030701E8E; 0x0000590030800178;
  0x0000590030901EF6; 0x0000590032301EF4; 0x00005A0030100179;
  0x00005A0030201E90; 0x00005A003070017B; 0x00005A0030C0017D;
  0x00005A0032301E92; 0x00005A0033101E94; 0x00006100300000E0;
  0x00006100301000E1; 0x00006100302000E2; 0x00006100303000E3;
  0x0000610030400101; 0x0000610030600103; 0x0000610030700227;
  0x00006100308000E4; 0x0000610030901EA3; 0x0000610030A000E5;
  0x0000610030C001CE; 0x0000610030F00201; 0x0000610031100203;
  0x0000610032301EA1; 0x0000610032501E01; 0x0000610032800105;
  0x0000620030701E03; 0x0000620032301E05; 0x0000620033101E07;
  0x0000630030100107; 0x0000630030200109; 0x000063003070010B;
  0x0000630030C0010D; 0x00006300327000E7; 0x0000640030701E0B;
  0x0000640030C0010F; 0x0000640032301E0D; 0x0000640032701E11;
  0x0000640032D01E13; 0x0000640033101E0F; 0x00006500300000E8;
  0x00006500301000E9; 0x00006500302000EA; 0x0000650030301EBD;
  0x0000650030400113; 0x0000650030600115; 0x0000650030700117;
  0x00006500308000EB; 0x0000650030901EBB; 0x0000650030C0011B;
  0x0000650030F00205; 0x0000650031100207; 0x0000650032301EB9;
  0x0000650032700229; 0x0000650032800119; 0x0000650032D01E19;
  0x0000650033001E1B; 0x0000660030701E1F; 0x00006700301001F5;
  0x000067003020011D; 0x0000670030401E21; 0x000067003060011F;
  0x0000670030700121; 0x0000670030C001E7; 0x0000670032700123;
  0x0000680030200125; 0x0000680030701E23; 0x0000680030801E27;
  0x0000680030C0021F; 0x0000680032301E25; 0x0000680032701E29;
  0x0000680032E01E2B; 0x0000680033101E96; 0x00006900300000EC;
  0x00006900301000ED; 0x00006900302000EE; 0x0000690030300129;
  0x000069003040012B; 0x000069003060012D; 0x00006900308000EF;
  0x0000690030901EC9; 0x0000690030C001D0; 0x0000690030F00209;
  0x000069003110020B; 0x0000690032301ECB; 0x000069003280012F;
  0x0000690033001E2D; 0x00006A0030200135; 0x00006A0030C001F0;
  0x00006B0030101E31; 0x00006B0030C001E9; 0x00006B0032301E33;
  0x00006B0032700137; 0x00006B0033101E35; 0x00006C003010013A;
  0x00006C0030C0013E; 0x00006C0032301E37; 0x00006C003270013C;
  0x00006C0032D01E3D; 0x00006C0033101E3B; 0x00006D0030101E3F;
  0x00006D0030701E41; 0x00006D0032301E43; 0x00006E00300001F9;
  0x00006E0030100144; 0x00006E00303000F1; 0x00006E0030701E45;
  0x00006E0030C00148; 0x00006E0032301E47; 0x00006E0032700146;
  0x00006E0032D01E4B; 0x00006E0033101E49; 0x00006F00300000F2;
  0x00006F00301000F3; 0x00006F00302000F4; 0x00006F00303000F5;
  0x00006F003040014D; 0x00006F003060014F; 0x00006F003070022F;
  0x00006F00308000F6; 0x00006F0030901ECF; 0x00006F0030B00151;
  0x00006F0030C001D2; 0x00006F0030F0020D; 0x00006F003110020F;
  0x00006F0031B001A1; 0x00006F0032301ECD; 0x00006F00328001EB;
  0x0000700030101E55; 0x0000700030701E57; 0x0000720030100155;
  0x0000720030701E59; 0x0000720030C00159; 0x0000720030F00211;
  0x0000720031100213; 0x0000720032301E5B; 0x0000720032700157;
  0x0000720033101E5F; 0x000073003010015B; 0x000073003020015D;
  0x0000730030701E61; 0x0000730030C00161; 0x0000730032301E63;
  0x0000730032600219; 0x000073003270015F; 0x0000740030701E6B;
  0x0000740030801E97; 0x0000740030C00165; 0x0000740032301E6D;
  0x000074003260021B; 0x0000740032700163; 0x0000740032D01E71;
  0x0000740033101E6F; 0x00007500300000F9; 0x00007500301000FA;
  0x00007500302000FB; 0x0000750030300169; 0x000075003040016B;
  0x000075003060016D; 0x00007500308000FC; 0x0000750030901EE7;
  0x0000750030A0016F; 0x0000750030B00171; 0x0000750030C001D4;
  0x0000750030F00215; 0x0000750031100217; 0x0000750031B001B0;
  0x0000750032301EE5; 0x0000750032401E73; 0x0000750032800173;
  0x0000750032D01E77; 0x0000750033001E75; 0x0000760030301E7D;
  0x0000760032301E7F; 0x0000770030001E81; 0x0000770030101E83;
  0x0000770030200175; 0x0000770030701E87; 0x0000770030801E85;
  0x0000770030A01E98; 0x0000770032301E89; 0x0000780030701E8B;
  0x0000780030801E8D; 0x0000790030001EF3; 0x00007900301000FD;
  0x0000790030200177; 0x0000790030301EF9; 0x0000790030400233;
  0x0000790030701E8F; 0x00007900308000FF; 0x0000790030901EF7;
  0x0000790030A01E99; 0x0000790032301EF5; 0x00007A003010017A;
  0x00007A0030201E91; 0x00007A003070017C; 0x00007A0030C0017E;
  0x00007A0032301E93; 0x00007A0033101E95; 0x0000A80030001FED;
  0x0000A80030100385; 0x0000A80034201FC1; 0x0000C20030001EA6;
  0x0000C20030101EA4; 0x0000C20030301EAA; 0x0000C20030901EA8;
  0x0000C400304001DE; 0x0000C500301001FA; 0x0000C600301001FC;
  0x0000C600304001E2; 0x0000C70030101E08; 0x0000CA0030001EC0;
  0x0000CA0030101EBE; 0x0000CA0030301EC4; 0x0000CA0030901EC2;
  0x0000CF0030101E2E; 0x0000D40030001ED2; 0x0000D40030101ED0;
  0x0000D40030301ED6; 0x0000D40030901ED4; 0x0000D50030101E4C;
  0x0000D5003040022C; 0x0000D50030801E4E; 0x0000D6003040022A;
  0x0000D800301001FE; 0x0000DC00300001DB; 0x0000DC00301001D7;
  0x0000DC00304001D5; 0x0000DC0030C001D9; 0x0000E20030001EA7;
  0x0000E20030101EA5; 0x0000E20030301EAB; 0x0000E20030901EA9;
  0x0000E400304001DF; 0x0000E500301001FB; 0x0000E600301001FD;
  0x0000E600304001E3; 0x0000E70030101E09; 0x0000EA0030001EC1;
  0x0000EA0030101EBF; 0x0000EA0030301EC5; 0x0000EA0030901EC3;
  0x0000EF0030101E2F; 0x0000F40030001ED3; 0x0000F40030101ED1;
  0x0000F40030301ED7; 0x0000F40030901ED5; 0x0000F50030101E4D;
  0x0000F5003040022D; 0x0000F50030801E4F; 0x0000F6003040022B;
  0x0000F800301001FF; 0x0000FC00300001DC; 0x0000FC00301001D8;
  0x0000FC00304001D6; 0x0000FC0030C001DA; 0x0001020030001EB0;
  0x0001020030101EAE; 0x0001020030301EB4; 0x0001020030901EB2;
  0x0001030030001EB1; 0x0001030030101EAF; 0x0001030030301EB5;
  0x0001030030901EB3; 0x0001120030001E14; 0x0001120030101E16;
  0x0001130030001E15; 0x0001130030101E17; 0x00014C0030001E50;
  0x00014C0030101E52; 0x00014D0030001E51; 0x00014D0030101E53;
  0x00015A0030701E64; 0x00015B0030701E65; 0x0001600030701E66;
  0x0001610030701E67; 0x0001680030101E78; 0x0001690030101E79;
  0x00016A0030801E7A; 0x00016B0030801E7B; 0x00017F0030701E9B;
  0x0001A00030001EDC; 0x0001A00030101EDA; 0x0001A00030301EE0;
  0x0001A00030901EDE; 0x0001A00032301EE2; 0x0001A10030001EDD;
  0x0001A10030101EDB; 0x0001A10030301EE1; 0x0001A10030901EDF;
  0x0001A10032301EE3; 0x0001AF0030001EEA; 0x0001AF0030101EE8;
  0x0001AF0030301EEE; 0x0001AF0030901EEC; 0x0001AF0032301EF0;
  0x0001B00030001EEB; 0x0001B00030101EE9; 0x0001B00030301EEF;
  0x0001B00030901EED; 0x0001B00032301EF1; 0x0001B70030C001EE;
  0x0001EA00304001EC; 0x0001EB00304001ED; 0x00022600304001E0;
  0x00022700304001E1; 0x0002280030601E1C; 0x0002290030601E1D;
  0x00022E0030400230; 0x00022F0030400231; 0x0002920030C001EF;
  0x0003080030100344; 0x0003910030001FBA; 0x0003910030100386;
  0x0003910030401FB9; 0x0003910030601FB8; 0x0003910031301F08;
  0x0003910031401F09; 0x0003910034501FBC; 0x0003950030001FC8;
  0x0003950030100388; 0x0003950031301F18; 0x0003950031401F19;
  0x0003970030001FCA; 0x0003970030100389; 0x0003970031301F28;
  0x0003970031401F29; 0x0003970034501FCC; 0x0003990030001FDA;
  0x000399003010038A; 0x0003990030401FD9; 0x0003990030601FD8;
  0x00039900308003AA; 0x0003990031301F38; 0x0003990031401F39;
  0x00039F0030001FF8; 0x00039F003010038C; 0x00039F0031301F48;
  0x00039F0031401F49; 0x0003A10031401FEC; 0x0003A50030001FEA;
  0x0003A5003010038E; 0x0003A50030401FE9; 0x0003A50030601FE8;
  0x0003A500308003AB; 0x0003A50031401F59; 0x0003A90030001FFA;
  0x0003A9003010038F; 0x0003A90031301F68; 0x0003A90031401F69;
  0x0003A90034501FFC; 0x0003AC0034501FB4; 0x0003AE0034501FC4;
  0x0003B10030001F70; 0x0003B100301003AC; 0x0003B10030401FB1;
  0x0003B10030601FB0; 0x0003B10031301F00; 0x0003B10031401F01;
  0x0003B10034201FB6; 0x0003B10034501FB3; 0x0003B50030001F72;
  0x0003B500301003AD; 0x0003B50031301F10; 0x0003B50031401F11;
  0x0003B70030001F74; 0x0003B700301003AE; 0x0003B70031301F20;
  0x0003B70031401F21; 0x0003B70034201FC6; 0x0003B70034501FC3;
  0x0003B90030001F76; 0x0003B900301003AF; 0x0003B90030401FD1;
  0x0003B90030601FD0; 0x0003B900308003CA; 0x0003B90031301F30;
  0x0003B90031401F31; 0x0003B90034201FD6; 0x0003BF0030001F78;
  0x0003BF00301003CC; 0x0003BF0031301F40; 0x0003BF0031401F41;
  0x0003C10031301FE4; 0x0003C10031401FE5; 0x0003C50030001F7A;
  0x0003C500301003CD; 0x0003C50030401FE1; 0x0003C50030601FE0;
  0x0003C500308003CB; 0x0003C50031301F50; 0x0003C50031401F51;
  0x0003C50034201FE6; 0x0003C90030001F7C; 0x0003C900301003CE;
  0x0003C90031301F60; 0x0003C90031401F61; 0x0003C90034201FF6;
  0x0003C90034501FF3; 0x0003CA0030001FD2; 0x0003CA0030100390;
  0x0003CA0034201FD7; 0x0003CB0030001FE2; 0x0003CB00301003B0;
  0x0003CB0034201FE7; 0x0003CE0034501FF4; 0x0003D200301003D3;
  0x0003D200308003D4; 0x0004060030800407; 0x00041000306004D0;
  0x00041000308004D2; 0x0004130030100403; 0x0004150030000400;
  0x00041500306004D6; 0x0004150030800401; 0x00041600306004C1;
  0x00041600308004DC; 0x00041700308004DE; 0x000418003000040D;
  0x00041800304004E2; 0x0004180030600419; 0x00041800308004E4;
  0x00041A003010040C; 0x00041E00308004E6; 0x00042300304004EE;
  0x000423003060040E; 0x00042300308004F0; 0x0004230030B004F2;
  0x00042700308004F4; 0x00042B00308004F8; 0x00042D00308004EC;
  0x00043000306004D1; 0x00043000308004D3; 0x0004330030100453;
  0x0004350030000450; 0x00043500306004D7; 0x0004350030800451;
  0x00043600306004C2; 0x00043600308004DD; 0x00043700308004DF;
  0x000438003000045D; 0x00043800304004E3; 0x0004380030600439;
  0x00043800308004E5; 0x00043A003010045C; 0x00043E00308004E7;
  0x00044300304004EF; 0x000443003060045E; 0x00044300308004F1;
  0x0004430030B004F3; 0x00044700308004F5; 0x00044B00308004F9;
  0x00044D00308004ED; 0x0004560030800457; 0x0004740030F00476;
  0x0004750030F00477; 0x0004D800308004DA; 0x0004D900308004DB;
  0x0004E800308004EA; 0x0004E900308004EB; 0x0005D0005B70FB2E;
  0x0005D0005B80FB2F; 0x0005D0005BC0FB30; 0x0005D1005BC0FB31;
  0x0005D1005BF0FB4C; 0x0005D2005BC0FB32; 0x0005D3005BC0FB33;
  0x0005D4005BC0FB34; 0x0005D5005B90FB4B; 0x0005D5005BC0FB35;
  0x0005D6005BC0FB36; 0x0005D8005BC0FB38; 0x0005D9005B40FB1D;
  0x0005D9005BC0FB39; 0x0005DA005BC0FB3A; 0x0005DB005BC0FB3B;
  0x0005DB005BF0FB4D; 0x0005DC005BC0FB3C; 0x0005DE005BC0FB3E;
  0x0005E0005BC0FB40; 0x0005E1005BC0FB41; 0x0005E3005BC0FB43;
  0x0005E4005BC0FB44; 0x0005E4005BF0FB4E; 0x0005E6005BC0FB46;
  0x0005E7005BC0FB47; 0x0005E8005BC0FB48; 0x0005E9005BC0FB49;
  0x0005E9005C10FB2A; 0x0005E9005C20FB2B; 0x0005EA005BC0FB4A;
  0x0005F2005B70FB1F; 0x0006270065300622; 0x0006270065400623;
  0x0006270065500625; 0x0006480065400624; 0x00064A0065400626;
  0x0006C100654006C2; 0x0006D200654006D3; 0x0006D500654006C0;
  0x0009150093C00958; 0x0009160093C00959; 0x0009170093C0095A;
  0x00091C0093C0095B; 0x0009210093C0095C; 0x0009220093C0095D;
  0x0009280093C00929; 0x00092B0093C0095E; 0x00092F0093C0095F;
  0x0009300093C00931; 0x0009330093C00934; 0x0009A1009BC009DC;
  0x0009A2009BC009DD; 0x0009AF009BC009DF; 0x0009C7009BE009CB;
  0x0009C7009D7009CC; 0x000A1600A3C00A59; 0x000A1700A3C00A5A;
  0x000A1C00A3C00A5B; 0x000A2B00A3C00A5E; 0x000A3200A3C00A33;
  0x000A3800A3C00A36; 0x000B2100B3C00B5C; 0x000B2200B3C00B5D;
  0x000B4700B3E00B4B; 0x000B4700B5600B48; 0x000B4700B5700B4C;
  0x000B9200BD700B94; 0x000BC600BBE00BCA; 0x000BC600BD700BCC;
  0x000BC700BBE00BCB; 0x000C4600C5600C48; 0x000CBF00CD500CC0;
  0x000CC600CC200CCA; 0x000CC600CD500CC7; 0x000CC600CD600CC8;
  0x000CCA00CD500CCB; 0x000D4600D3E00D4A; 0x000D4600D5700D4C;
  0x000D4700D3E00D4B; 0x000DD900DCA00DDA; 0x000DD900DCF00DDC;
  0x000DD900DDF00DDE; 0x000DDC00DCA00DDD; 0x000F4000FB500F69;
  0x000F4200FB700F43; 0x000F4C00FB700F4D; 0x000F5100FB700F52;
  0x000F5600FB700F57; 0x000F5B00FB700F5C; 0x000F7100F7200F73;
  0x000F7100F7400F75; 0x000F7100F8000F81; 0x000F9000FB500FB9;
  0x000F9200FB700F93; 0x000F9C00FB700F9D; 0x000FA100FB700FA2;
  0x000FA600FB700FA7; 0x000FAB00FB700FAC; 0x000FB200F8000F76;
  0x000FB300F8000F78; 0x0010250102E01026; 0x001B0501B3501B06;
  0x001B0701B3501B08; 0x001B0901B3501B0A; 0x001B0B01B3501B0C;
  0x001B0D01B3501B0E; 0x001B1101B3501B12; 0x001B3A01B3501B3B;
  0x001B3C01B3501B3D; 0x001B3E01B3501B40; 0x001B3F01B3501B41;
  0x001B4201B3501B43; 0x001E360030401E38; 0x001E370030401E39;
  0x001E5A0030401E5C; 0x001E5B0030401E5D; 0x001E620030701E68;
  0x001E630030701E69; 0x001EA00030201EAC; 0x001EA00030601EB6;
  0x001EA10030201EAD; 0x001EA10030601EB7; 0x001EB80030201EC6;
  0x001EB90030201EC7; 0x001ECC0030201ED8; 0x001ECD0030201ED9;
  0x001F000030001F02; 0x001F000030101F04; 0x001F000034201F06;
  0x001F000034501F80; 0x001F010030001F03; 0x001F010030101F05;
  0x001F010034201F07; 0x001F010034501F81; 0x001F020034501F82;
  0x001F030034501F83; 0x001F040034501F84; 0x001F050034501F85;
  0x001F060034501F86; 0x001F070034501F87; 0x001F080030001F0A;
  0x001F080030101F0C; 0x001F080034201F0E; 0x001F080034501F88;
  0x001F090030001F0B; 0x001F090030101F0D; 0x001F090034201F0F;
  0x001F090034501F89; 0x001F0A0034501F8A; 0x001F0B0034501F8B;
  0x001F0C0034501F8C; 0x001F0D0034501F8D; 0x001F0E0034501F8E;
  0x001F0F0034501F8F; 0x001F100030001F12; 0x001F100030101F14;
  0x001F110030001F13; 0x001F110030101F15; 0x001F180030001F1A;
  0x001F180030101F1C; 0x001F190030001F1B; 0x001F190030101F1D;
  0x001F200030001F22; 0x001F200030101F24; 0x001F200034201F26;
  0x001F200034501F90; 0x001F210030001F23; 0x001F210030101F25;
  0x001F210034201F27; 0x001F210034501F91; 0x001F220034501F92;
  0x001F230034501F93; 0x001F240034501F94; 0x001F250034501F95;
  0x001F260034501F96; 0x001F270034501F97; 0x001F280030001F2A;
  0x001F280030101F2C; 0x001F280034201F2E; 0x001F280034501F98;
  0x001F290030001F2B; 0x001F290030101F2D; 0x001F290034201F2F;
  0x001F290034501F99; 0x001F2A0034501F9A; 0x001F2B0034501F9B;
  0x001F2C0034501F9C; 0x001F2D0034501F9D; 0x001F2E0034501F9E;
  0x001F2F0034501F9F; 0x001F300030001F32; 0x001F300030101F34;
  0x001F300034201F36; 0x001F310030001F33; 0x001F310030101F35;
  0x001F310034201F37; 0x001F380030001F3A; 0x001F380030101F3C;
  0x001F380034201F3E; 0x001F390030001F3B; 0x001F390030101F3D;
  0x001F390034201F3F; 0x001F400030001F42; 0x001F400030101F44;
  0x001F410030001F43; 0x001F410030101F45; 0x001F480030001F4A;
  0x001F480030101F4C; 0x001F490030001F4B; 0x001F490030101F4D;
  0x001F500030001F52; 0x001F500030101F54; 0x001F500034201F56;
  0x001F510030001F53; 0x001F510030101F55; 0x001F510034201F57;
  0x001F590030001F5B; 0x001F590030101F5D; 0x001F590034201F5F;
  0x001F600030001F62; 0x001F600030101F64; 0x001F600034201F66;
  0x001F600034501FA0; 0x001F610030001F63; 0x001F610030101F65;
  0x001F610034201F67; 0x001F610034501FA1; 0x001F620034501FA2;
  0x001F630034501FA3; 0x001F640034501FA4; 0x001F650034501FA5;
  0x001F660034501FA6; 0x001F670034501FA7; 0x001F680030001F6A;
  0x001F680030101F6C; 0x001F680034201F6E; 0x001F680034501FA8;
  0x001F690030001F6B; 0x001F690030101F6D; 0x001F690034201F6F;
  0x001F690034501FA9; 0x001F6A0034501FAA; 0x001F6B0034501FAB;
  0x001F6C0034501FAC; 0x001F6D0034501FAD; 0x001F6E0034501FAE;
  0x001F6F0034501FAF; 0x001F700034501FB2; 0x001F740034501FC2;
  0x001F7C0034501FF2; 0x001FB60034501FB7; 0x001FBF0030001FCD;
  0x001FBF0030101FCE; 0x001FBF0034201FCF; 0x001FC60034501FC7;
  0x001FF60034501FF7; 0x001FFE0030001FDD; 0x001FFE0030101FDE;
  0x001FFE0034201FDF; 0x002190003380219A; 0x002192003380219B;
  0x00219400338021AE; 0x0021D000338021CD; 0x0021D200338021CF;
  0x0021D400338021CE; 0x0022030033802204; 0x0022080033802209;
  0x00220B003380220C; 0x0022230033802224; 0x0022250033802226;
  0x00223C0033802241; 0x0022430033802244; 0x0022450033802247;
  0x0022480033802249; 0x00224D003380226D; 0x0022610033802262;
  0x0022640033802270; 0x0022650033802271; 0x0022720033802274;
  0x0022730033802275; 0x0022760033802278; 0x0022770033802279;
  0x00227A0033802280; 0x00227B0033802281; 0x00227C00338022E0;
  0x00227D00338022E1; 0x0022820033802284; 0x0022830033802285;
  0x0022860033802288; 0x0022870033802289; 0x00229100338022E2;
  0x00229200338022E3; 0x0022A200338022AC; 0x0022A800338022AD;
  0x0022A900338022AE; 0x0022AB00338022AF; 0x0022B200338022EA;
  0x0022B300338022EB; 0x0022B400338022EC; 0x0022B500338022ED;
  0x002ADD0033802ADC; 0x0030460309903094; 0x00304B030990304C;
  0x00304D030990304E; 0x00304F0309903050; 0x0030510309903052;
  0x0030530309903054; 0x0030550309903056; 0x0030570309903058;
  0x003059030990305A; 0x00305B030990305C; 0x00305D030990305E;
  0x00305F0309903060; 0x0030610309903062; 0x0030640309903065;
  0x0030660309903067; 0x0030680309903069; 0x00306F0309903070;
  0x00306F0309A03071; 0x0030720309903073; 0x0030720309A03074;
  0x0030750309903076; 0x0030750309A03077; 0x0030780309903079;
  0x0030780309A0307A; 0x00307B030990307C; 0x00307B0309A0307D;
  0x00309D030990309E; 0x0030A603099030F4; 0x0030AB03099030AC;
  0x0030AD03099030AE; 0x0030AF03099030B0; 0x0030B103099030B2;
  0x0030B303099030B4; 0x0030B503099030B6; 0x0030B703099030B8;
  0x0030B903099030BA; 0x0030BB03099030BC; 0x0030BD03099030BE;
  0x0030BF03099030C0; 0x0030C103099030C2; 0x0030C403099030C5;
  0x0030C603099030C7; 0x0030C803099030C9; 0x0030CF03099030D0;
  0x0030CF0309A030D1; 0x0030D203099030D3; 0x0030D20309A030D4;
  0x0030D503099030D6; 0x0030D50309A030D7; 0x0030D803099030D9;
  0x0030D80309A030DA; 0x0030DB03099030DC; 0x0030DB0309A030DD;
  0x0030EF03099030F7; 0x0030F003099030F8; 0x0030F103099030F9;
  0x0030F203099030FA; 0x0030FD03099030FE; 0x00FB49005C10FB2C;
  0x00FB49005C20FB2D; 0x0105D200307105C9; 0x0105DA00307105E4;
  0x011099110BA1109A; 0x01109B110BA1109C; 0x0110A5110BA110AB;
  0x011131111271112E; 0x011132111271112F; 0x0113471133E1134B;
  0x011347113571134C; 0x011382113C911383; 0x011384113BB11385;
  0x01138B113C21138E; 0x011390113C911391; 0x0113C2113B8113C7;
  0x0113C2113C2113C5; 0x0113C2113C9113C8; 0x0114B9114B0114BC;
  0x0114B9114BA114BB; 0x0114B9114BD114BE; 0x0115B8115AF115BA;
  0x0115B9115AF115BB; 0x0119351193011938; 0x01611E1611E16121;
  0x01611E1611F16123; 0x01611E1612016125; 0x01611E1612916122;
  0x0161211611F16126; 0x0161211612016128; 0x0161221611F16127;
  0x0161291611F16124; 0x016D6316D6716D69; 0x016D6716D6716D68;
  0x016D6916D6716D6A; 0x01D1571D1651D15E; 0x01D1581D1651D15F;
  0x01D15F1D16E1D160; 0x01D15F1D16F1D161; 0x01D15F1D1701D162;
  0x01D15F1D1711D163; 0x01D15F1D1721D164; 0x01D1B91D1651D1BB;
  0x01D1BA1D1651D1BC; 0x01D1BB1D16E1D1BD; 0x01D1BB1D16F1D1BF;
  0x01D1BC1D16E1D1BE; 0x01D1BC1D16F1D1C0
].
