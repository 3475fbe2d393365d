(** Generated by tools/gen_symcert.py: opcode and address of each opcode symbol of
    player/iivision.dbg (15769-18112), in file order; checked in SymbolProofs.v. *)
From Verif Require Import Base OpcodeModel.

Definition op_table : list (cmd * Z) := [
  (ACK, 0xBA72); (TERMINATE, 0xBA64); (TICK 66 63, 0xBA30); (TICK 64 63, 0xB9FC);
  (TICK 62 63, 0xB9C8); (TICK 60 63, 0xB994); (TICK 58 63, 0xB960); (TICK 56 63, 0xB92C);
  (TICK 54 63, 0xB8F8); (TICK 52 63, 0xB8CD); (TICK 50 63, 0xB8A5); (TICK 48 63, 0xB87C);
  (TICK 46 63, 0xB857); (TICK 44 63, 0xB831); (TICK 42 63, 0xB80E); (TICK 40 63, 0xB7EB);
  (TICK 38 63, 0xB7CB); (TICK 36 63, 0xB797); (TICK 34 63, 0xB771); (TICK 32 63, 0xB755);
  (TICK 30 63, 0xB738); (TICK 28 63, 0xB71F); (TICK 26 63, 0xB705); (TICK 66 62, 0xB6D1);
  (TICK 64 62, 0xB69D); (TICK 62 62, 0xB669); (TICK 60 62, 0xB635); (TICK 58 62, 0xB601);
  (TICK 56 62, 0xB5CD); (TICK 54 62, 0xB599); (TICK 52 62, 0xB56E); (TICK 50 62, 0xB546);
  (TICK 48 62, 0xB51D); (TICK 46 62, 0xB4F8); (TICK 44 62, 0xB4D2); (TICK 42 62, 0xB4AF);
  (TICK 40 62, 0xB48C); (TICK 38 62, 0xB46C); (TICK 36 62, 0xB438); (TICK 34 62, 0xB412);
  (TICK 32 62, 0xB3F6); (TICK 30 62, 0xB3D9); (TICK 28 62, 0xB3C0); (TICK 26 62, 0xB3A6);
  (TICK 24 62, 0xB38F); (TICK 22 62, 0xB378); (TICK 20 62, 0xB364); (TICK 18 62, 0xB330);
  (TICK 16 62, 0xB319); (TICK 14 62, 0xB309); (TICK 12 62, 0xB2F8); (TICK 10 62, 0xB2EB);
  (TICK 8 62, 0xB2DD); (TICK 6 62, 0xB2AA); (TICK 4 62, 0xB276); (TICK 66 61, 0xB242);
  (TICK 64 61, 0xB20E); (TICK 62 61, 0xB1DA); (TICK 60 61, 0xB1A6); (TICK 58 61, 0xB172);
  (TICK 56 61, 0xB13E); (TICK 54 61, 0xB10A); (TICK 52 61, 0xB0DF); (TICK 50 61, 0xB0B7);
  (TICK 48 61, 0xB08E); (TICK 46 61, 0xB069); (TICK 44 61, 0xB043); (TICK 42 61, 0xB020);
  (TICK 40 61, 0xAFFD); (TICK 38 61, 0xAFDD); (TICK 36 61, 0xAFA9); (TICK 34 61, 0xAF83);
  (TICK 32 61, 0xAF67); (TICK 30 61, 0xAF4A); (TICK 28 61, 0xAF31); (TICK 26 61, 0xAF17);
  (TICK 24 61, 0xAF00); (TICK 22 61, 0xAEE9); (TICK 20 61, 0xAED5); (TICK 18 61, 0xAEA1);
  (TICK 16 61, 0xAE8A); (TICK 14 61, 0xAE7A); (TICK 12 61, 0xAE69); (TICK 10 61, 0xAE5C);
  (TICK 8 61, 0xAE4E); (TICK 6 61, 0xAE1B); (TICK 4 61, 0xADE7); (TICK 66 60, 0xADB3);
  (TICK 64 60, 0xAD7F); (TICK 62 60, 0xAD4B); (TICK 60 60, 0xAD17); (TICK 58 60, 0xACE3);
  (TICK 56 60, 0xACAF); (TICK 54 60, 0xAC7B); (TICK 52 60, 0xAC50); (TICK 50 60, 0xAC28);
  (TICK 48 60, 0xABFF); (TICK 46 60, 0xABDA); (TICK 44 60, 0xABB4); (TICK 42 60, 0xAB91);
  (TICK 40 60, 0xAB6E); (TICK 38 60, 0xAB4E); (TICK 36 60, 0xAB1A); (TICK 34 60, 0xAAF4);
  (TICK 32 60, 0xAAD8); (TICK 30 60, 0xAABB); (TICK 28 60, 0xAAA2); (TICK 26 60, 0xAA88);
  (TICK 24 60, 0xAA71); (TICK 22 60, 0xAA5A); (TICK 20 60, 0xAA46); (TICK 18 60, 0xAA12);
  (TICK 16 60, 0xA9FB); (TICK 14 60, 0xA9EB); (TICK 12 60, 0xA9DA); (TICK 10 60, 0xA9CD);
  (TICK 8 60, 0xA9BF); (TICK 6 60, 0xA98C); (TICK 4 60, 0xA958); (TICK 66 59, 0xA924);
  (TICK 64 59, 0xA8F0); (TICK 62 59, 0xA8BC); (TICK 60 59, 0xA888); (TICK 58 59, 0xA854);
  (TICK 56 59, 0xA820); (TICK 54 59, 0xA7EC); (TICK 52 59, 0xA7C1); (TICK 50 59, 0xA799);
  (TICK 48 59, 0xA770); (TICK 46 59, 0xA74B); (TICK 44 59, 0xA725); (TICK 42 59, 0xA702);
  (TICK 40 59, 0xA6DF); (TICK 38 59, 0xA6BF); (TICK 36 59, 0xA68B); (TICK 34 59, 0xA665);
  (TICK 32 59, 0xA649); (TICK 30 59, 0xA62C); (TICK 28 59, 0xA613); (TICK 26 59, 0xA5F9);
  (TICK 24 59, 0xA5E2); (TICK 22 59, 0xA5CB); (TICK 20 59, 0xA5B7); (TICK 18 59, 0xA583);
  (TICK 16 59, 0xA56C); (TICK 14 59, 0xA55C); (TICK 12 59, 0xA54B); (TICK 10 59, 0xA53E);
  (TICK 8 59, 0xA530); (TICK 6 59, 0xA4FD); (TICK 4 59, 0xA4C9); (TICK 66 58, 0xA495);
  (TICK 64 58, 0xA461); (TICK 62 58, 0xA42D); (TICK 60 58, 0xA3F9); (TICK 58 58, 0xA3C5);
  (TICK 56 58, 0xA391); (TICK 54 58, 0xA35D); (TICK 52 58, 0xA332); (TICK 50 58, 0xA30A);
  (TICK 48 58, 0xA2E1); (TICK 46 58, 0xA2BC); (TICK 44 58, 0xA296); (TICK 42 58, 0xA273);
  (TICK 40 58, 0xA250); (TICK 38 58, 0xA230); (TICK 36 58, 0xA1FC); (TICK 34 58, 0xA1D6);
  (TICK 32 58, 0xA1BA); (TICK 30 58, 0xA19D); (TICK 28 58, 0xA184); (TICK 26 58, 0xA16A);
  (TICK 24 58, 0xA153); (TICK 22 58, 0xA13C); (TICK 20 58, 0xA128); (TICK 18 58, 0xA0F4);
  (TICK 16 58, 0xA0DD); (TICK 14 58, 0xA0CD); (TICK 12 58, 0xA0BC); (TICK 10 58, 0xA0AF);
  (TICK 8 58, 0xA0A1); (TICK 6 58, 0xA06E); (TICK 4 58, 0xA03A); (TICK 66 57, 0xA006);
  (TICK 64 57, 0x9FD2); (TICK 62 57, 0x9F9E); (TICK 60 57, 0x9F6A); (TICK 58 57, 0x9F36);
  (TICK 56 57, 0x9F02); (TICK 54 57, 0x9ECE); (TICK 52 57, 0x9EA3); (TICK 50 57, 0x9E7B);
  (TICK 48 57, 0x9E52); (TICK 46 57, 0x9E2D); (TICK 44 57, 0x9E07); (TICK 42 57, 0x9DE4);
  (TICK 40 57, 0x9DC1); (TICK 38 57, 0x9DA1); (TICK 36 57, 0x9D6D); (TICK 34 57, 0x9D47);
  (TICK 32 57, 0x9D2B); (TICK 30 57, 0x9D0E); (TICK 28 57, 0x9CF5); (TICK 26 57, 0x9CDB);
  (TICK 24 57, 0x9CC4); (TICK 22 57, 0x9CAD); (TICK 20 57, 0x9C99); (TICK 18 57, 0x9C65);
  (TICK 16 57, 0x9C4E); (TICK 14 57, 0x9C3E); (TICK 12 57, 0x9C2D); (TICK 10 57, 0x9C20);
  (TICK 8 57, 0x9C12); (TICK 6 57, 0x9BDF); (TICK 4 57, 0x9BAB); (TICK 66 56, 0x9B77);
  (TICK 64 56, 0x9B43); (TICK 62 56, 0x9B0F); (TICK 60 56, 0x9ADB); (TICK 58 56, 0x9AA7);
  (TICK 56 56, 0x9A73); (TICK 54 56, 0x9A3F); (TICK 52 56, 0x9A14); (TICK 50 56, 0x99EC);
  (TICK 48 56, 0x99C3); (TICK 46 56, 0x999E); (TICK 44 56, 0x9978); (TICK 42 56, 0x9955);
  (TICK 40 56, 0x9932); (TICK 38 56, 0x9912); (TICK 36 56, 0x98DE); (TICK 34 56, 0x98B8);
  (TICK 32 56, 0x989C); (TICK 30 56, 0x987F); (TICK 28 56, 0x9866); (TICK 26 56, 0x984C);
  (TICK 24 56, 0x9835); (TICK 22 56, 0x981E); (TICK 20 56, 0x980A); (TICK 18 56, 0x97D6);
  (TICK 16 56, 0x97BF); (TICK 14 56, 0x97AF); (TICK 12 56, 0x979E); (TICK 10 56, 0x9791);
  (TICK 8 56, 0x9783); (TICK 6 56, 0x9750); (TICK 4 56, 0x971C); (TICK 66 55, 0x96E8);
  (TICK 64 55, 0x96B4); (TICK 62 55, 0x9680); (TICK 60 55, 0x964C); (TICK 58 55, 0x9618);
  (TICK 56 55, 0x95E4); (TICK 54 55, 0x95B0); (TICK 52 55, 0x9585); (TICK 50 55, 0x955D);
  (TICK 48 55, 0x9534); (TICK 46 55, 0x950F); (TICK 44 55, 0x94E9); (TICK 42 55, 0x94C6);
  (TICK 40 55, 0x94A3); (TICK 38 55, 0x9483); (TICK 36 55, 0x944F); (TICK 34 55, 0x9429);
  (TICK 32 55, 0x940D); (TICK 30 55, 0x93F0); (TICK 28 55, 0x93D7); (TICK 26 55, 0x93BD);
  (TICK 24 55, 0x93A6); (TICK 22 55, 0x938F); (TICK 20 55, 0x937B); (TICK 18 55, 0x9347);
  (TICK 16 55, 0x9330); (TICK 14 55, 0x9320); (TICK 12 55, 0x930F); (TICK 10 55, 0x9302);
  (TICK 8 55, 0x92F4); (TICK 6 55, 0x92C1); (TICK 4 55, 0x928D); (TICK 66 54, 0x9259);
  (TICK 64 54, 0x9225); (TICK 62 54, 0x91F1); (TICK 60 54, 0x91BD); (TICK 58 54, 0x9189);
  (TICK 56 54, 0x9155); (TICK 54 54, 0x9121); (TICK 52 54, 0x90F6); (TICK 50 54, 0x90CE);
  (TICK 48 54, 0x90A5); (TICK 46 54, 0x9080); (TICK 44 54, 0x905A); (TICK 42 54, 0x9037);
  (TICK 40 54, 0x9014); (TICK 38 54, 0x8FF4); (TICK 36 54, 0x8FC0); (TICK 34 54, 0x8F9A);
  (TICK 32 54, 0x8F7E); (TICK 30 54, 0x8F61); (TICK 28 54, 0x8F48); (TICK 26 54, 0x8F2E);
  (TICK 24 54, 0x8F17); (TICK 22 54, 0x8F00); (TICK 20 54, 0x8EEC); (TICK 18 54, 0x8EB8);
  (TICK 16 54, 0x8EA1); (TICK 14 54, 0x8E91); (TICK 12 54, 0x8E80); (TICK 10 54, 0x8E73);
  (TICK 8 54, 0x8E65); (TICK 6 54, 0x8E32); (TICK 4 54, 0x8DFE); (TICK 66 53, 0x8DCA);
  (TICK 64 53, 0x8D96); (TICK 62 53, 0x8D62); (TICK 60 53, 0x8D2E); (TICK 58 53, 0x8CFA);
  (TICK 56 53, 0x8CC6); (TICK 54 53, 0x8C92); (TICK 52 53, 0x8C67); (TICK 50 53, 0x8C3F);
  (TICK 48 53, 0x8C16); (TICK 46 53, 0x8BF1); (TICK 44 53, 0x8BCB); (TICK 42 53, 0x8BA8);
  (TICK 40 53, 0x8B85); (TICK 38 53, 0x8B65); (TICK 36 53, 0x8B31); (TICK 34 53, 0x8B0B);
  (TICK 32 53, 0x8AEF); (TICK 30 53, 0x8AD2); (TICK 28 53, 0x8AB9); (TICK 26 53, 0x8A9F);
  (TICK 24 53, 0x8A88); (TICK 22 53, 0x8A71); (TICK 20 53, 0x8A5D); (TICK 18 53, 0x8A29);
  (TICK 16 53, 0x8A12); (TICK 14 53, 0x8A02); (TICK 12 53, 0x89F1); (TICK 10 53, 0x89E4);
  (TICK 8 53, 0x89D6); (TICK 6 53, 0x89A3); (TICK 4 53, 0x896F); (TICK 66 52, 0x893B);
  (TICK 64 52, 0x8907); (TICK 62 52, 0x88D3); (TICK 60 52, 0x889F); (TICK 58 52, 0x886B);
  (TICK 56 52, 0x8837); (TICK 54 52, 0x8803); (TICK 52 52, 0x87D8); (TICK 50 52, 0x87B0);
  (TICK 48 52, 0x8787); (TICK 46 52, 0x8762); (TICK 44 52, 0x873C); (TICK 42 52, 0x8719);
  (TICK 40 52, 0x86F6); (TICK 38 52, 0x86D6); (TICK 36 52, 0x86A2); (TICK 34 52, 0x867C);
  (TICK 32 52, 0x8660); (TICK 30 52, 0x8643); (TICK 28 52, 0x862A); (TICK 26 52, 0x8610);
  (TICK 24 52, 0x85F9); (TICK 22 52, 0x85E2); (TICK 20 52, 0x85CE); (TICK 18 52, 0x859A);
  (TICK 16 52, 0x8583); (TICK 14 52, 0x8573); (TICK 12 52, 0x8562); (TICK 10 52, 0x8555);
  (TICK 8 52, 0x8547); (TICK 6 52, 0x8514); (TICK 4 52, 0x84E0); (TICK 66 51, 0x84AC);
  (TICK 64 51, 0x8478); (TICK 62 51, 0x8444); (TICK 60 51, 0x8410); (TICK 58 51, 0x83DC);
  (TICK 56 51, 0x83A8); (TICK 54 51, 0x8374); (TICK 52 51, 0x8349); (TICK 50 51, 0x8321);
  (TICK 48 51, 0x82F8); (TICK 46 51, 0x82D3); (TICK 44 51, 0x82AD); (TICK 42 51, 0x828A);
  (TICK 40 51, 0x8267); (TICK 38 51, 0x8247); (TICK 36 51, 0x8213); (TICK 34 51, 0x81ED);
  (TICK 32 51, 0x81D1); (TICK 30 51, 0x81B4); (TICK 28 51, 0x819B); (TICK 26 51, 0x8181);
  (TICK 24 51, 0x816A); (TICK 22 51, 0x8153); (TICK 20 51, 0x813F); (TICK 18 51, 0x810B);
  (TICK 16 51, 0x80F4); (TICK 14 51, 0x80E4); (TICK 12 51, 0x80D3); (TICK 10 51, 0x80C6);
  (TICK 8 51, 0x80B8); (TICK 6 51, 0x8085); (TICK 4 51, 0x8051); (TICK 66 50, 0x801D);
  (TICK 64 50, 0x7FE9); (TICK 62 50, 0x7FB5); (TICK 60 50, 0x7F81); (TICK 58 50, 0x7F4D);
  (TICK 56 50, 0x7F19); (TICK 54 50, 0x7EE5); (TICK 52 50, 0x7EBA); (TICK 50 50, 0x7E92);
  (TICK 48 50, 0x7E69); (TICK 46 50, 0x7E44); (TICK 44 50, 0x7E1E); (TICK 42 50, 0x7DFB);
  (TICK 40 50, 0x7DD8); (TICK 38 50, 0x7DB8); (TICK 36 50, 0x7D84); (TICK 34 50, 0x7D5E);
  (TICK 32 50, 0x7D42); (TICK 30 50, 0x7D25); (TICK 28 50, 0x7D0C); (TICK 26 50, 0x7CF2);
  (TICK 24 50, 0x7CDB); (TICK 22 50, 0x7CC4); (TICK 20 50, 0x7CB0); (TICK 18 50, 0x7C7C);
  (TICK 16 50, 0x7C65); (TICK 14 50, 0x7C55); (TICK 12 50, 0x7C44); (TICK 10 50, 0x7C37);
  (TICK 8 50, 0x7C29); (TICK 6 50, 0x7BF6); (TICK 4 50, 0x7BC2); (TICK 66 49, 0x7B8E);
  (TICK 64 49, 0x7B5A); (TICK 62 49, 0x7B26); (TICK 60 49, 0x7AF2); (TICK 58 49, 0x7ABE);
  (TICK 56 49, 0x7A8A); (TICK 54 49, 0x7A56); (TICK 52 49, 0x7A2B); (TICK 50 49, 0x7A03);
  (TICK 48 49, 0x79DA); (TICK 46 49, 0x79B5); (TICK 44 49, 0x798F); (TICK 42 49, 0x796C);
  (TICK 40 49, 0x7949); (TICK 38 49, 0x7929); (TICK 36 49, 0x78F5); (TICK 34 49, 0x78CF);
  (TICK 32 49, 0x78B3); (TICK 30 49, 0x7896); (TICK 28 49, 0x787D); (TICK 26 49, 0x7863);
  (TICK 24 49, 0x784C); (TICK 22 49, 0x7835); (TICK 20 49, 0x7821); (TICK 18 49, 0x77ED);
  (TICK 16 49, 0x77D6); (TICK 14 49, 0x77C6); (TICK 12 49, 0x77B5); (TICK 10 49, 0x77A8);
  (TICK 8 49, 0x779A); (TICK 6 49, 0x7767); (TICK 4 49, 0x7733); (TICK 66 48, 0x76FF);
  (TICK 64 48, 0x76CB); (TICK 62 48, 0x7697); (TICK 60 48, 0x7663); (TICK 58 48, 0x762F);
  (TICK 56 48, 0x75FB); (TICK 54 48, 0x75C7); (TICK 52 48, 0x759C); (TICK 50 48, 0x7574);
  (TICK 48 48, 0x754B); (TICK 46 48, 0x7526); (TICK 44 48, 0x7500); (TICK 42 48, 0x74DD);
  (TICK 40 48, 0x74BA); (TICK 38 48, 0x749A); (TICK 36 48, 0x7466); (TICK 34 48, 0x7440);
  (TICK 32 48, 0x7424); (TICK 30 48, 0x7407); (TICK 28 48, 0x73EE); (TICK 26 48, 0x73D4);
  (TICK 24 48, 0x73BD); (TICK 22 48, 0x73A6); (TICK 20 48, 0x7392); (TICK 18 48, 0x735E);
  (TICK 16 48, 0x7347); (TICK 14 48, 0x7337); (TICK 12 48, 0x7326); (TICK 10 48, 0x7319);
  (TICK 8 48, 0x730B); (TICK 6 48, 0x72D8); (TICK 4 48, 0x72A4); (TICK 66 47, 0x7270);
  (TICK 64 47, 0x723C); (TICK 62 47, 0x7208); (TICK 60 47, 0x71D4); (TICK 58 47, 0x71A0);
  (TICK 56 47, 0x716C); (TICK 54 47, 0x7138); (TICK 52 47, 0x710D); (TICK 50 47, 0x70E5);
  (TICK 48 47, 0x70BC); (TICK 46 47, 0x7097); (TICK 44 47, 0x7071); (TICK 42 47, 0x704E);
  (TICK 40 47, 0x702B); (TICK 38 47, 0x700B); (TICK 36 47, 0x6FD7); (TICK 34 47, 0x6FB1);
  (TICK 32 47, 0x6F95); (TICK 30 47, 0x6F78); (TICK 28 47, 0x6F5F); (TICK 26 47, 0x6F45);
  (TICK 24 47, 0x6F2E); (TICK 22 47, 0x6F17); (TICK 20 47, 0x6F03); (TICK 18 47, 0x6ECF);
  (TICK 16 47, 0x6EB8); (TICK 14 47, 0x6EA8); (TICK 12 47, 0x6E97); (TICK 10 47, 0x6E8A);
  (TICK 8 47, 0x6E7C); (TICK 6 47, 0x6E49); (TICK 4 47, 0x6E15); (TICK 66 46, 0x6DE1);
  (TICK 64 46, 0x6DAD); (TICK 62 46, 0x6D79); (TICK 60 46, 0x6D45); (TICK 58 46, 0x6D11);
  (TICK 56 46, 0x6CDD); (TICK 54 46, 0x6CA9); (TICK 52 46, 0x6C7E); (TICK 50 46, 0x6C56);
  (TICK 48 46, 0x6C2D); (TICK 46 46, 0x6C08); (TICK 44 46, 0x6BE2); (TICK 42 46, 0x6BBF);
  (TICK 40 46, 0x6B9C); (TICK 38 46, 0x6B7C); (TICK 36 46, 0x6B48); (TICK 34 46, 0x6B22);
  (TICK 32 46, 0x6B06); (TICK 30 46, 0x6AE9); (TICK 28 46, 0x6AD0); (TICK 26 46, 0x6AB6);
  (TICK 24 46, 0x6A9F); (TICK 22 46, 0x6A88); (TICK 20 46, 0x6A74); (TICK 18 46, 0x6A40);
  (TICK 16 46, 0x6A29); (TICK 14 46, 0x6A19); (TICK 12 46, 0x6A08); (TICK 10 46, 0x69FB);
  (TICK 8 46, 0x69ED); (TICK 6 46, 0x69BA); (TICK 4 46, 0x6986); (TICK 66 45, 0x6952);
  (TICK 64 45, 0x691E); (TICK 62 45, 0x68EA); (TICK 60 45, 0x68B6); (TICK 58 45, 0x6882);
  (TICK 56 45, 0x684E); (TICK 54 45, 0x681A); (TICK 52 45, 0x67EF); (TICK 50 45, 0x67C7);
  (TICK 48 45, 0x679E); (TICK 46 45, 0x6779); (TICK 44 45, 0x6753); (TICK 42 45, 0x6730);
  (TICK 40 45, 0x670D); (TICK 38 45, 0x66ED); (TICK 36 45, 0x66B9); (TICK 34 45, 0x6693);
  (TICK 32 45, 0x6677); (TICK 30 45, 0x665A); (TICK 28 45, 0x6641); (TICK 26 45, 0x6627);
  (TICK 24 45, 0x6610); (TICK 22 45, 0x65F9); (TICK 20 45, 0x65E5); (TICK 18 45, 0x65B1);
  (TICK 16 45, 0x659A); (TICK 14 45, 0x658A); (TICK 12 45, 0x6579); (TICK 10 45, 0x656C);
  (TICK 8 45, 0x655E); (TICK 6 45, 0x652B); (TICK 4 45, 0x64F7); (TICK 66 44, 0x64C3);
  (TICK 64 44, 0x648F); (TICK 62 44, 0x645B); (TICK 60 44, 0x6427); (TICK 58 44, 0x63F3);
  (TICK 56 44, 0x63BF); (TICK 54 44, 0x638B); (TICK 52 44, 0x6360); (TICK 50 44, 0x6338);
  (TICK 48 44, 0x630F); (TICK 46 44, 0x62EA); (TICK 44 44, 0x62C4); (TICK 42 44, 0x62A1);
  (TICK 40 44, 0x627E); (TICK 38 44, 0x625E); (TICK 36 44, 0x622A); (TICK 34 44, 0x6204);
  (TICK 32 44, 0x61E8); (TICK 30 44, 0x61CB); (TICK 28 44, 0x61B2); (TICK 26 44, 0x6198);
  (TICK 24 44, 0x6181); (TICK 22 44, 0x616A); (TICK 20 44, 0x6156); (TICK 18 44, 0x6122);
  (TICK 16 44, 0x610B); (TICK 14 44, 0x60FB); (TICK 12 44, 0x60EA); (TICK 10 44, 0x60DD);
  (TICK 8 44, 0x60CF); (TICK 6 44, 0x609C); (TICK 4 44, 0x6068); (TICK 66 43, 0x6034);
  (TICK 64 43, 0x6000); (TICK 62 43, 0x5FCC); (TICK 60 43, 0x5F98); (TICK 58 43, 0x5F64);
  (TICK 56 43, 0x5F30); (TICK 54 43, 0x5EFC); (TICK 52 43, 0x5ED1); (TICK 50 43, 0x5EA9);
  (TICK 48 43, 0x5E80); (TICK 46 43, 0x5E5B); (TICK 44 43, 0x5E35); (TICK 42 43, 0x5E12);
  (TICK 40 43, 0x5DEF); (TICK 38 43, 0x5DCF); (TICK 36 43, 0x5D9B); (TICK 34 43, 0x5D75);
  (TICK 32 43, 0x5D59); (TICK 30 43, 0x5D3C); (TICK 28 43, 0x5D23); (TICK 26 43, 0x5D09);
  (TICK 24 43, 0x5CF2); (TICK 22 43, 0x5CDB); (TICK 20 43, 0x5CC7); (TICK 18 43, 0x5C93);
  (TICK 16 43, 0x5C7C); (TICK 14 43, 0x5C6C); (TICK 12 43, 0x5C5B); (TICK 10 43, 0x5C4E);
  (TICK 8 43, 0x5C40); (TICK 6 43, 0x5C0D); (TICK 4 43, 0x5BD9); (TICK 66 42, 0x5BA5);
  (TICK 64 42, 0x5B71); (TICK 62 42, 0x5B3D); (TICK 60 42, 0x5B09); (TICK 58 42, 0x5AD5);
  (TICK 56 42, 0x5AA1); (TICK 54 42, 0x5A6D); (TICK 52 42, 0x5A42); (TICK 50 42, 0x5A1A);
  (TICK 48 42, 0x59F1); (TICK 46 42, 0x59CC); (TICK 44 42, 0x59A6); (TICK 42 42, 0x5983);
  (TICK 40 42, 0x5960); (TICK 38 42, 0x5940); (TICK 36 42, 0x590C); (TICK 34 42, 0x58E6);
  (TICK 32 42, 0x58CA); (TICK 30 42, 0x58AD); (TICK 28 42, 0x5894); (TICK 26 42, 0x587A);
  (TICK 24 42, 0x5863); (TICK 22 42, 0x584C); (TICK 20 42, 0x5838); (TICK 18 42, 0x5804);
  (TICK 16 42, 0x57ED); (TICK 14 42, 0x57DD); (TICK 12 42, 0x57CC); (TICK 10 42, 0x57BF);
  (TICK 8 42, 0x57B1); (TICK 6 42, 0x577E); (TICK 4 42, 0x574A); (TICK 66 41, 0x5716);
  (TICK 64 41, 0x56E2); (TICK 62 41, 0x56AE); (TICK 60 41, 0x567A); (TICK 58 41, 0x5646);
  (TICK 56 41, 0x5612); (TICK 54 41, 0x55DE); (TICK 52 41, 0x55B3); (TICK 50 41, 0x558B);
  (TICK 48 41, 0x5562); (TICK 46 41, 0x553D); (TICK 44 41, 0x5517); (TICK 42 41, 0x54F4);
  (TICK 40 41, 0x54D1); (TICK 38 41, 0x54B1); (TICK 36 41, 0x547D); (TICK 34 41, 0x5457);
  (TICK 32 41, 0x543B); (TICK 30 41, 0x541E); (TICK 28 41, 0x5405); (TICK 26 41, 0x53EB);
  (TICK 24 41, 0x53D4); (TICK 22 41, 0x53BD); (TICK 20 41, 0x53A9); (TICK 18 41, 0x5375);
  (TICK 16 41, 0x535E); (TICK 14 41, 0x534E); (TICK 12 41, 0x533D); (TICK 10 41, 0x5330);
  (TICK 8 41, 0x5322); (TICK 6 41, 0x52EF); (TICK 4 41, 0x52BB); (TICK 66 40, 0x5287);
  (TICK 64 40, 0x5253); (TICK 62 40, 0x521F); (TICK 60 40, 0x51EB); (TICK 58 40, 0x51B7);
  (TICK 56 40, 0x5183); (TICK 54 40, 0x514F); (TICK 52 40, 0x5124); (TICK 50 40, 0x50FC);
  (TICK 48 40, 0x50D3); (TICK 46 40, 0x50AE); (TICK 44 40, 0x5088); (TICK 42 40, 0x5065);
  (TICK 40 40, 0x5042); (TICK 38 40, 0x5022); (TICK 36 40, 0x4FEE); (TICK 34 40, 0x4FC8);
  (TICK 32 40, 0x4FAC); (TICK 30 40, 0x4F8F); (TICK 28 40, 0x4F76); (TICK 26 40, 0x4F5C);
  (TICK 24 40, 0x4F45); (TICK 22 40, 0x4F2E); (TICK 20 40, 0x4F1A); (TICK 18 40, 0x4EE6);
  (TICK 16 40, 0x4ECF); (TICK 14 40, 0x4EBF); (TICK 12 40, 0x4EAE); (TICK 10 40, 0x4EA1);
  (TICK 8 40, 0x4E93); (TICK 6 40, 0x4E60); (TICK 4 40, 0x4E2C); (TICK 66 39, 0x4DF8);
  (TICK 64 39, 0x4DC4); (TICK 62 39, 0x4D90); (TICK 60 39, 0x4D5C); (TICK 58 39, 0x4D28);
  (TICK 56 39, 0x4CF4); (TICK 54 39, 0x4CC0); (TICK 52 39, 0x4C95); (TICK 50 39, 0x4C6D);
  (TICK 48 39, 0x4C44); (TICK 46 39, 0x4C1F); (TICK 44 39, 0x4BF9); (TICK 42 39, 0x4BD6);
  (TICK 40 39, 0x4BB3); (TICK 38 39, 0x4B93); (TICK 36 39, 0x4B5F); (TICK 34 39, 0x4B39);
  (TICK 32 39, 0x4B1D); (TICK 30 39, 0x4B00); (TICK 28 39, 0x4AE7); (TICK 26 39, 0x4ACD);
  (TICK 24 39, 0x4AB6); (TICK 22 39, 0x4A9F); (TICK 20 39, 0x4A8B); (TICK 18 39, 0x4A57);
  (TICK 16 39, 0x4A40); (TICK 14 39, 0x4A30); (TICK 12 39, 0x4A1F); (TICK 10 39, 0x4A12);
  (TICK 8 39, 0x4A04); (TICK 6 39, 0x49D1); (TICK 4 39, 0x499D); (TICK 66 38, 0x4969);
  (TICK 64 38, 0x4935); (TICK 62 38, 0x4901); (TICK 60 38, 0x48CD); (TICK 58 38, 0x4899);
  (TICK 56 38, 0x4865); (TICK 54 38, 0x4831); (TICK 52 38, 0x4806); (TICK 50 38, 0x47DE);
  (TICK 48 38, 0x47B5); (TICK 46 38, 0x4790); (TICK 44 38, 0x476A); (TICK 42 38, 0x4747);
  (TICK 40 38, 0x4724); (TICK 38 38, 0x4704); (TICK 36 38, 0x46D0); (TICK 34 38, 0x46AA);
  (TICK 32 38, 0x468E); (TICK 30 38, 0x4671); (TICK 28 38, 0x4658); (TICK 26 38, 0x463E);
  (TICK 24 38, 0x4627); (TICK 22 38, 0x4610); (TICK 20 38, 0x45FC); (TICK 18 38, 0x45C8);
  (TICK 16 38, 0x45B1); (TICK 14 38, 0x45A1); (TICK 12 38, 0x4590); (TICK 10 38, 0x4583);
  (TICK 8 38, 0x4575); (TICK 6 38, 0x4542); (TICK 4 38, 0x450E); (TICK 66 37, 0x44DA);
  (TICK 64 37, 0x44A6); (TICK 62 37, 0x4472); (TICK 60 37, 0x443E); (TICK 58 37, 0x440A);
  (TICK 56 37, 0x43D6); (TICK 54 37, 0x43A2); (TICK 52 37, 0x4377); (TICK 50 37, 0x434F);
  (TICK 48 37, 0x4326); (TICK 46 37, 0x4301); (TICK 44 37, 0x42DB); (TICK 42 37, 0x42B8);
  (TICK 40 37, 0x4295); (TICK 38 37, 0x4275); (TICK 36 37, 0x4241); (TICK 34 37, 0x421B);
  (TICK 32 37, 0x41FF); (TICK 30 37, 0x41E2); (TICK 28 37, 0x41C9); (TICK 26 37, 0x41AF);
  (TICK 24 37, 0x4198); (TICK 22 37, 0x4181); (TICK 20 37, 0x416D); (TICK 18 37, 0x4139);
  (TICK 16 37, 0x4122); (TICK 14 37, 0x4112); (TICK 12 37, 0x4101); (TICK 10 37, 0x40F4);
  (TICK 8 37, 0x40E6); (TICK 6 37, 0x40B3); (TICK 4 37, 0x407F); (TICK 24 63, 0x1FE7);
  (TICK 22 63, 0x1FD0); (TICK 20 63, 0x1FBC); (TICK 18 63, 0x1F88); (TICK 16 63, 0x1F71);
  (TICK 14 63, 0x1F61); (TICK 12 63, 0x1F50); (TICK 10 63, 0x1F43); (TICK 8 63, 0x1F35);
  (TICK 6 63, 0x1F02); (TICK 4 63, 0x1ECE); (TICK 66 36, 0x1E9A); (TICK 64 36, 0x1E66);
  (TICK 62 36, 0x1E32); (TICK 60 36, 0x1DFE); (TICK 58 36, 0x1DCA); (TICK 56 36, 0x1D96);
  (TICK 54 36, 0x1D62); (TICK 52 36, 0x1D37); (TICK 50 36, 0x1D0F); (TICK 48 36, 0x1CE6);
  (TICK 46 36, 0x1CC1); (TICK 44 36, 0x1C9B); (TICK 42 36, 0x1C78); (TICK 40 36, 0x1C55);
  (TICK 38 36, 0x1C35); (TICK 36 36, 0x1C01); (TICK 34 36, 0x1BDB); (TICK 32 36, 0x1BBF);
  (TICK 30 36, 0x1BA2); (TICK 28 36, 0x1B89); (TICK 26 36, 0x1B6F); (TICK 24 36, 0x1B58);
  (TICK 22 36, 0x1B41); (TICK 20 36, 0x1B2D); (TICK 18 36, 0x1AF9); (TICK 16 36, 0x1AE2);
  (TICK 14 36, 0x1AD2); (TICK 12 36, 0x1AC1); (TICK 10 36, 0x1AB4); (TICK 8 36, 0x1AA6);
  (TICK 6 36, 0x1A73); (TICK 4 36, 0x1A3F); (TICK 66 35, 0x1A0B); (TICK 64 35, 0x19D7);
  (TICK 62 35, 0x19A3); (TICK 60 35, 0x196F); (TICK 58 35, 0x193B); (TICK 56 35, 0x1907);
  (TICK 54 35, 0x18D3); (TICK 52 35, 0x18A8); (TICK 50 35, 0x1880); (TICK 48 35, 0x1857);
  (TICK 46 35, 0x1832); (TICK 44 35, 0x180C); (TICK 42 35, 0x17E9); (TICK 40 35, 0x17C6);
  (TICK 38 35, 0x17A6); (TICK 36 35, 0x1772); (TICK 34 35, 0x174C); (TICK 32 35, 0x1730);
  (TICK 30 35, 0x1713); (TICK 28 35, 0x16FA); (TICK 26 35, 0x16E0); (TICK 24 35, 0x16C9);
  (TICK 22 35, 0x16B2); (TICK 20 35, 0x169E); (TICK 18 35, 0x166A); (TICK 16 35, 0x1653);
  (TICK 14 35, 0x1643); (TICK 12 35, 0x1632); (TICK 10 35, 0x1625); (TICK 8 35, 0x1617);
  (TICK 6 35, 0x15E4); (TICK 4 35, 0x15B0); (TICK 66 34, 0x157C); (TICK 64 34, 0x1548);
  (TICK 62 34, 0x1514); (TICK 60 34, 0x14E0); (TICK 58 34, 0x14AC); (TICK 56 34, 0x1478);
  (TICK 54 34, 0x1444); (TICK 52 34, 0x1419); (TICK 50 34, 0x13F1); (TICK 48 34, 0x13C8);
  (TICK 46 34, 0x13A3); (TICK 44 34, 0x137D); (TICK 42 34, 0x135A); (TICK 40 34, 0x1337);
  (TICK 38 34, 0x1317); (TICK 36 34, 0x12E3); (TICK 34 34, 0x12BD); (TICK 32 34, 0x12A1);
  (TICK 30 34, 0x1284); (TICK 28 34, 0x126B); (TICK 26 34, 0x1251); (TICK 24 34, 0x123A);
  (TICK 22 34, 0x1223); (TICK 20 34, 0x120F); (TICK 18 34, 0x11DB); (TICK 16 34, 0x11C4);
  (TICK 14 34, 0x11B4); (TICK 12 34, 0x11A3); (TICK 10 34, 0x1196); (TICK 8 34, 0x1188);
  (TICK 6 34, 0x1155); (TICK 4 34, 0x1121); (TICK 66 33, 0x10ED); (TICK 64 33, 0x10B9);
  (TICK 62 33, 0x1085); (TICK 60 33, 0x1051); (TICK 58 33, 0x101D); (TICK 56 33, 0xFE9);
  (TICK 54 33, 0xFB5); (TICK 52 33, 0xF8A); (TICK 50 33, 0xF62); (TICK 48 33, 0xF39);
  (TICK 46 33, 0xF14); (TICK 44 33, 0xEEE); (TICK 42 33, 0xECB); (TICK 40 33, 0xEA8);
  (TICK 38 33, 0xE88); (TICK 36 33, 0xE54); (TICK 34 33, 0xE2E); (TICK 32 33, 0xE12);
  (TICK 30 33, 0xDF5); (TICK 28 33, 0xDDC); (TICK 26 33, 0xDC2); (TICK 24 33, 0xDAB);
  (TICK 22 33, 0xD94); (TICK 20 33, 0xD80); (TICK 18 33, 0xD4C); (TICK 16 33, 0xD35);
  (TICK 14 33, 0xD25); (TICK 12 33, 0xD14); (TICK 10 33, 0xD07); (TICK 8 33, 0xCF9);
  (TICK 6 33, 0xCC6); (TICK 4 33, 0xC92); (TICK 66 32, 0xC5E); (TICK 64 32, 0xC2A);
  (TICK 62 32, 0xBF6); (TICK 60 32, 0xBC2); (TICK 58 32, 0xB8E); (TICK 56 32, 0xB5A);
  (TICK 54 32, 0xB26); (TICK 52 32, 0xAFB); (TICK 50 32, 0xAD3); (TICK 48 32, 0xAAA);
  (TICK 46 32, 0xA85); (TICK 44 32, 0xA5F); (TICK 42 32, 0xA3C); (TICK 40 32, 0xA19);
  (TICK 38 32, 0x9F9); (TICK 36 32, 0x9C5); (TICK 34 32, 0x99F); (TICK 32 32, 0x983);
  (TICK 30 32, 0x966); (TICK 28 32, 0x94D); (TICK 26 32, 0x933); (TICK 24 32, 0x91C);
  (TICK 22 32, 0x905); (TICK 20 32, 0x8F1); (TICK 18 32, 0x8BD); (TICK 16 32, 0x8A6);
  (TICK 14 32, 0x896); (TICK 12 32, 0x885); (TICK 10 32, 0x878); (TICK 8 32, 0x86A);
  (TICK 6 32, 0x837); (TICK 4 32, 0x803); (NOP, 0x4070); (HEADER, 0x215B)].
