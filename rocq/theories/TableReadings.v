(* GENERATED by tools/gen_readings.py; do not edit. *)
From Coq Require Import ZArith List.
Import ListNotations.
Local Open Scope Z_scope.

(* Compatibility ideographs filed under the reading of their equivalents. *)
Definition well_filed : list Z := [
  0xF905; 0xF90A; 0xF95B; 0xF95C; 0xF95D; 0xF95F; 0xF960; 0xF962; 0xF967; 0xF968; 0xFA04; 0xFA0B].

(* The others, each with a hanja that it is on the wrong side of. *)
Definition wrongly_filed : list (Z * Z) := [
  (0xF900, 0x93A7); (0xF901, 0x7CB3); (0xF902, 0x907D); (0xF903, 0x8AA5); (0xF904, 0x9AA8); (0xF906, 0x994B);
  (0xF907, 0x9B3C); (0xF908, 0x921E); (0xF909, 0x9949); (0xF90B, 0x5A1C); (0xF90C, 0x5A1C); (0xF90D, 0x62FF);
  (0xF90E, 0x90A3); (0xF90F, 0x90A3); (0xF910, 0x90A3); (0xF911, 0x90A3); (0xF912, 0x90A3); (0xF913, 0x90A3);
  (0xF914, 0x6696); (0xF915, 0x6696); (0xF916, 0x6696); (0xF917, 0x6696); (0xF918, 0x6696); (0xF919, 0x6696);
  (0xF91A, 0x6696); (0xF91B, 0x6696); (0xF91C, 0x6696); (0xF91D, 0x7156); (0xF91E, 0x96E3); (0xF91F, 0x96E3);
  (0xF920, 0x634F); (0xF921, 0x678F); (0xF922, 0x7537); (0xF923, 0x7D0D); (0xF924, 0x7D0D); (0xF925, 0x7D0D);
  (0xF926, 0x8872); (0xF927, 0x8872); (0xF928, 0x4E43); (0xF929, 0x4E43); (0xF92A, 0x4E43); (0xF92B, 0x4E43);
  (0xF92C, 0x4E43); (0xF92D, 0x5167); (0xF92E, 0x5973); (0xF92F, 0x5974); (0xF930, 0x7459); (0xF931, 0x7459);
  (0xF932, 0x7459); (0xF933, 0x99D1); (0xF934, 0x99D1); (0xF935, 0x99D1); (0xF936, 0x99D1); (0xF937, 0x99D1);
  (0xF938, 0x99D1); (0xF939, 0x6FC3); (0xF93A, 0x6FC3); (0xF93B, 0x6FC3); (0xF93C, 0x6FC3); (0xF93D, 0x6FC3);
  (0xF93E, 0x6FC3); (0xF93F, 0x6FC3); (0xF940, 0x6FC3); (0xF941, 0x6FC3); (0xF942, 0x6FC3); (0xF943, 0x6FC3);
  (0xF944, 0x81BF); (0xF945, 0x81BF); (0xF946, 0x8166); (0xF947, 0x8166); (0xF948, 0x5C3F); (0xF949, 0x5C3F);
  (0xF94A, 0x5AE9); (0xF94B, 0x5AE9); (0xF94C, 0x5AE9); (0xF94D, 0x5AE9); (0xF94E, 0x5AE9); (0xF94F, 0x5AE9);
  (0xF950, 0x5AE9); (0xF951, 0x5AE9); (0xF952, 0x80FD); (0xF953, 0x80FD); (0xF954, 0x80FD); (0xF955, 0x80FD);
  (0xF956, 0x80FD); (0xF957, 0x80FD); (0xF958, 0x5C3C); (0xF959, 0x5C3C); (0xF95A, 0x8373); (0xF95E, 0x99F1);
  (0xF961, 0x9686); (0xF963, 0x57F9); (0xF964, 0x756A); (0xF965, 0x535E); (0xF966, 0x5E9C); (0xF969, 0x6714);
  (0xF96A, 0x5098); (0xF96B, 0x6749); (0xF96C, 0x55C7); (0xF96D, 0x7B19); (0xF96E, 0x57CE); (0xF96F, 0x7D30);
  (0xF970, 0x5237); (0xF971, 0x8FC5); (0xF972, 0x6DF1); (0xF973, 0x5341); (0xF974, 0x91CE); (0xF975, 0x5F31);
  (0xF976, 0x5F31); (0xF977, 0x8E8D); (0xF978, 0x4F6F); (0xF979, 0x4F6F); (0xF97A, 0x6698); (0xF97B, 0x7A70);
  (0xF97C, 0x7F8A); (0xF97D, 0x8944); (0xF97E, 0x967D); (0xF97F, 0x4F59); (0xF980, 0x4F59); (0xF981, 0x4F59);
  (0xF982, 0x5982); (0xF983, 0x5982); (0xF984, 0x6C5D); (0xF985, 0x7916); (0xF986, 0x8F5D); (0xF987, 0x9918);
  (0xF988, 0x9918); (0xF989, 0x9918); (0xF98A, 0x4EA6); (0xF98B, 0x6613); (0xF98C, 0x6613); (0xF98D, 0x8B6F);
  (0xF98E, 0x5BB4); (0xF98F, 0x5EF6); (0xF990, 0x5EF6); (0xF991, 0x633B); (0xF992, 0x6F14); (0xF993, 0x7159);
  (0xF994, 0x71D5); (0xF995, 0x786F); (0xF996, 0x7DE3); (0xF997, 0x7E2F); (0xF998, 0x8EDF); (0xF999, 0x8EDF);
  (0xF99A, 0x8EDF); (0xF99B, 0x925B); (0xF99C, 0x9CF6); (0xF99D, 0x9CF6); (0xF99E, 0x6085); (0xF99F, 0x6D85);
  (0xF9A0, 0x71B1); (0xF9A1, 0x71B1); (0xF9A2, 0x53AD); (0xF9A3, 0x53AD); (0xF9A4, 0x53AD); (0xF9A5, 0x67D3);
  (0xF9A6, 0x82D2); (0xF9A7, 0x66C4); (0xF9A8, 0x8449); (0xF9A9, 0x8449); (0xF9AA, 0x584B); (0xF9AB, 0x584B);
  (0xF9AC, 0x5F71); (0xF9AD, 0x7370); (0xF9AE, 0x74D4); (0xF9AF, 0x7E93); (0xF9B0, 0x7E93); (0xF9B1, 0x8FCE);
  (0xF9B2, 0x9348); (0xF9B3, 0x9719); (0xF9B4, 0x9719); (0xF9B5, 0x502A); (0xF9B6, 0x8602); (0xF9B7, 0x8C6B);
  (0xF9B8, 0x92B3); (0xF9B9, 0x609F); (0xF9BA, 0x754F); (0xF9BB, 0x754F); (0xF9BC, 0x5BE5); (0xF9BD, 0x5BE5);
  (0xF9BE, 0x64FE); (0xF9BF, 0x66DC); (0xF9C0, 0x6A48); (0xF9C1, 0x7464); (0xF9C2, 0x8170); (0xF9C3, 0x9059);
  (0xF9C4, 0x93DE); (0xF9C5, 0x6A52); (0xF9C6, 0x9060); (0xF9C7, 0x516A); (0xF9C8, 0x6709); (0xF9C9, 0x67DA);
  (0xF9CA, 0x6D27); (0xF9CB, 0x6E38); (0xF9CC, 0x7337); (0xF9CD, 0x7531); (0xF9CE, 0x7652); (0xF9CF, 0x7652);
  (0xF9D0, 0x936E); (0xF9D1, 0x936E); (0xF9D2, 0x5809); (0xF9D3, 0x80B2); (0xF9D4, 0x80B2); (0xF9D5, 0x5C39);
  (0xF9D6, 0x5C39); (0xF9D7, 0x8D07); (0xF9D8, 0x958F); (0xF9D9, 0x958F); (0xF9DA, 0x958F); (0xF9DB, 0x958F);
  (0xF9DC, 0x878D); (0xF9DD, 0x4F0A); (0xF9DE, 0x4F0A); (0xF9DF, 0x59E8); (0xF9E0, 0x6021); (0xF9E1, 0x6021);
  (0xF9E2, 0x6021); (0xF9E3, 0x6021); (0xF9E4, 0x73E5); (0xF9E5, 0x75CD); (0xF9E6, 0x79FB); (0xF9E7, 0x8351);
  (0xF9E8, 0x8351); (0xF9E9, 0x9087); (0xF9EA, 0x9087); (0xF9EB, 0x990C); (0xF9EC, 0x990C); (0xF9ED, 0x5370);
  (0xF9EE, 0x6E6E); (0xF9EF, 0x6E6E); (0xF9F0, 0x8335); (0xF9F1, 0x8A8D); (0xF9F2, 0x9777); (0xF9F3, 0x9777);
  (0xF9F4, 0x6041); (0xF9F5, 0x6041); (0xF9F6, 0x7A14); (0xF9F7, 0x5344); (0xF9F8, 0x5344); (0xF9F9, 0x5344);
  (0xF9FA, 0x7246); (0xF9FB, 0x72C4); (0xF9FC, 0x8A8C); (0xF9FD, 0x6715); (0xF9FE, 0x7B9A); (0xF9FF, 0x501C);
  (0xFA00, 0x9BD6); (0xFA01, 0x577C); (0xFA02, 0x6258); (0xFA03, 0x6E6F); (0xFA05, 0x6876); (0xFA06, 0x6CE1);
  (0xFA07, 0x7206); (0xFA08, 0x9805); (0xFA09, 0x822A); (0xFA0A, 0x8852)].
