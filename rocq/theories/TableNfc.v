(* GENERATED by tools/gen_nfc.py from the Unicode Character Database 14.0.0 (as in Python); do not edit. *)
From Coq Require Import ZArith List.
Import ListNotations.
Local Open Scope Z_scope.

(* The canonical equivalents of U+F900, U+F901, ..., U+FA0B. *)
Definition equivalents : list Z := [
  0x8C48; 0x66F4; 0x8ECA; 0x8CC8; 0x6ED1; 0x4E32; 0x53E5; 0x9F9C; 0x9F9C; 0x5951; 0x91D1; 0x5587;
  0x5948; 0x61F6; 0x7669; 0x7F85; 0x863F; 0x87BA; 0x88F8; 0x908F; 0x6A02; 0x6D1B; 0x70D9; 0x73DE;
  0x843D; 0x916A; 0x99F1; 0x4E82; 0x5375; 0x6B04; 0x721B; 0x862D; 0x9E1E; 0x5D50; 0x6FEB; 0x85CD;
  0x8964; 0x62C9; 0x81D8; 0x881F; 0x5ECA; 0x6717; 0x6D6A; 0x72FC; 0x90CE; 0x4F86; 0x51B7; 0x52DE;
  0x64C4; 0x6AD3; 0x7210; 0x76E7; 0x8001; 0x8606; 0x865C; 0x8DEF; 0x9732; 0x9B6F; 0x9DFA; 0x788C;
  0x797F; 0x7DA0; 0x83C9; 0x9304; 0x9E7F; 0x8AD6; 0x58DF; 0x5F04; 0x7C60; 0x807E; 0x7262; 0x78CA;
  0x8CC2; 0x96F7; 0x58D8; 0x5C62; 0x6A13; 0x6DDA; 0x6F0F; 0x7D2F; 0x7E37; 0x964B; 0x52D2; 0x808B;
  0x51DC; 0x51CC; 0x7A1C; 0x7DBE; 0x83F1; 0x9675; 0x8B80; 0x62CF; 0x6A02; 0x8AFE; 0x4E39; 0x5BE7;
  0x6012; 0x7387; 0x7570; 0x5317; 0x78FB; 0x4FBF; 0x5FA9; 0x4E0D; 0x6CCC; 0x6578; 0x7D22; 0x53C3;
  0x585E; 0x7701; 0x8449; 0x8AAA; 0x6BBA; 0x8FB0; 0x6C88; 0x62FE; 0x82E5; 0x63A0; 0x7565; 0x4EAE;
  0x5169; 0x51C9; 0x6881; 0x7CE7; 0x826F; 0x8AD2; 0x91CF; 0x52F5; 0x5442; 0x5973; 0x5EEC; 0x65C5;
  0x6FFE; 0x792A; 0x95AD; 0x9A6A; 0x9E97; 0x9ECE; 0x529B; 0x66C6; 0x6B77; 0x8F62; 0x5E74; 0x6190;
  0x6200; 0x649A; 0x6F23; 0x7149; 0x7489; 0x79CA; 0x7DF4; 0x806F; 0x8F26; 0x84EE; 0x9023; 0x934A;
  0x5217; 0x52A3; 0x54BD; 0x70C8; 0x88C2; 0x8AAA; 0x5EC9; 0x5FF5; 0x637B; 0x6BAE; 0x7C3E; 0x7375;
  0x4EE4; 0x56F9; 0x5BE7; 0x5DBA; 0x601C; 0x73B2; 0x7469; 0x7F9A; 0x8046; 0x9234; 0x96F6; 0x9748;
  0x9818; 0x4F8B; 0x79AE; 0x91B4; 0x96B8; 0x60E1; 0x4E86; 0x50DA; 0x5BEE; 0x5C3F; 0x6599; 0x6A02;
  0x71CE; 0x7642; 0x84FC; 0x907C; 0x9F8D; 0x6688; 0x962E; 0x5289; 0x677B; 0x67F3; 0x6D41; 0x6E9C;
  0x7409; 0x7559; 0x786B; 0x7D10; 0x985E; 0x516D; 0x622E; 0x9678; 0x502B; 0x5D19; 0x6DEA; 0x8F2A;
  0x5F8B; 0x6144; 0x6817; 0x7387; 0x9686; 0x5229; 0x540F; 0x5C65; 0x6613; 0x674E; 0x68A8; 0x6CE5;
  0x7406; 0x75E2; 0x7F79; 0x88CF; 0x88E1; 0x91CC; 0x96E2; 0x533F; 0x6EBA; 0x541D; 0x71D0; 0x7498;
  0x85FA; 0x96A3; 0x9C57; 0x9E9F; 0x6797; 0x6DCB; 0x81E8; 0x7ACB; 0x7B20; 0x7C92; 0x72C0; 0x7099;
  0x8B58; 0x4EC0; 0x8336; 0x523A; 0x5207; 0x5EA6; 0x62D3; 0x7CD6; 0x5B85; 0x6D1E; 0x66B4; 0x8F3B;
  0x884C; 0x964D; 0x898B; 0x5ED3].
