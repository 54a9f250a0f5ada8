(** The expectations of the test files of /repo, evaluated on the model.  Generated by
    tools/gen_validation.py.  These are tests of the model, not properties: no theorem
    depends on this file. *)
From Coq Require Import ZArith List Bool.
From Verif Require Import Base Utf8 TableFrom TableTo HangulModel HanjaModel Cp949Model StreamModel
  TransformModel TransformModel2.
Import ListNotations.
Local Open Scope Z_scope.

Definition v_grow (old need : Z) : Z := Z.max need (2 * old).
(* bytes.Buffer as a reader *)
Definition v_rd (s : list Z) (k : Z) : list Z * option error * list Z :=
  match s with
  | [] => ([], Some EOF, [])
  | _ => (ztake k s, None, zdrop k s)
  end.
(* bytes.Buffer as a writer *)
Definition v_wr (s bs : list Z) : option error * list Z := (None, s ++ bs).

(* hangul_test.go: TestIdx *)
Example v_idx :
  leadIdx (Lead J_T) = (16, true).
Proof. vm_compute. repeat split. Qed.

(* hangul_test.go: TestStroke *)
Example v_stroke :
  map Stroke [49464; 49345; 50500; 32; 50504; 45397] = map Ok [5; 5; 3; 0; 4; 5] /\
  Stroke J_JJ = Ok 6 /\ Stroke J_YAE = Ok 4 /\ Stroke J_WAE = Ok 5.
Proof. vm_compute. repeat split. Qed.

(* hangul_test.go: TestJoin *)
Example v_join :
  Join LeadS MedialEO 0 = 0xC11C /\
  Join LeadZS MedialU TailL = 0xC6B8 /\
  Join LeadP MedialYEO TailNG = 0xD3C9 /\
  Join LeadZS MedialYA TailNG = 0xC591.
Proof. vm_compute. repeat split. Qed.

(* hangul_test.go: TestSplit *)
Example v_split :
  SplitCompat 51088 = (J_J, J_A, 0) /\
  SplitCompat 47784 = (J_M, J_O, 0) /\
  SplitCompat 54620 = (J_H, J_A, J_N) /\
  SplitCompat 44544 = (J_G, J_EU, J_L) /\
  SplitCompat 50504 = (J_ZS, J_A, J_N) /\
  SplitCompat 45397 = (J_N, J_YEO, J_NG).
Proof. vm_compute. repeat split. Qed.

(* hangul_test.go: TestMultiElements *)
Example v_multi :
  SplitMultiElement J_GG = ([J_G; J_G], true) /\ snd (SplitMultiElement J_G) = false.
Proof. vm_compute. repeat split. Qed.

(* hangul_test.go: TestComaptJamo *)
Example v_compat :
  CompatJamo LeadG = J_G /\
  CompatJamo TailH = J_H /\
  CompatJamo MedialA = J_A /\
  CompatJamo MedialI = J_I.
Proof. vm_compute. repeat split. Qed.

(* hangul_test.go: TestJamoConstants *)
Example v_constants :
  J_H = 0x314E /\
  J_I = 0x3163 /\
  LeadH = 0x1112 /\
  MedialI = 0x1175 /\
  TailH = 0x11C2.
Proof. vm_compute. repeat split. Qed.

(* hangul_test.go: TestEndsWIthConsonant *)
Example v_ends :
  EndsWithConsonant [] = Ok false /\
  EndsWithConsonant [234; 176; 149] = Ok true /\
  EndsWithConsonant [234; 183; 184; 235; 130; 160; 235; 167; 145] = Ok true /\
  EndsWithConsonant [236; 157; 180] = Ok false /\
  EndsWithConsonant [235; 172; 188; 234; 179; 160; 234; 184; 176] = Ok false.
Proof. vm_compute. repeat split. Qed.

(* hangul_test.go: TestLastConsonant *)
Example v_last :
  LastConsonant [] = Ok 0 /\
  LastConsonant [234; 176; 149] = Ok TailNG /\
  LastConsonant [234; 183; 184; 235; 130; 160; 235; 167; 145] = Ok TailLG /\
  LastConsonant [236; 157; 180] = Ok 0 /\
  LastConsonant [235; 172; 188; 234; 179; 160; 234; 184; 176] = Ok 0.
Proof. vm_compute. repeat split. Qed.

(* hangul_test.go: TestAppendPostposition *)
Example v_append :
  AppendPostposition [] [] [] = Ok [] /\
  AppendPostposition [] [236; 157; 180] [234; 176; 128] = Ok [234; 176; 128] /\
  AppendPostposition [236; 185; 184] [236; 157; 128] [235; 138; 148] = Ok [236; 185; 184; 236; 157; 128] /\
  AppendPostposition [234; 183; 184] [236; 157; 128] [235; 138; 148] = Ok [234; 183; 184; 235; 138; 148] /\
  AppendPostposition [234; 183; 184; 235; 130; 160; 235; 167; 145] [236; 157; 180] [234; 176; 128] = Ok [234; 183; 184; 235; 130; 160; 235; 167; 145; 236; 157; 180] /\
  AppendPostposition [236; 138; 164; 235; 172; 180; 235; 148; 148] [236; 157; 132] [235; 165; 188] = Ok [236; 138; 164; 235; 172; 180; 235; 148; 148; 235; 165; 188] /\
  AppendPostposition [236; 152; 129; 236; 178; 160] [236; 157; 180; 235; 158; 145] [235; 158; 145] = Ok [236; 152; 129; 236; 178; 160; 236; 157; 180; 235; 158; 145] /\
  AppendPostposition [236; 136; 156; 237; 157; 172] [236; 157; 180; 235; 158; 145] [235; 158; 145] = Ok [236; 136; 156; 237; 157; 172; 235; 158; 145] /\
  AppendPostposition [235; 167; 136; 236; 157; 132] [236; 156; 188; 235; 161; 156] [235; 161; 156] = Ok [235; 167; 136; 236; 157; 132; 235; 161; 156].
Proof. vm_compute. repeat split. Qed.

(* example_test.go: ExampleAppendPostposition *)
Example v_example_append :
  AppendPostposition [234; 176; 149] [236; 157; 180] [234; 176; 128] = Ok [234; 176; 149; 236; 157; 180] /\
  AppendPostposition [235; 172; 188; 234; 179; 160; 234; 184; 176] [236; 157; 128] [235; 138; 148] = Ok [235; 172; 188; 234; 179; 160; 234; 184; 176; 235; 138; 148] /\
  AppendPostposition [236; 152; 129; 236; 178; 160] [236; 157; 180; 235; 158; 145] [235; 158; 145] = Ok [236; 152; 129; 236; 178; 160; 236; 157; 180; 235; 158; 145] /\
  AppendPostposition [236; 136; 156; 237; 157; 172] [236; 157; 180; 235; 158; 145] [235; 158; 145] = Ok [236; 136; 156; 237; 157; 172; 235; 158; 145] /\
  AppendPostposition [235; 167; 136; 236; 157; 132] [236; 156; 188; 235; 161; 156] [235; 161; 156] = Ok [235; 167; 136; 236; 157; 132; 235; 161; 156].
Proof. vm_compute. repeat split. Qed.

(* example_test.go: ExampleLastConsonant *)
Example v_example_last :
  LastConsonant [234; 176; 149] = Ok 4540 /\
  LastConsonant [235; 172; 188; 234; 179; 160; 234; 184; 176] = Ok 0.
Proof. vm_compute. repeat split. Qed.

(* hanja/hanja_test.go: TestTable *)
Example v_hanja :
  Convert [229; 164; 167; 233; 159; 147; 230; 176; 145; 229; 156; 139; 236; 157; 128; 32; 230; 176; 145; 228; 184; 187; 229; 133;
   177; 229; 146; 140; 229; 156; 139; 236; 157; 180; 235; 139; 164; 46] =
  [235; 140; 128; 237; 149; 156; 235; 175; 188; 234; 181; 173; 236; 157; 128; 32; 235; 175; 188; 236; 163; 188; 234; 179;
   181; 237; 153; 148; 234; 181; 173; 236; 157; 180; 235; 139; 164; 46].
Proof. vm_compute. repeat split. Qed.

(* encoding/cp949/cp949_test.go: tests[0] *)
Definition v_cp949_0 : list Z :=
  [190; 198; 184; 167; 180; 217; 191; 238; 32; 191; 236; 184; 174; 184; 187].
Definition v_utf8_0 : list Z :=
  [236; 149; 132; 235; 166; 132; 235; 139; 164; 236; 154; 180; 32; 236; 154; 176; 235; 166; 172; 235; 167; 144].

(* cp949_test.go: TestFrom *)
Example v_from_0 :
  From v_grow v_cp949_0 = Ok (inl v_utf8_0).
Proof. vm_compute. repeat split. Qed.

(* cp949_test.go: TestTo *)
Example v_to_0 :
  To v_grow v_utf8_0 = Ok (inl v_cp949_0).
Proof. vm_compute. repeat split. Qed.

(* encoding_test.go: TestCP949ToUTF8 *)
Example v_decoder_0 :
  match tread_seq (dec_Transform v_grow) (list Z) v_rd 99 (TNewReader v_cp949_0) (repeat 512 9) with
  | Ok (out, err, _) => out = v_utf8_0 /\ err = Some EOF
  | _ => False
  end.
Proof. vm_compute. repeat split. Qed.

(* encoding_test.go: TestUTF8ToCP949 *)
Example v_encoder_0 :
  match TWrite (enc_Transform v_grow) (list Z) v_wr (TNewWriter []) v_utf8_0 with
  | Ok (_, err, w) => err = None /\ tw_dst _ w = v_cp949_0
  | _ => False
  end.
Proof. vm_compute. repeat split. Qed.

(* encoding/cp949/cp949_test.go: tests[1] *)
Definition v_cp949_1 : list Z :=
  [140; 99; 185; 230; 176; 162; 199; 207].
Definition v_utf8_1 : list Z :=
  [235; 152; 160; 235; 176; 169; 234; 176; 129; 237; 149; 152].

(* cp949_test.go: TestFrom *)
Example v_from_1 :
  From v_grow v_cp949_1 = Ok (inl v_utf8_1).
Proof. vm_compute. repeat split. Qed.

(* cp949_test.go: TestTo *)
Example v_to_1 :
  To v_grow v_utf8_1 = Ok (inl v_cp949_1).
Proof. vm_compute. repeat split. Qed.

(* encoding_test.go: TestCP949ToUTF8 *)
Example v_decoder_1 :
  match tread_seq (dec_Transform v_grow) (list Z) v_rd 99 (TNewReader v_cp949_1) (repeat 512 9) with
  | Ok (out, err, _) => out = v_utf8_1 /\ err = Some EOF
  | _ => False
  end.
Proof. vm_compute. repeat split. Qed.

(* encoding_test.go: TestUTF8ToCP949 *)
Example v_encoder_1 :
  match TWrite (enc_Transform v_grow) (list Z) v_wr (TNewWriter []) v_utf8_1 with
  | Ok (_, err, w) => err = None /\ tw_dst _ w = v_cp949_1
  | _ => False
  end.
Proof. vm_compute. repeat split. Qed.

(* encoding/cp949/cp949_test.go: tests[2] *)
Definition v_cp949_2 : list Z :=
  [198; 233; 189; 195; 196; 221; 182; 243].
Definition v_utf8_2 : list Z :=
  [237; 142; 169; 236; 139; 156; 236; 189; 156; 235; 157; 188].

(* cp949_test.go: TestFrom *)
Example v_from_2 :
  From v_grow v_cp949_2 = Ok (inl v_utf8_2).
Proof. vm_compute. repeat split. Qed.

(* cp949_test.go: TestTo *)
Example v_to_2 :
  To v_grow v_utf8_2 = Ok (inl v_cp949_2).
Proof. vm_compute. repeat split. Qed.

(* encoding_test.go: TestCP949ToUTF8 *)
Example v_decoder_2 :
  match tread_seq (dec_Transform v_grow) (list Z) v_rd 99 (TNewReader v_cp949_2) (repeat 512 9) with
  | Ok (out, err, _) => out = v_utf8_2 /\ err = Some EOF
  | _ => False
  end.
Proof. vm_compute. repeat split. Qed.

(* encoding_test.go: TestUTF8ToCP949 *)
Example v_encoder_2 :
  match TWrite (enc_Transform v_grow) (list Z) v_wr (TNewWriter []) v_utf8_2 with
  | Ok (_, err, w) => err = None /\ tw_dst _ w = v_cp949_2
  | _ => False
  end.
Proof. vm_compute. repeat split. Qed.

(* encoding/cp949/cp949_test.go: tests[3] *)
Definition v_cp949_3 : list Z :=
  [168; 192; 168; 192; 179; 179; 33; 33; 32; 236; 215; 206; 250; 234; 197; 198; 208; 146; 230; 144; 112; 177; 197; 32;
   168; 222; 168; 211; 196; 82; 162; 175; 162; 175; 162; 175; 32; 177; 224; 138; 150; 32; 168; 209; 181; 179; 32; 168;
   192; 46; 32; 46; 10; 228; 172; 191; 181; 168; 209; 180; 201; 200; 194; 32; 46; 32; 46; 32; 46; 32; 46; 32;
   188; 173; 191; 239; 183; 239; 32; 181; 175; 199; 208; 235; 224; 32; 202; 171; 196; 82; 32; 33; 32; 33; 32; 33;
   164; 208; 46; 164; 208; 10; 200; 229; 200; 229; 200; 229; 32; 164; 161; 164; 161; 164; 161; 161; 217; 164; 208; 95;
   164; 208; 32; 190; 238; 144; 138; 32; 197; 203; 196; 226; 131; 79; 32; 181; 174; 192; 192; 32; 175; 104; 206; 250;
   181; 233; 235; 224; 32; 168; 192; 181; 229; 131; 79; 10; 188; 179; 144; 106; 32; 202; 171; 196; 82; 32; 46; 32;
   46; 32; 46; 32; 46; 32; 177; 188; 190; 214; 154; 102; 32; 168; 209; 177; 197; 32; 168; 222; 144; 116; 168; 194;
   131; 79; 32; 236; 215; 236; 210; 244; 185; 229; 252; 241; 233; 177; 238; 163; 142; 10; 191; 205; 190; 172; 196; 82;
   32; 33; 32; 33; 32; 228; 172; 191; 181; 168; 209; 32; 202; 171; 180; 201; 177; 197; 32; 161; 217; 223; 190; 176;
   252; 32; 190; 248; 180; 201; 177; 197; 180; 201; 32; 228; 172; 180; 201; 181; 216; 196; 82; 32; 177; 219; 190; 214;
   138; 219; 10; 168; 222; 183; 193; 181; 224; 206; 250; 32; 154; 195; 199; 180; 189; 164; 196; 82; 32; 190; 238; 144;
   138; 32; 236; 215; 236; 210; 244; 185; 229; 252; 241; 233; 154; 196; 168; 239; 181; 233; 157; 218; 33; 33; 32; 168;
   192; 168; 192; 179; 179; 162; 189; 32; 161; 210; 161; 210; 42].
Definition v_utf8_3 : list Z :=
  [227; 137; 175; 227; 137; 175; 235; 130; 169; 33; 33; 32; 229; 155; 160; 228; 185; 157; 230; 156; 136; 237; 140; 168;
   235; 175; 164; 235; 166; 148; 234; 182; 136; 32; 226; 147; 161; 226; 147; 150; 237; 155; 128; 194; 191; 194; 191; 194;
   191; 32; 234; 184; 141; 235; 146; 153; 32; 226; 147; 148; 235; 142; 168; 32; 227; 137; 175; 46; 32; 46; 10; 228;
   186; 158; 236; 152; 129; 226; 147; 148; 235; 138; 165; 237; 154; 185; 32; 46; 32; 46; 32; 46; 32; 46; 32; 236;
   132; 156; 236; 154; 184; 235; 164; 132; 32; 235; 142; 144; 237; 149; 153; 228; 185; 153; 32; 229; 174; 182; 237; 155;
   128; 32; 33; 32; 33; 32; 33; 227; 133; 160; 46; 227; 133; 160; 10; 237; 157; 144; 237; 157; 144; 237; 157; 144;
   32; 227; 132; 177; 227; 132; 177; 227; 132; 177; 226; 152; 134; 227; 133; 160; 95; 227; 133; 160; 32; 236; 150; 180;
   235; 166; 168; 32; 237; 131; 184; 236; 189; 176; 234; 184; 144; 32; 235; 142; 140; 236; 157; 145; 32; 236; 185; 145;
   228; 185; 157; 235; 147; 164; 228; 185; 153; 32; 227; 137; 175; 235; 147; 156; 234; 184; 144; 10; 236; 132; 164; 235;
   166; 140; 32; 229; 174; 182; 237; 155; 128; 32; 46; 32; 46; 32; 46; 32; 46; 32; 234; 181; 180; 236; 149; 160;
   236; 137; 140; 32; 226; 147; 148; 234; 182; 136; 32; 226; 147; 161; 235; 166; 152; 227; 137; 177; 234; 184; 144; 32;
   229; 155; 160; 228; 187; 129; 229; 183; 157; 239; 166; 129; 228; 184; 173; 234; 185; 140; 236; 166; 188; 10; 236; 153;
   128; 236; 146; 128; 237; 155; 128; 32; 33; 32; 33; 32; 228; 186; 158; 236; 152; 129; 226; 147; 148; 32; 229; 174;
   182; 235; 138; 165; 234; 182; 136; 32; 226; 152; 134; 228; 184; 138; 234; 180; 128; 32; 236; 151; 134; 235; 138; 165;
   234; 182; 136; 235; 138; 165; 32; 228; 186; 158; 235; 138; 165; 235; 146; 136; 237; 155; 128; 32; 234; 184; 128; 236;
   149; 160; 235; 147; 180; 10; 226; 147; 161; 235; 160; 164; 235; 147; 128; 228; 185; 157; 32; 236; 139; 128; 237; 146;
   148; 236; 136; 180; 237; 155; 128; 32; 236; 150; 180; 235; 166; 168; 32; 229; 155; 160; 228; 187; 129; 229; 183; 157;
   239; 166; 129; 228; 184; 173; 236; 139; 129; 226; 145; 168; 235; 147; 164; 236; 149; 156; 33; 33; 32; 227; 137; 175;
   227; 137; 175; 235; 130; 169; 226; 153; 161; 32; 226; 140; 146; 226; 140; 146; 42].

(* cp949_test.go: TestFrom *)
Example v_from_3 :
  From v_grow v_cp949_3 = Ok (inl v_utf8_3).
Proof. vm_compute. repeat split. Qed.

(* cp949_test.go: TestTo *)
Example v_to_3 :
  To v_grow v_utf8_3 = Ok (inl v_cp949_3).
Proof. vm_compute. repeat split. Qed.

(* encoding_test.go: TestCP949ToUTF8 *)
Example v_decoder_3 :
  match tread_seq (dec_Transform v_grow) (list Z) v_rd 99 (TNewReader v_cp949_3) (repeat 512 9) with
  | Ok (out, err, _) => out = v_utf8_3 /\ err = Some EOF
  | _ => False
  end.
Proof. vm_compute. repeat split. Qed.

(* encoding_test.go: TestUTF8ToCP949 *)
Example v_encoder_3 :
  match TWrite (enc_Transform v_grow) (list Z) v_wr (TNewWriter []) v_utf8_3 with
  | Ok (_, err, w) => err = None /\ tw_dst _ w = v_cp949_3
  | _ => False
  end.
Proof. vm_compute. repeat split. Qed.

(* cp949_test.go: TestError *)
Example v_error :
  From v_grow [168] = Ok (inr ErrCP949UnexpectedStream).
Proof. vm_compute. repeat split. Qed.

(* cp949_test.go: TestLookupTableSorted (sort.IsSorted: no element smaller than the one before) *)
Fixpoint v_sorted (l : list Z) : bool :=
  match l with
  | a :: (b :: _) as t => (a <=? b) && v_sorted t
  | _ => true
  end.
Example v_tables_sorted : v_sorted (map cp949 fromTable) = true /\ v_sorted (map ucs2 toTable) = true.
Proof. vm_compute. split; reflexivity. Qed.
