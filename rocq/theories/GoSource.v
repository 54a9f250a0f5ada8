(** GENERATED by tools/gen_ast.py from the Go sources; do not edit.
    The syntax trees of all functions of constant.go, jamo.go, hangul.go, stroke.go,
    hanja/hanja.go, encoding/cp949/err.go, cp949.go, public.go and encoding.go. *)
From Coq Require Import String ZArith List.
From Verif Require Import Base Utf8 TableHanja TableFrom TableTo Cp949Model GoLang.
Import ListNotations.
Local Open Scope Z_scope.
Local Open Scope string_scope.

Definition c_G : Z := 0x3131. (* constant.go:6 *)
Definition c_GG : Z := 0x3132. (* constant.go:7 *)
Definition c_GS : Z := 0x3133. (* constant.go:8 *)
Definition c_N : Z := 0x3134. (* constant.go:9 *)
Definition c_NJ : Z := 0x3135. (* constant.go:10 *)
Definition c_NH : Z := 0x3136. (* constant.go:11 *)
Definition c_D : Z := 0x3137. (* constant.go:12 *)
Definition c_DD : Z := 0x3138. (* constant.go:13 *)
Definition c_L : Z := 0x3139. (* constant.go:14 *)
Definition c_LG : Z := 0x313a. (* constant.go:15 *)
Definition c_LM : Z := 0x313b. (* constant.go:16 *)
Definition c_LB : Z := 0x313c. (* constant.go:17 *)
Definition c_LS : Z := 0x313d. (* constant.go:18 *)
Definition c_LT : Z := 0x313e. (* constant.go:19 *)
Definition c_LP : Z := 0x313f. (* constant.go:20 *)
Definition c_LH : Z := 0x3140. (* constant.go:21 *)
Definition c_M : Z := 0x3141. (* constant.go:22 *)
Definition c_B : Z := 0x3142. (* constant.go:23 *)
Definition c_BB : Z := 0x3143. (* constant.go:24 *)
Definition c_BS : Z := 0x3144. (* constant.go:25 *)
Definition c_S : Z := 0x3145. (* constant.go:26 *)
Definition c_SS : Z := 0x3146. (* constant.go:27 *)
Definition c_ZS : Z := 0x3147. (* constant.go:28 *)
Definition c_J : Z := 0x3148. (* constant.go:29 *)
Definition c_JJ : Z := 0x3149. (* constant.go:30 *)
Definition c_C : Z := 0x314a. (* constant.go:31 *)
Definition c_K : Z := 0x314b. (* constant.go:32 *)
Definition c_T : Z := 0x314c. (* constant.go:33 *)
Definition c_P : Z := 0x314d. (* constant.go:34 *)
Definition c_H : Z := 0x314e. (* constant.go:35 *)
Definition c_A : Z := 0x314f. (* constant.go:36 *)
Definition c_AE : Z := 0x3150. (* constant.go:37 *)
Definition c_YA : Z := 0x3151. (* constant.go:38 *)
Definition c_YAE : Z := 0x3152. (* constant.go:39 *)
Definition c_EO : Z := 0x3153. (* constant.go:40 *)
Definition c_E : Z := 0x3154. (* constant.go:41 *)
Definition c_YEO : Z := 0x3155. (* constant.go:42 *)
Definition c_YE : Z := 0x3156. (* constant.go:43 *)
Definition c_O : Z := 0x3157. (* constant.go:44 *)
Definition c_WA : Z := 0x3158. (* constant.go:45 *)
Definition c_WAE : Z := 0x3159. (* constant.go:46 *)
Definition c_OE : Z := 0x315a. (* constant.go:47 *)
Definition c_YO : Z := 0x315b. (* constant.go:48 *)
Definition c_U : Z := 0x315c. (* constant.go:49 *)
Definition c_WEO : Z := 0x315d. (* constant.go:50 *)
Definition c_WE : Z := 0x315e. (* constant.go:51 *)
Definition c_WI : Z := 0x315f. (* constant.go:52 *)
Definition c_YU : Z := 0x3160. (* constant.go:53 *)
Definition c_EU : Z := 0x3161. (* constant.go:54 *)
Definition c_YI : Z := 0x3162. (* constant.go:55 *)
Definition c_I : Z := 0x3163. (* constant.go:56 *)
Definition c_NG : Z := 0x3147. (* constant.go:57 *)
Definition c_leadBase : Z := 0x1100. (* constant.go:62 *)
Definition c_medialBase : Z := 0x1161. (* constant.go:63 *)
Definition c_tailBase : Z := 0x11a8. (* constant.go:64 *)
Definition c_LeadG : Z := 0x1100. (* constant.go:70 *)
Definition c_LeadGG : Z := 0x1101. (* constant.go:71 *)
Definition c_LeadN : Z := 0x1102. (* constant.go:72 *)
Definition c_LeadD : Z := 0x1103. (* constant.go:73 *)
Definition c_LeadDD : Z := 0x1104. (* constant.go:74 *)
Definition c_LeadR : Z := 0x1105. (* constant.go:75 *)
Definition c_LeadM : Z := 0x1106. (* constant.go:76 *)
Definition c_LeadB : Z := 0x1107. (* constant.go:77 *)
Definition c_LeadBB : Z := 0x1108. (* constant.go:78 *)
Definition c_LeadS : Z := 0x1109. (* constant.go:79 *)
Definition c_LeadSS : Z := 0x110a. (* constant.go:80 *)
Definition c_LeadZS : Z := 0x110b. (* constant.go:81 *)
Definition c_LeadJ : Z := 0x110c. (* constant.go:82 *)
Definition c_LeadJJ : Z := 0x110d. (* constant.go:83 *)
Definition c_LeadC : Z := 0x110e. (* constant.go:84 *)
Definition c_LeadK : Z := 0x110f. (* constant.go:85 *)
Definition c_LeadT : Z := 0x1110. (* constant.go:86 *)
Definition c_LeadP : Z := 0x1111. (* constant.go:87 *)
Definition c_LeadH : Z := 0x1112. (* constant.go:88 *)
Definition c_maxLeadIdx : Z := 0x12. (* constant.go:90 *)
Definition c_MedialA : Z := 0x1161. (* constant.go:95 *)
Definition c_MedialAE : Z := 0x1162. (* constant.go:96 *)
Definition c_MedialYA : Z := 0x1163. (* constant.go:97 *)
Definition c_MedialYAE : Z := 0x1164. (* constant.go:98 *)
Definition c_MedialEO : Z := 0x1165. (* constant.go:99 *)
Definition c_MedialE : Z := 0x1166. (* constant.go:100 *)
Definition c_MedialYEO : Z := 0x1167. (* constant.go:101 *)
Definition c_MedialYE : Z := 0x1168. (* constant.go:102 *)
Definition c_MedialO : Z := 0x1169. (* constant.go:103 *)
Definition c_MedialWA : Z := 0x116a. (* constant.go:104 *)
Definition c_MedialWAE : Z := 0x116b. (* constant.go:105 *)
Definition c_MedialOE : Z := 0x116c. (* constant.go:106 *)
Definition c_MedialYO : Z := 0x116d. (* constant.go:107 *)
Definition c_MedialU : Z := 0x116e. (* constant.go:108 *)
Definition c_MedialWEO : Z := 0x116f. (* constant.go:109 *)
Definition c_MedialWE : Z := 0x1170. (* constant.go:110 *)
Definition c_MedialWI : Z := 0x1171. (* constant.go:111 *)
Definition c_MedialYU : Z := 0x1172. (* constant.go:112 *)
Definition c_MedialEU : Z := 0x1173. (* constant.go:113 *)
Definition c_MedialYI : Z := 0x1174. (* constant.go:114 *)
Definition c_MedialI : Z := 0x1175. (* constant.go:115 *)
Definition c_maxMedialIdx : Z := 0x14. (* constant.go:117 *)
Definition c_TailG : Z := 0x11a8. (* constant.go:122 *)
Definition c_TailGG : Z := 0x11a9. (* constant.go:123 *)
Definition c_TailGS : Z := 0x11aa. (* constant.go:124 *)
Definition c_TailN : Z := 0x11ab. (* constant.go:125 *)
Definition c_TailNJ : Z := 0x11ac. (* constant.go:126 *)
Definition c_TailNH : Z := 0x11ad. (* constant.go:127 *)
Definition c_TailD : Z := 0x11ae. (* constant.go:128 *)
Definition c_TailL : Z := 0x11af. (* constant.go:129 *)
Definition c_TailLG : Z := 0x11b0. (* constant.go:130 *)
Definition c_TailLM : Z := 0x11b1. (* constant.go:131 *)
Definition c_TailLB : Z := 0x11b2. (* constant.go:132 *)
Definition c_TailLS : Z := 0x11b3. (* constant.go:133 *)
Definition c_TailLT : Z := 0x11b4. (* constant.go:134 *)
Definition c_TailLP : Z := 0x11b5. (* constant.go:135 *)
Definition c_TailLH : Z := 0x11b6. (* constant.go:136 *)
Definition c_TailM : Z := 0x11b7. (* constant.go:137 *)
Definition c_TailB : Z := 0x11b8. (* constant.go:138 *)
Definition c_TailBS : Z := 0x11b9. (* constant.go:139 *)
Definition c_TailS : Z := 0x11ba. (* constant.go:140 *)
Definition c_TailSS : Z := 0x11bb. (* constant.go:141 *)
Definition c_TailNG : Z := 0x11bc. (* constant.go:142 *)
Definition c_TailJ : Z := 0x11bd. (* constant.go:143 *)
Definition c_TailC : Z := 0x11be. (* constant.go:144 *)
Definition c_TailK : Z := 0x11bf. (* constant.go:145 *)
Definition c_TailT : Z := 0x11c0. (* constant.go:146 *)
Definition c_TailP : Z := 0x11c1. (* constant.go:147 *)
Definition c_TailH : Z := 0x11c2. (* constant.go:148 *)
Definition c_maxTailIdx : Z := 0x1a. (* constant.go:150 *)

(* jamo.go:55-83 *)
Definition m_multiElements : list (Z * list Z) := [
  (c_GG, [c_G; c_G]);
  (c_GS, [c_G; c_S]);
  (c_NJ, [c_N; c_J]);
  (c_NH, [c_N; c_H]);
  (c_DD, [c_D; c_D]);
  (c_LG, [c_L; c_G]);
  (c_LM, [c_L; c_M]);
  (c_LB, [c_L; c_B]);
  (c_LS, [c_L; c_S]);
  (c_LT, [c_L; c_T]);
  (c_LP, [c_L; c_P]);
  (c_LH, [c_L; c_H]);
  (c_BB, [c_B; c_B]);
  (c_BS, [c_B; c_S]);
  (c_SS, [c_S; c_S]);
  (c_JJ, [c_J; c_J]);
  (c_AE, [c_A; c_I]);
  (c_E, [c_EO; c_I]);
  (c_YAE, [c_YA; c_I]);
  (c_YE, [c_YEO; c_I]);
  (c_WA, [c_O; c_A]);
  (c_WAE, [c_O; c_A; c_I]);
  (c_OE, [c_O; c_I]);
  (c_WEO, [c_U; c_EO]);
  (c_WE, [c_U; c_E]);
  (c_WI, [c_U; c_I]);
  (c_YI, [c_EU; c_I])].

(* jamo.go:92-139 *)
Definition m_toCompatJamo : list (Z * Z) := [
  (c_LeadG, c_G);
  (c_TailG, c_G);
  (c_LeadGG, c_GG);
  (c_TailGG, c_GG);
  (c_TailGS, c_GS);
  (c_LeadN, c_N);
  (c_TailN, c_N);
  (c_TailNJ, c_NJ);
  (c_TailNH, c_NH);
  (c_LeadD, c_D);
  (c_TailD, c_D);
  (c_LeadDD, c_DD);
  (c_LeadR, c_L);
  (c_TailL, c_L);
  (c_TailLG, c_LG);
  (c_TailLM, c_LM);
  (c_TailLB, c_LB);
  (c_TailLS, c_LS);
  (c_TailLT, c_LT);
  (c_TailLP, c_LP);
  (c_TailLH, c_LH);
  (c_LeadM, c_M);
  (c_TailM, c_M);
  (c_LeadB, c_B);
  (c_TailB, c_B);
  (c_LeadBB, c_BB);
  (c_TailBS, c_BS);
  (c_LeadS, c_S);
  (c_TailS, c_S);
  (c_LeadSS, c_SS);
  (c_TailSS, c_SS);
  (c_LeadZS, c_ZS);
  (c_TailNG, c_ZS);
  (c_LeadJ, c_J);
  (c_TailJ, c_J);
  (c_LeadJJ, c_JJ);
  (c_LeadC, c_C);
  (c_TailC, c_C);
  (c_LeadK, c_K);
  (c_TailK, c_K);
  (c_LeadT, c_T);
  (c_TailT, c_T);
  (c_LeadP, c_P);
  (c_TailP, c_P);
  (c_LeadH, c_H);
  (c_TailH, c_H)].

(* jamo.go:158-178 *)
Definition m_toLead : list (Z * Z) := [
  (c_G, c_LeadG);
  (c_GG, c_LeadGG);
  (c_N, c_LeadN);
  (c_D, c_LeadD);
  (c_DD, c_LeadDD);
  (c_L, c_LeadR);
  (c_M, c_LeadM);
  (c_B, c_LeadB);
  (c_BB, c_LeadBB);
  (c_S, c_LeadS);
  (c_SS, c_LeadSS);
  (c_ZS, c_LeadZS);
  (c_J, c_LeadJ);
  (c_JJ, c_LeadJJ);
  (c_C, c_LeadC);
  (c_K, c_LeadK);
  (c_T, c_LeadT);
  (c_P, c_LeadP);
  (c_H, c_LeadH)].

(* jamo.go:204-232 *)
Definition m_toTail : list (Z * Z) := [
  (c_G, c_TailG);
  (c_GG, c_TailGG);
  (c_GS, c_TailGS);
  (c_N, c_TailN);
  (c_NJ, c_TailNJ);
  (c_NH, c_TailNH);
  (c_D, c_TailD);
  (c_L, c_TailL);
  (c_LG, c_TailLG);
  (c_LM, c_TailLM);
  (c_LB, c_TailLB);
  (c_LS, c_TailLS);
  (c_LT, c_TailLT);
  (c_LP, c_TailLP);
  (c_LH, c_TailLH);
  (c_M, c_TailM);
  (c_B, c_TailB);
  (c_BS, c_TailBS);
  (c_S, c_TailS);
  (c_SS, c_TailSS);
  (c_ZS, c_TailNG);
  (c_J, c_TailJ);
  (c_C, c_TailC);
  (c_K, c_TailK);
  (c_T, c_TailT);
  (c_P, c_TailP);
  (c_H, c_TailH)].

(* stroke.go:7-32 *)
Definition m_strokes : list (Z * Z) := [
  (c_G, 1);
  (c_N, 1);
  (c_D, 2);
  (c_L, 3);
  (c_M, 3);
  (c_B, 4);
  (c_S, 2);
  (c_ZS, 1);
  (c_J, 3);
  (c_C, 4);
  (c_K, 2);
  (c_T, 3);
  (c_P, 4);
  (c_H, 3);
  (c_A, 2);
  (c_YA, 3);
  (c_EO, 2);
  (c_YEO, 3);
  (c_O, 2);
  (c_YO, 3);
  (c_U, 2);
  (c_YU, 3);
  (c_EU, 1);
  (c_I, 1)].

(* jamo.go:8-13 *)
Definition f_IsLead : func := mkFunc ["r"] []
  (Block [If (And (Cmp Le (Lit c_LeadG) (Var "r")) (Cmp Le (Var "r") (Lit c_LeadH)))
  (Block [Return [(LitB true)]])
  (Block []);
  Return [(LitB false)]]).

(* jamo.go:16-21 *)
Definition f_IsMedial : func := mkFunc ["r"] []
  (Block [If (And (Cmp Le (Lit c_MedialA) (Var "r")) (Cmp Le (Var "r") (Lit c_MedialI)))
  (Block [Return [(LitB true)]])
  (Block []);
  Return [(LitB false)]]).

(* jamo.go:24-29 *)
Definition f_IsTail : func := mkFunc ["r"] []
  (Block [If (And (Cmp Le (Lit c_TailG) (Var "r")) (Cmp Le (Var "r") (Lit c_TailH)))
  (Block [Return [(LitB true)]])
  (Block []);
  Return [(LitB false)]]).

(* jamo.go:32-42 *)
Definition f_IsJaeum : func := mkFunc ["r"] []
  (Block [If (And (Cmp Le (Lit c_G) (Var "r")) (Cmp Le (Var "r") (Lit c_H)))
  (Block [Return [(LitB true)]])
  (If (Call "IsLead" [(Var "r")])
  (Block [Return [(LitB true)]])
  (If (Call "IsTail" [(Var "r")])
  (Block [Return [(LitB true)]])
  (Block [])));
  Return [(LitB false)]]).

(* jamo.go:45-53 *)
Definition f_IsMoeum : func := mkFunc ["r"] []
  (Block [If (And (Cmp Le (Lit c_A) (Var "r")) (Cmp Le (Var "r") (Lit c_I)))
  (Block [Return [(LitB true)]])
  (If (Call "IsMedial" [(Var "r")])
  (Block [Return [(LitB true)]])
  (Block []));
  Return [(LitB false)]]).

(* jamo.go:86-90 *)
Definition f_SplitMultiElement : func := mkFunc ["r"] []
  (Block [Assign [LVar "r"] (Call "CompatJamo" [(Var "r")]);
  Define ["es"; "ok"] (MapSlice2 m_multiElements (Var "r"));
  Return [(Var "es"); (Var "ok")]]).

(* jamo.go:142-156 *)
Definition f_CompatJamo : func := mkFunc ["r"] []
  (Block [If (And (Cmp Le (Lit c_G) (Var "r")) (Cmp Le (Var "r") (Lit c_H)))
  (Block [Return [(Var "r")]])
  (If (And (Cmp Le (Lit c_A) (Var "r")) (Cmp Le (Var "r") (Lit c_I)))
  (Block [Return [(Var "r")]])
  (If (And (Cmp Le (Lit c_MedialA) (Var "r")) (Cmp Le (Var "r") (Lit c_MedialI)))
  (Block [Return [(Arith Add Int32 (Arith Sub Int32 (Var "r") (Lit c_medialBase)) (Lit c_A))]])
  (Block [])));
  (Block [Define ["c"; "ok"] (MapGet2 m_toCompatJamo (Var "r"));
  If (Var "ok")
  (Block [Return [(Var "c")]])
  (Block [])]);
  Return [(Lit 0)]]).

(* jamo.go:181-190 *)
Definition f_Lead : func := mkFunc ["c"] []
  (Block [If (And (Cmp Le (Lit c_LeadG) (Var "c")) (Cmp Le (Var "c") (Lit c_LeadH)))
  (Block [Return [(Var "c")]])
  (Block []);
  (Block [Define ["l"; "ok"] (MapGet2 m_toLead (Var "c"));
  If (Var "ok")
  (Block [Return [(Var "l")]])
  (Block [])]);
  Return [(Lit 0)]]).

(* jamo.go:193-202 *)
Definition f_Medial : func := mkFunc ["c"] []
  (Block [If (And (Cmp Le (Lit c_MedialA) (Var "c")) (Cmp Le (Var "c") (Lit c_MedialI)))
  (Block [Return [(Var "c")]])
  (If (And (Cmp Le (Lit c_A) (Var "c")) (Cmp Le (Var "c") (Lit c_I)))
  (Block [Return [(Arith Add Int32 (Arith Sub Int32 (Var "c") (Lit c_A)) (Lit c_medialBase))]])
  (Block []));
  Return [(Lit 0)]]).

(* jamo.go:235-244 *)
Definition f_Tail : func := mkFunc ["c"] []
  (Block [If (And (Cmp Le (Lit c_TailG) (Var "c")) (Cmp Le (Var "c") (Lit c_TailH)))
  (Block [Return [(Var "c")]])
  (Block []);
  (Block [Define ["t"; "ok"] (MapGet2 m_toTail (Var "c"));
  If (Var "ok")
  (Block [Return [(Var "t")]])
  (Block [])]);
  Return [(Lit 0)]]).

(* jamo.go:246-252 *)
Definition f_leadIdx : func := mkFunc ["l"] []
  (Block [Define ["i"] (Arith Sub Int (Conv Int (Var "l")) (Lit c_leadBase));
  If (Or (Cmp Gt (Lit 0) (Var "i")) (Cmp Gt (Var "i") (Lit c_maxLeadIdx)))
  (Block [Return [(Lit 0); (LitB false)]])
  (Block []);
  Return [(Var "i"); (LitB true)]]).

(* jamo.go:254-260 *)
Definition f_medialIdx : func := mkFunc ["v"] []
  (Block [Define ["i"] (Arith Sub Int (Conv Int (Var "v")) (Lit c_medialBase));
  If (Or (Cmp Gt (Lit 0) (Var "i")) (Cmp Gt (Var "i") (Lit c_maxMedialIdx)))
  (Block [Return [(Lit 0); (LitB false)]])
  (Block []);
  Return [(Var "i"); (LitB true)]]).

(* jamo.go:262-272 *)
Definition f_tailIdx : func := mkFunc ["t"] []
  (Block [If (Cmp Eq (Var "t") (Lit 0))
  (Block [Return [(Lit 0); (LitB true)]])
  (Block []);
  Define ["i"] (Arith Sub Int (Conv Int (Var "t")) (Lit c_tailBase));
  If (Or (Cmp Gt (Lit 0) (Var "i")) (Cmp Gt (Var "i") (Lit c_maxTailIdx)))
  (Block [Return [(Lit 0); (LitB false)]])
  (Block []);
  Return [(Arith Add Int (Var "i") (Lit 1)); (LitB true)]]).

(* hangul.go:14-25 *)
Definition f_IsHangul : func := mkFunc ["r"] []
  (Block [If (And (Cmp Le (Lit 0xac00) (Var "r")) (Cmp Le (Var "r") (Lit 0xd7a3)))
  (Block [Return [(LitB true)]])
  (If (Call "IsJaeum" [(Var "r")])
  (Block [Return [(LitB true)]])
  (If (Call "IsMoeum" [(Var "r")])
  (Block [Return [(LitB true)]])
  (Block [])));
  Return [(LitB false)]]).

(* hangul.go:28-46 *)
Definition f_Join : func := mkFunc ["l"; "m"; "t"] []
  (Block [Define ["li"; "ok"] (Call "leadIdx" [(Call "Lead" [(Var "l")])]);
  If (Not (Var "ok"))
  (Block [Return [(Conv Int32 (Lit 0xfffd))]])
  (Block []);
  Define ["mi"; "ok"] (Call "medialIdx" [(Call "Medial" [(Var "m")])]);
  If (Not (Var "ok"))
  (Block [Return [(Conv Int32 (Lit 0xfffd))]])
  (Block []);
  Define ["ti"; "ok"] (Call "tailIdx" [(Call "Tail" [(Var "t")])]);
  If (Not (Var "ok"))
  (Block [Return [(Conv Int32 (Lit 0xfffd))]])
  (Block []);
  Return [(Conv Int32 (Arith Add Int (Arith Add Int (Lit 0xac00) (Arith Mul Int (Arith Add Int (Arith Mul Int (Var "li") (Lit 0x15)) (Var "mi")) (Lit 0x1c))) (Var "ti")))]]).

(* hangul.go:49-61 *)
Definition f_Split : func := mkFunc ["c"] [("l", (Lit 0)); ("m", (Lit 0)); ("t", (Lit 0))]
  (Block [Assign [LVar "t"] (Arith Mod Int32 (Arith Sub Int32 (Var "c") (Lit 0xac00)) (Lit 0x1c));
  Assign [LVar "m"] (Arith Div Int32 (Arith Mod Int32 (Arith Sub Int32 (Arith Sub Int32 (Var "c") (Lit 0xac00)) (Var "t")) (Lit 0x24c)) (Lit 0x1c));
  Assign [LVar "l"] (Arith Div Int32 (Arith Sub Int32 (Var "c") (Lit 0xac00)) (Lit 0x24c));
  Assign [LVar "l"] (Arith Add Int32 (Var "l") (Lit c_leadBase));
  Assign [LVar "m"] (Arith Add Int32 (Var "m") (Lit c_medialBase));
  If (Cmp Ne (Var "t") (Lit 0))
  (Block [Assign [LVar "t"] (Arith Add Int32 (Var "t") (Arith Sub Int (Lit c_tailBase) (Lit 1)))])
  (Block []);
  Return [(Var "l"); (Var "m"); (Var "t")]]).

(* hangul.go:64-70 *)
Definition f_SplitCompat : func := mkFunc ["c"] [("l", (Lit 0)); ("m", (Lit 0)); ("t", (Lit 0))]
  (Block [Assign [LVar "l"; LVar "m"; LVar "t"] (Call "Split" [(Var "c")]);
  Assign [LVar "l"] (Call "CompatJamo" [(Var "l")]);
  Assign [LVar "m"] (Call "CompatJamo" [(Var "m")]);
  Assign [LVar "t"] (Call "CompatJamo" [(Var "t")]);
  Return [(Var "l"); (Var "m"); (Var "t")]]).

(* hangul.go:74-80 *)
Definition f_EndsWithConsonant : func := mkFunc ["word"] []
  (Block [If (Cmp Eq (Call "LastConsonant" [(Var "word")]) (Lit 0))
  (Block [Return [(LitB false)]])
  (Block []);
  Return [(LitB true)]]).

(* hangul.go:84-91 *)
Definition f_LastConsonant : func := mkFunc ["word"] []
  (Block [If (Cmp Eq (Var "word") (LitS []))
  (Block [Return [(Lit 0)]])
  (Block []);
  Define ["runes"] (Runes (Var "word"));
  Define ["_"; "_"; "t"] (Call "Split" [(Index (Var "runes") (Arith Sub Int (Len (Var "runes")) (Lit 1)))]);
  Return [(Var "t")]]).

(* hangul.go:97-106 *)
Definition f_AppendPostposition : func := mkFunc ["word"; "with"; "without"] []
  (Block [Define ["lastTail"] (Call "LastConsonant" [(Var "word")]);
  If (And (Cmp Eq (Var "with") (LitS [0xEC; 0x9C; 0xBC; 0xEB; 0xA1; 0x9C])) (Cmp Eq (Var "lastTail") (Lit c_TailL)))
  (Block [Return [(Concat (Var "word") (Var "without"))]])
  (Block []);
  If (Cmp Ne (Var "lastTail") (Lit 0))
  (Block [Return [(Concat (Var "word") (Var "with"))]])
  (Block []);
  Return [(Concat (Var "word") (Var "without"))]]).

(* stroke.go:35-53 *)
Definition f_Stroke : func := mkFunc ["r"] [("c", (Lit 0))]
  (Block [If (And (Cmp Le (Lit 0xac00) (Var "r")) (Cmp Le (Var "r") (Lit 0xd7a3)))
  (Block [Define ["i"; "m"; "f"] (Call "Split" [(Var "r")]);
  Assign [LVar "c"] (Arith Add Int (Var "c") (Call "Stroke" [(Var "i")]));
  Assign [LVar "c"] (Arith Add Int (Var "c") (Call "Stroke" [(Var "m")]));
  Assign [LVar "c"] (Arith Add Int (Var "c") (Call "Stroke" [(Var "f")]));
  Return [(Var "c")]])
  (Block []);
  Define ["jm"] (Call "CompatJamo" [(Var "r")]);
  (Block [Define ["es"; "ok"] (Call "SplitMultiElement" [(Var "jm")]);
  If (Var "ok")
  (Block [Range "_" "e" (Var "es")
  (Block [Assign [LVar "c"] (Arith Add Int (Var "c") (MapGet m_strokes (Var "e")))])])
  (Block [Assign [LVar "c"] (MapGet m_strokes (Var "jm"))])]);
  Return [(Var "c")]]).

(* hanja/hanja.go:8-19 *)
Definition f_Convert : func := mkFunc ["h"] []
  (Block [Define ["rh"] (Runes (Var "h"));
  Range "i" "c" (Var "rh")
  (Block [Define ["h"; "ok"] (MapGet2 table (Var "c"));
  If (Var "ok")
  (Block [Assign [LIndex (Var "rh") (Var "i")] (Var "h")])
  (Block [])]);
  Return [(Str (Var "rh"))]]).

(* hanja/hanja.go:22-25 *)
Definition f_IsHanja : func := mkFunc ["c"] []
  (Block [Define ["_"; "ok"] (MapGet2 table (Var "c"));
  Return [(Var "ok")]]).

(* encoding/cp949/cp949.go:34-67 *)
Definition f_translateFromCp949_Translate : func := mkFunc ["p"; "data"] []
  (Block [Assign [LField (Var "p") "scratch"] (Slice (Field (Var "p") "scratch") (Lit 0) (Lit 0));
  Define ["c"] (Lit 0);
  While (Cmp Gt (Len (Var "data")) (Lit 0))
  (Block [If (Cmp Eq (Arith BAnd Uint8 (Index (Var "data") (Lit 0)) (Lit 0x80)) (Lit 0))
  (Block [Assign [LField (Var "p") "scratch"] (Append (Field (Var "p") "scratch") [(Index (Var "data") (Lit 0))]);
  Assign [LVar "data"] (SliceFrom (Var "data") (Lit 1));
  Assign [LVar "c"] (Arith Add Int (Var "c") (Lit 1));
  Continue])
  (Block []);
  If (Cmp Lt (Len (Var "data")) (Lit 2))
  (Block [Return [(Lit 0); NilSlice; (ErrLit ErrCP949UnexpectedStream)]])
  (Block []);
  Define ["n"] (Arith BOr Uint16 (Arith Shl Uint16 (Conv Uint16 (Index (Var "data") (Lit 0))) (Lit 8)) (Conv Uint16 (Index (Var "data") (Lit 1))));
  Define ["fi"] (SearchE (Len (Field (Var "p") "table")) "i"
  (Block [If (Cmp Le (Var "n") (Field (Index (Field (Var "p") "table") (Var "i")) "cp949"))
  (Block [Return [(LitB true)]])
  (Block []);
  Return [(LitB false)]]));
  If (And (Cmp Lt (Var "fi") (Len (Field (Var "p") "table"))) (Cmp Eq (Var "n") (Field (Index (Field (Var "p") "table") (Var "fi")) "cp949")))
  (Block [Define ["f"] (Index (Field (Var "p") "table") (Var "fi"));
  Assign [LField (Var "p") "scratch"] (Call "appendRune" [(Field (Var "p") "scratch"); (Conv Int32 (Field (Var "f") "ucs2"))])])
  (Block [Assign [LField (Var "p") "scratch"] (Call "appendRune" [(Field (Var "p") "scratch"); (Lit RuneError)])]);
  Assign [LVar "data"] (SliceFrom (Var "data") (Lit 2));
  Assign [LVar "c"] (Arith Add Int (Var "c") (Lit 2))]);
  Return [(Var "c"); (Field (Var "p") "scratch"); NilErr]]).

(* encoding/cp949/cp949.go:72-108 *)
Definition f_translateToCp949_Translate : func := mkFunc ["p"; "data"] []
  (Block [Assign [LField (Var "p") "scratch"] (Slice (Field (Var "p") "scratch") (Lit 0) (Lit 0));
  Define ["c"] (Lit 0);
  While (Cmp Gt (Len (Var "data")) (Lit 0))
  (Block [If (Cmp Eq (Arith BAnd Uint8 (Index (Var "data") (Lit 0)) (Lit 0x80)) (Lit 0))
  (Block [Assign [LField (Var "p") "scratch"] (Append (Field (Var "p") "scratch") [(Index (Var "data") (Lit 0))]);
  Assign [LVar "data"] (SliceFrom (Var "data") (Lit 1));
  Assign [LVar "c"] (Arith Add Int (Var "c") (Lit 1));
  Continue])
  (Block []);
  Define ["r"; "s"] (DecodeRuneE (Var "data"));
  Define ["rUcs2"] (Conv Uint16 (Var "r"));
  Define ["fi"] (SearchE (Len (Field (Var "p") "table")) "i"
  (Block [If (Cmp Le (Var "rUcs2") (Field (Index (Field (Var "p") "table") (Var "i")) "ucs2"))
  (Block [Return [(LitB true)]])
  (Block []);
  Return [(LitB false)]]));
  If (Cmp Ge (Var "fi") (Len (Field (Var "p") "table")))
  (Block [Assign [LField (Var "p") "scratch"] (Append (Field (Var "p") "scratch") [(Lit 0x3f)])])
  (Block []);
  If (And (Cmp Lt (Var "fi") (Len (Field (Var "p") "table"))) (Cmp Eq (Var "rUcs2") (Field (Index (Field (Var "p") "table") (Var "fi")) "ucs2")))
  (Block [Define ["f"] (Index (Field (Var "p") "table") (Var "fi"));
  Assign [LField (Var "p") "scratch"] (Append (Field (Var "p") "scratch") [(Conv Uint8 (Arith Shr Uint16 (Field (Var "f") "cp949") (Lit 8))); (Conv Uint8 (Arith BAnd Uint16 (Field (Var "f") "cp949") (Lit 0xff)))])])
  (Block [Assign [LField (Var "p") "scratch"] (Append (Field (Var "p") "scratch") [(Lit 0x3f)])]);
  Assign [LVar "data"] (SliceFrom (Var "data") (Var "s"));
  Assign [LVar "c"] (Arith Add Int (Var "c") (Var "s"))]);
  Return [(Var "c"); (Field (Var "p") "scratch"); NilErr]]).

(* encoding/cp949/cp949.go:110-112 *)
Definition f_fromCp949 : func := mkFunc [] []
  (Block [Return [(New "translateFromCp949" [("table", (TableLit fromTable)); ("scratch", NilSlice)]); NilErr]]).

(* encoding/cp949/cp949.go:114-116 *)
Definition f_toCp949 : func := mkFunc [] []
  (Block [Return [(New "translateToCp949" [("table", (TableLit toTable)); ("scratch", NilSlice)]); NilErr]]).

(* encoding/cp949/cp949.go:121-144 *)
Definition f_ensureCap : func := mkFunc ["s"; "n"] []
  (Block [If (Cmp Le (Var "n") (Cap (Var "s")))
  (Block [Return [(Var "s")]])
  (Block []);
  Define ["m"] (Cap (Var "s"));
  If (Cmp Eq (Var "m") (Lit 0))
  (Block [Assign [LVar "m"] (Var "n")])
  (Block [While (LitB true)
  (Block [If (Cmp Lt (Var "m") (Lit 0x400))
  (Block [Assign [LVar "m"] (Arith Add Int (Var "m") (Var "m"))])
  (Block [Assign [LVar "m"] (Arith Add Int (Var "m") (Arith Div Int (Var "m") (Lit 4)))]);
  If (Cmp Ge (Var "m") (Var "n"))
  (Block [Break])
  (Block [])])]);
  Define ["t"] (Make (Len (Var "s")) (Var "m"));
  ExprS (CopyE (Var "t") (Var "s"));
  Return [(Var "t")]]).

(* encoding/cp949/cp949.go:147-152 *)
Definition f_appendRune : func := mkFunc ["buf"; "r"] []
  (Block [Define ["n"] (Len (Var "buf"));
  Assign [LVar "buf"] (Call "ensureCap" [(Var "buf"); (Arith Add Int (Var "n") (Lit UTFMax))]);
  Define ["nu"] (EncodeRuneE (Slice (Var "buf") (Var "n") (Arith Add Int (Var "n") (Lit UTFMax))) (Var "r"));
  Return [(Slice (Var "buf") (Lit 0) (Arith Add Int (Var "n") (Var "nu")))]]).

(* encoding/cp949/public.go:12-24 *)
Definition f_From : func := mkFunc ["in"] []
  (Block [Define ["tr"; "err"] (Call "fromCp949" []);
  If (Cmp Ne (Var "err") NilErr)
  (Block [Return [NilSlice; (Var "err")]])
  (Block []);
  Define ["_"; "out"; "err"] (Method (Var "tr") "Translate" [(Var "in")]);
  If (Cmp Ne (Var "err") NilErr)
  (Block [Return [NilSlice; (Var "err")]])
  (Block []);
  Return [(Var "out"); NilErr]]).

(* encoding/cp949/public.go:27-39 *)
Definition f_To : func := mkFunc ["in"] []
  (Block [Define ["tr"; "err"] (Call "toCp949" []);
  If (Cmp Ne (Var "err") NilErr)
  (Block [Return [NilSlice; (Var "err")]])
  (Block []);
  Define ["_"; "out"; "err"] (Method (Var "tr") "Translate" [(Var "in")]);
  If (Cmp Ne (Var "err") NilErr)
  (Block [Return [NilSlice; (Var "err")]])
  (Block []);
  Return [(Var "out"); NilErr]]).

(* encoding/cp949/public.go:50-57 *)
Definition f_NewReader : func := mkFunc ["r"] []
  (Block [Define ["tr"; "err"] (Call "fromCp949" []);
  If (Cmp Ne (Var "err") NilErr)
  (Block [Return [NilPtr; (Var "err")]])
  (Block []);
  Return [(New "cp949Reader" [("r", (Var "r")); ("tr", (Var "tr")); ("cdata", NilSlice); ("rdata", NilSlice); ("err", NilErr)]); NilErr]]).

(* encoding/cp949/public.go:59-94 *)
Definition f_cp949Reader_Read : func := mkFunc ["r"; "buf"] []
  (Block [While (LitB true)
  (Block [If (Cmp Gt (Len (Field (Var "r") "cdata")) (Lit 0))
  (Block [Define ["n"] (CopyE (Var "buf") (Field (Var "r") "cdata"));
  Assign [LField (Var "r") "cdata"] (SliceFrom (Field (Var "r") "cdata") (Var "n"));
  Return [(Var "n"); NilErr]])
  (Block []);
  If (Cmp Eq (Field (Var "r") "err") NilErr)
  (Block [Assign [LField (Var "r") "rdata"] (Call "ensureCap" [(Field (Var "r") "rdata"); (Arith Add Int (Len (Field (Var "r") "rdata")) (Len (Var "buf")))]);
  Define ["n"; "err"] (Method (Field (Var "r") "r") "Read" [(Slice (Field (Var "r") "rdata") (Len (Field (Var "r") "rdata")) (Cap (Field (Var "r") "rdata")))]);
  If (And (Cmp Eq (Var "n") (Lit 0)) (Cmp Eq (Var "err") NilErr))
  (Block [Assign [LVar "err"] (ErrLit EOF)])
  (Block []);
  Assign [LField (Var "r") "rdata"] (Slice (Field (Var "r") "rdata") (Lit 0) (Arith Add Int (Len (Field (Var "r") "rdata")) (Var "n")));
  Assign [LField (Var "r") "err"] (Var "err")])
  (Block [If (Cmp Eq (Len (Field (Var "r") "rdata")) (Lit 0))
  (Block [Break])
  (Block [])]);
  Define ["nc"; "cdata"; "cvterr"] (Method (Field (Var "r") "tr") "Translate" [(Field (Var "r") "rdata")]);
  If (Cmp Ne (Var "cvterr") NilErr)
  (Block [])
  (Block []);
  Assign [LField (Var "r") "cdata"] (Var "cdata");
  If (And (Cmp Eq (Var "nc") (Lit 0)) (Cmp Ne (Field (Var "r") "err") NilErr))
  (Block [Assign [LVar "nc"] (Len (Field (Var "r") "rdata"))])
  (Block []);
  Assign [LField (Var "r") "rdata"] (Slice (Field (Var "r") "rdata") (Lit 0) (CopyE (Field (Var "r") "rdata") (SliceFrom (Field (Var "r") "rdata") (Var "nc"))))]);
  Return [(Lit 0); (Field (Var "r") "err")]]).

(* encoding/cp949/public.go:103-110 *)
Definition f_NewWriter : func := mkFunc ["w"] []
  (Block [Define ["tr"; "err"] (Call "toCp949" []);
  If (Cmp Ne (Var "err") NilErr)
  (Block [Return [NilPtr; (Var "err")]])
  (Block []);
  Return [(New "cp949Writer" [("w", (Var "w")); ("tr", (Var "tr")); ("buf", NilSlice)]); NilErr]]).

(* encoding/cp949/public.go:112-133 *)
Definition f_cp949Writer_Write : func := mkFunc ["w"; "data"] []
  (Block [Define ["wdata"] (Var "data");
  If (Cmp Gt (Len (Field (Var "w") "buf")) (Lit 0))
  (Block [Assign [LField (Var "w") "buf"] (AppendS (Field (Var "w") "buf") (Var "data"));
  Assign [LVar "wdata"] (Field (Var "w") "buf")])
  (Block []);
  Define ["n"; "cdata"; "err"] (Method (Field (Var "w") "tr") "Translate" [(Var "wdata")]);
  If (Cmp Ne (Var "err") NilErr)
  (Block [])
  (Block []);
  If (Cmp Gt (Var "n") (Lit 0))
  (Block [Assign [LBlank; LVar "err"] (Method (Field (Var "w") "w") "Write" [(Var "cdata")]);
  If (Cmp Ne (Var "err") NilErr)
  (Block [Return [(Lit 0); (Var "err")]])
  (Block [])])
  (Block []);
  Assign [LField (Var "w") "buf"] (Slice (Field (Var "w") "buf") (Lit 0) (Lit 0));
  If (Cmp Lt (Var "n") (Len (Var "wdata")))
  (Block [Assign [LField (Var "w") "buf"] (AppendS (Field (Var "w") "buf") (SliceFrom (Var "wdata") (Var "n")))])
  (Block []);
  Return [(Len (Var "data")); NilErr]]).

(* encoding/cp949/encoding.go:11-13 *)
Definition f_NewCP949Encoding : func := mkFunc [] []
  (Block [Return [(New "CP949Encoding" [])]]).

(* encoding/cp949/encoding.go:16-18 *)
Definition f_CP949Encoding_NewDecoder : func := mkFunc ["e"] []
  (Block [Return [(New "encoding.Decoder" [("Transformer", (New "cp949Decoder" []))])]]).

(* encoding/cp949/encoding.go:21-23 *)
Definition f_CP949Encoding_NewEncoder : func := mkFunc ["e"] []
  (Block [Return [(New "encoding.Encoder" [("Transformer", (New "cp949Encoder" []))])]]).

(* encoding/cp949/encoding.go:28-38 *)
Definition f_cp949Decoder_Transform : func := mkFunc ["d"; "dst"; "src"; "atEOF"] [("nDst", (Lit 0)); ("nSrc", (Lit 0)); ("err", NilErr)]
  (Block [Define ["converted"; "err"] (Call "From" [(Var "src")]);
  If (Cmp Ne (Var "err") NilErr)
  (Block [Return [(Lit 0); (Lit 0); (Var "err")]])
  (Block []);
  ExprS (CopyE (Var "dst") (Var "converted"));
  Return [(Len (Var "converted")); (Len (Var "src")); NilErr]]).

(* encoding/cp949/encoding.go:43-53 *)
Definition f_cp949Encoder_Transform : func := mkFunc ["e"; "dst"; "src"; "atEOF"] [("nDst", (Lit 0)); ("nSrc", (Lit 0)); ("err", NilErr)]
  (Block [Define ["converted"; "err"] (Call "To" [(Var "src")]);
  If (Cmp Ne (Var "err") NilErr)
  (Block [Return [(Lit 0); (Lit 0); (Var "err")]])
  (Block []);
  ExprS (CopyE (Var "dst") (Var "converted"));
  Return [(Len (Var "converted")); (Len (Var "src")); NilErr]]).

(* encoding/cp949/encoding.go:56-56 *)
Definition f_cp949Decoder_Reset : func := mkFunc ["d"] []
  (Block []).

(* encoding/cp949/encoding.go:57-57 *)
Definition f_cp949Encoder_Reset : func := mkFunc ["e"] []
  (Block []).

Definition prog_hangul : list (string * func) := [
  ("IsLead", f_IsLead);
  ("IsMedial", f_IsMedial);
  ("IsTail", f_IsTail);
  ("IsJaeum", f_IsJaeum);
  ("IsMoeum", f_IsMoeum);
  ("SplitMultiElement", f_SplitMultiElement);
  ("CompatJamo", f_CompatJamo);
  ("Lead", f_Lead);
  ("Medial", f_Medial);
  ("Tail", f_Tail);
  ("leadIdx", f_leadIdx);
  ("medialIdx", f_medialIdx);
  ("tailIdx", f_tailIdx);
  ("IsHangul", f_IsHangul);
  ("Join", f_Join);
  ("Split", f_Split);
  ("SplitCompat", f_SplitCompat);
  ("EndsWithConsonant", f_EndsWithConsonant);
  ("LastConsonant", f_LastConsonant);
  ("AppendPostposition", f_AppendPostposition);
  ("Stroke", f_Stroke)].

Definition prog_hanja : list (string * func) := [
  ("Convert", f_Convert);
  ("IsHanja", f_IsHanja)].

Definition prog_cp949 : list (string * func) := [
  ("translateFromCp949.Translate", f_translateFromCp949_Translate);
  ("translateToCp949.Translate", f_translateToCp949_Translate);
  ("fromCp949", f_fromCp949);
  ("toCp949", f_toCp949);
  ("ensureCap", f_ensureCap);
  ("appendRune", f_appendRune);
  ("From", f_From);
  ("To", f_To);
  ("NewReader", f_NewReader);
  ("cp949Reader.Read", f_cp949Reader_Read);
  ("NewWriter", f_NewWriter);
  ("cp949Writer.Write", f_cp949Writer_Write);
  ("NewCP949Encoding", f_NewCP949Encoding);
  ("CP949Encoding.NewDecoder", f_CP949Encoding_NewDecoder);
  ("CP949Encoding.NewEncoder", f_CP949Encoding_NewEncoder);
  ("cp949Decoder.Transform", f_cp949Decoder_Transform);
  ("cp949Encoder.Transform", f_cp949Encoder_Transform);
  ("cp949Decoder.Reset", f_cp949Decoder_Reset);
  ("cp949Encoder.Reset", f_cp949Encoder_Reset)].
