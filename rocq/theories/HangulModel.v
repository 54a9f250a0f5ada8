(** Model of package hangul: constant.go, jamo.go, hangul.go, stroke.go.

    Runes are [Z] values of type int32; conversions and subtractions that can leave the
    int32 range wrap explicitly ([wrap32]).  Strings are lists of bytes. *)
From Coq Require Import ZArith List Bool.
From Verif Require Import Base Utf8.
Import ListNotations.
Local Open Scope Z_scope.
Local Open Scope go_scope.

(** * constant.go
    The compatibility-jamo constants G, GG, ... are called [J_G], [J_GG], ... here because
    several one-letter names are taken by Coq.  [base + k] is Go's [base + iota] at
    position k of the block. *)
Definition J_G : Z := 0x3130 + 1. (* constant.go:6 *)
Definition J_GG : Z := 0x3130 + 2. (* constant.go:7 *)
Definition J_GS : Z := 0x3130 + 3. (* constant.go:8 *)
Definition J_N : Z := 0x3130 + 4. (* constant.go:9 *)
Definition J_NJ : Z := 0x3130 + 5. (* constant.go:10 *)
Definition J_NH : Z := 0x3130 + 6. (* constant.go:11 *)
Definition J_D : Z := 0x3130 + 7. (* constant.go:12 *)
Definition J_DD : Z := 0x3130 + 8. (* constant.go:13 *)
Definition J_L : Z := 0x3130 + 9. (* constant.go:14 *)
Definition J_LG : Z := 0x3130 + 10. (* constant.go:15 *)
Definition J_LM : Z := 0x3130 + 11. (* constant.go:16 *)
Definition J_LB : Z := 0x3130 + 12. (* constant.go:17 *)
Definition J_LS : Z := 0x3130 + 13. (* constant.go:18 *)
Definition J_LT : Z := 0x3130 + 14. (* constant.go:19 *)
Definition J_LP : Z := 0x3130 + 15. (* constant.go:20 *)
Definition J_LH : Z := 0x3130 + 16. (* constant.go:21 *)
Definition J_M : Z := 0x3130 + 17. (* constant.go:22 *)
Definition J_B : Z := 0x3130 + 18. (* constant.go:23 *)
Definition J_BB : Z := 0x3130 + 19. (* constant.go:24 *)
Definition J_BS : Z := 0x3130 + 20. (* constant.go:25 *)
Definition J_S : Z := 0x3130 + 21. (* constant.go:26 *)
Definition J_SS : Z := 0x3130 + 22. (* constant.go:27 *)
Definition J_ZS : Z := 0x3130 + 23. (* constant.go:28 *)
Definition J_J : Z := 0x3130 + 24. (* constant.go:29 *)
Definition J_JJ : Z := 0x3130 + 25. (* constant.go:30 *)
Definition J_C : Z := 0x3130 + 26. (* constant.go:31 *)
Definition J_K : Z := 0x3130 + 27. (* constant.go:32 *)
Definition J_T : Z := 0x3130 + 28. (* constant.go:33 *)
Definition J_P : Z := 0x3130 + 29. (* constant.go:34 *)
Definition J_H : Z := 0x3130 + 30. (* constant.go:35 *)
Definition J_A : Z := 0x3130 + 31. (* constant.go:36 *)
Definition J_AE : Z := 0x3130 + 32. (* constant.go:37 *)
Definition J_YA : Z := 0x3130 + 33. (* constant.go:38 *)
Definition J_YAE : Z := 0x3130 + 34. (* constant.go:39 *)
Definition J_EO : Z := 0x3130 + 35. (* constant.go:40 *)
Definition J_E : Z := 0x3130 + 36. (* constant.go:41 *)
Definition J_YEO : Z := 0x3130 + 37. (* constant.go:42 *)
Definition J_YE : Z := 0x3130 + 38. (* constant.go:43 *)
Definition J_O : Z := 0x3130 + 39. (* constant.go:44 *)
Definition J_WA : Z := 0x3130 + 40. (* constant.go:45 *)
Definition J_WAE : Z := 0x3130 + 41. (* constant.go:46 *)
Definition J_OE : Z := 0x3130 + 42. (* constant.go:47 *)
Definition J_YO : Z := 0x3130 + 43. (* constant.go:48 *)
Definition J_U : Z := 0x3130 + 44. (* constant.go:49 *)
Definition J_WEO : Z := 0x3130 + 45. (* constant.go:50 *)
Definition J_WE : Z := 0x3130 + 46. (* constant.go:51 *)
Definition J_WI : Z := 0x3130 + 47. (* constant.go:52 *)
Definition J_YU : Z := 0x3130 + 48. (* constant.go:53 *)
Definition J_EU : Z := 0x3130 + 49. (* constant.go:54 *)
Definition J_YI : Z := 0x3130 + 50. (* constant.go:55 *)
Definition J_I : Z := 0x3130 + 51. (* constant.go:56 *)
Definition J_NG : Z := J_ZS. (* constant.go:57 *)
Definition leadBase : Z := 0x1100. (* constant.go:62 *)
Definition medialBase : Z := 0x1161. (* constant.go:63 *)
Definition tailBase : Z := 0x11A8. (* constant.go:64 *)
Definition LeadG : Z := (leadBase - 1) + 1. (* constant.go:70 *)
Definition LeadGG : Z := (leadBase - 1) + 2. (* constant.go:71 *)
Definition LeadN : Z := (leadBase - 1) + 3. (* constant.go:72 *)
Definition LeadD : Z := (leadBase - 1) + 4. (* constant.go:73 *)
Definition LeadDD : Z := (leadBase - 1) + 5. (* constant.go:74 *)
Definition LeadR : Z := (leadBase - 1) + 6. (* constant.go:75 *)
Definition LeadM : Z := (leadBase - 1) + 7. (* constant.go:76 *)
Definition LeadB : Z := (leadBase - 1) + 8. (* constant.go:77 *)
Definition LeadBB : Z := (leadBase - 1) + 9. (* constant.go:78 *)
Definition LeadS : Z := (leadBase - 1) + 10. (* constant.go:79 *)
Definition LeadSS : Z := (leadBase - 1) + 11. (* constant.go:80 *)
Definition LeadZS : Z := (leadBase - 1) + 12. (* constant.go:81 *)
Definition LeadJ : Z := (leadBase - 1) + 13. (* constant.go:82 *)
Definition LeadJJ : Z := (leadBase - 1) + 14. (* constant.go:83 *)
Definition LeadC : Z := (leadBase - 1) + 15. (* constant.go:84 *)
Definition LeadK : Z := (leadBase - 1) + 16. (* constant.go:85 *)
Definition LeadT : Z := (leadBase - 1) + 17. (* constant.go:86 *)
Definition LeadP : Z := (leadBase - 1) + 18. (* constant.go:87 *)
Definition LeadH : Z := (leadBase - 1) + 19. (* constant.go:88 *)
Definition maxLeadIdx : Z := LeadH - LeadG. (* constant.go:90 *)
Definition MedialA : Z := (medialBase - 1) + 1. (* constant.go:95 *)
Definition MedialAE : Z := (medialBase - 1) + 2. (* constant.go:96 *)
Definition MedialYA : Z := (medialBase - 1) + 3. (* constant.go:97 *)
Definition MedialYAE : Z := (medialBase - 1) + 4. (* constant.go:98 *)
Definition MedialEO : Z := (medialBase - 1) + 5. (* constant.go:99 *)
Definition MedialE : Z := (medialBase - 1) + 6. (* constant.go:100 *)
Definition MedialYEO : Z := (medialBase - 1) + 7. (* constant.go:101 *)
Definition MedialYE : Z := (medialBase - 1) + 8. (* constant.go:102 *)
Definition MedialO : Z := (medialBase - 1) + 9. (* constant.go:103 *)
Definition MedialWA : Z := (medialBase - 1) + 10. (* constant.go:104 *)
Definition MedialWAE : Z := (medialBase - 1) + 11. (* constant.go:105 *)
Definition MedialOE : Z := (medialBase - 1) + 12. (* constant.go:106 *)
Definition MedialYO : Z := (medialBase - 1) + 13. (* constant.go:107 *)
Definition MedialU : Z := (medialBase - 1) + 14. (* constant.go:108 *)
Definition MedialWEO : Z := (medialBase - 1) + 15. (* constant.go:109 *)
Definition MedialWE : Z := (medialBase - 1) + 16. (* constant.go:110 *)
Definition MedialWI : Z := (medialBase - 1) + 17. (* constant.go:111 *)
Definition MedialYU : Z := (medialBase - 1) + 18. (* constant.go:112 *)
Definition MedialEU : Z := (medialBase - 1) + 19. (* constant.go:113 *)
Definition MedialYI : Z := (medialBase - 1) + 20. (* constant.go:114 *)
Definition MedialI : Z := (medialBase - 1) + 21. (* constant.go:115 *)
Definition maxMedialIdx : Z := MedialI - MedialA. (* constant.go:117 *)
Definition TailG : Z := (tailBase - 1) + 1. (* constant.go:122 *)
Definition TailGG : Z := (tailBase - 1) + 2. (* constant.go:123 *)
Definition TailGS : Z := (tailBase - 1) + 3. (* constant.go:124 *)
Definition TailN : Z := (tailBase - 1) + 4. (* constant.go:125 *)
Definition TailNJ : Z := (tailBase - 1) + 5. (* constant.go:126 *)
Definition TailNH : Z := (tailBase - 1) + 6. (* constant.go:127 *)
Definition TailD : Z := (tailBase - 1) + 7. (* constant.go:128 *)
Definition TailL : Z := (tailBase - 1) + 8. (* constant.go:129 *)
Definition TailLG : Z := (tailBase - 1) + 9. (* constant.go:130 *)
Definition TailLM : Z := (tailBase - 1) + 10. (* constant.go:131 *)
Definition TailLB : Z := (tailBase - 1) + 11. (* constant.go:132 *)
Definition TailLS : Z := (tailBase - 1) + 12. (* constant.go:133 *)
Definition TailLT : Z := (tailBase - 1) + 13. (* constant.go:134 *)
Definition TailLP : Z := (tailBase - 1) + 14. (* constant.go:135 *)
Definition TailLH : Z := (tailBase - 1) + 15. (* constant.go:136 *)
Definition TailM : Z := (tailBase - 1) + 16. (* constant.go:137 *)
Definition TailB : Z := (tailBase - 1) + 17. (* constant.go:138 *)
Definition TailBS : Z := (tailBase - 1) + 18. (* constant.go:139 *)
Definition TailS : Z := (tailBase - 1) + 19. (* constant.go:140 *)
Definition TailSS : Z := (tailBase - 1) + 20. (* constant.go:141 *)
Definition TailNG : Z := (tailBase - 1) + 21. (* constant.go:142 *)
Definition TailJ : Z := (tailBase - 1) + 22. (* constant.go:143 *)
Definition TailC : Z := (tailBase - 1) + 23. (* constant.go:144 *)
Definition TailK : Z := (tailBase - 1) + 24. (* constant.go:145 *)
Definition TailT : Z := (tailBase - 1) + 25. (* constant.go:146 *)
Definition TailP : Z := (tailBase - 1) + 26. (* constant.go:147 *)
Definition TailH : Z := (tailBase - 1) + 27. (* constant.go:148 *)
Definition maxTailIdx : Z := TailH - TailG. (* constant.go:150 *)

(** * jamo.go *)

(* jamo.go:8-13 *)
Definition IsLead (r : Z) : bool := (LeadG <=? r) && (r <=? LeadH).

(* jamo.go:16-21 *)
Definition IsMedial (r : Z) : bool := (MedialA <=? r) && (r <=? MedialI).

(* jamo.go:24-29 *)
Definition IsTail (r : Z) : bool := (TailG <=? r) && (r <=? TailH).

(* jamo.go:32-42 *)
Definition IsJaeum (r : Z) : bool :=
  if (J_G <=? r) && (r <=? J_H) then true
  else if IsLead r then true
  else if IsTail r then true
  else false.

(* jamo.go:45-53 *)
Definition IsMoeum (r : Z) : bool :=
  if (J_A <=? r) && (r <=? J_I) then true
  else if IsMedial r then true
  else false.

(* jamo.go:55-83 *)
Definition multiElements : list (Z * list Z) := [
  (J_GG, [J_G; J_G]);
  (J_GS, [J_G; J_S]);
  (J_NJ, [J_N; J_J]);
  (J_NH, [J_N; J_H]);
  (J_DD, [J_D; J_D]);
  (J_LG, [J_L; J_G]);
  (J_LM, [J_L; J_M]);
  (J_LB, [J_L; J_B]);
  (J_LS, [J_L; J_S]);
  (J_LT, [J_L; J_T]);
  (J_LP, [J_L; J_P]);
  (J_LH, [J_L; J_H]);
  (J_BB, [J_B; J_B]);
  (J_BS, [J_B; J_S]);
  (J_SS, [J_S; J_S]);
  (J_JJ, [J_J; J_J]);
  (J_AE, [J_A; J_I]);
  (J_E, [J_EO; J_I]);
  (J_YAE, [J_YA; J_I]);
  (J_YE, [J_YEO; J_I]);
  (J_WA, [J_O; J_A]);
  (J_WAE, [J_O; J_A; J_I]);
  (J_OE, [J_O; J_I]);
  (J_WEO, [J_U; J_EO]);
  (J_WE, [J_U; J_E]);
  (J_WI, [J_U; J_I]);
  (J_YI, [J_EU; J_I])
].

(* jamo.go:92-139 *)
Definition toCompatJamo : list (Z * Z) := [
  (LeadG, J_G);
  (TailG, J_G);
  (LeadGG, J_GG);
  (TailGG, J_GG);
  (TailGS, J_GS);
  (LeadN, J_N);
  (TailN, J_N);
  (TailNJ, J_NJ);
  (TailNH, J_NH);
  (LeadD, J_D);
  (TailD, J_D);
  (LeadDD, J_DD);
  (LeadR, J_L);
  (TailL, J_L);
  (TailLG, J_LG);
  (TailLM, J_LM);
  (TailLB, J_LB);
  (TailLS, J_LS);
  (TailLT, J_LT);
  (TailLP, J_LP);
  (TailLH, J_LH);
  (LeadM, J_M);
  (TailM, J_M);
  (LeadB, J_B);
  (TailB, J_B);
  (LeadBB, J_BB);
  (TailBS, J_BS);
  (LeadS, J_S);
  (TailS, J_S);
  (LeadSS, J_SS);
  (TailSS, J_SS);
  (LeadZS, J_ZS);
  (TailNG, J_ZS);
  (LeadJ, J_J);
  (TailJ, J_J);
  (LeadJJ, J_JJ);
  (LeadC, J_C);
  (TailC, J_C);
  (LeadK, J_K);
  (TailK, J_K);
  (LeadT, J_T);
  (TailT, J_T);
  (LeadP, J_P);
  (TailP, J_P);
  (LeadH, J_H);
  (TailH, J_H)
].

(* jamo.go:142-156 *)
Definition CompatJamo (r : Z) : Z :=
  if (J_G <=? r) && (r <=? J_H) then r
  else if (J_A <=? r) && (r <=? J_I) then r
  else if (MedialA <=? r) && (r <=? MedialI) then wrap32 (wrap32 (r - medialBase) + J_A)
  else match map_get toCompatJamo r with
       | Some c => c
       | None => 0
       end.

(* jamo.go:86-90.
   The Go function returns the slice stored in the package-level map, not a copy, so the
   map's current value [h] is a parameter; [SplitMultiElement] below is the function in a
   program that never writes through a returned slice, and the section "Shared state" at
   the end of this file is the general case. *)
Definition SplitMultiElement_in (h : list (Z * list Z)) (r : Z) : list Z * bool :=
  let r := CompatJamo r in
  match map_get h r with
  | Some es => (es, true)
  | None => ([], false)
  end.
Definition SplitMultiElement (r : Z) : list Z * bool := SplitMultiElement_in multiElements r.

(* jamo.go:158-178 *)
Definition toLead : list (Z * Z) := [
  (J_G, LeadG);
  (J_GG, LeadGG);
  (J_N, LeadN);
  (J_D, LeadD);
  (J_DD, LeadDD);
  (J_L, LeadR);
  (J_M, LeadM);
  (J_B, LeadB);
  (J_BB, LeadBB);
  (J_S, LeadS);
  (J_SS, LeadSS);
  (J_ZS, LeadZS);
  (J_J, LeadJ);
  (J_JJ, LeadJJ);
  (J_C, LeadC);
  (J_K, LeadK);
  (J_T, LeadT);
  (J_P, LeadP);
  (J_H, LeadH)
].

(* jamo.go:181-190 *)
Definition Lead (c : Z) : Z :=
  if (LeadG <=? c) && (c <=? LeadH) then c
  else match map_get toLead c with
       | Some l => l
       | None => 0
       end.

(* jamo.go:193-202 *)
Definition Medial (c : Z) : Z :=
  if (MedialA <=? c) && (c <=? MedialI) then c
  else if (J_A <=? c) && (c <=? J_I) then wrap32 (wrap32 (c - J_A) + medialBase)
  else 0.

(* jamo.go:204-232 *)
Definition toTail : list (Z * Z) := [
  (J_G, TailG);
  (J_GG, TailGG);
  (J_GS, TailGS);
  (J_N, TailN);
  (J_NJ, TailNJ);
  (J_NH, TailNH);
  (J_D, TailD);
  (J_L, TailL);
  (J_LG, TailLG);
  (J_LM, TailLM);
  (J_LB, TailLB);
  (J_LS, TailLS);
  (J_LT, TailLT);
  (J_LP, TailLP);
  (J_LH, TailLH);
  (J_M, TailM);
  (J_B, TailB);
  (J_BS, TailBS);
  (J_S, TailS);
  (J_SS, TailSS);
  (J_ZS, TailNG);
  (J_J, TailJ);
  (J_C, TailC);
  (J_K, TailK);
  (J_T, TailT);
  (J_P, TailP);
  (J_H, TailH)
].

(* jamo.go:235-244 *)
Definition Tail (c : Z) : Z :=
  if (TailG <=? c) && (c <=? TailH) then c
  else match map_get toTail c with
       | Some t => t
       | None => 0
       end.

(* jamo.go:246-252; int arithmetic, no wrap-around possible on a 64-bit int. *)
Definition leadIdx (l : Z) : Z * bool :=
  let i := l - leadBase in
  if (0 >? i) || (i >? maxLeadIdx) then (0, false) else (i, true).

(* jamo.go:254-260 *)
Definition medialIdx (v : Z) : Z * bool :=
  let i := v - medialBase in
  if (0 >? i) || (i >? maxMedialIdx) then (0, false) else (i, true).

(* jamo.go:262-272 *)
Definition tailIdx (t : Z) : Z * bool :=
  if t =? 0 then (0, true)
  else
    let i := t - tailBase in
    if (0 >? i) || (i >? maxTailIdx) then (0, false) else (i + 1, true).

(** * hangul.go *)

(* hangul.go:14-25 *)
Definition IsHangul (r : Z) : bool :=
  if (0xAC00 <=? r) && (r <=? 0xD7A3) then true
  else if IsJaeum r then true
  else if IsMoeum r then true
  else false.

(* hangul.go:28-46 *)
Definition Join (l m t : Z) : Z :=
  let '(li, ok) := leadIdx (Lead l) in
  if negb ok then 0xFFFD else
  let '(mi, ok) := medialIdx (Medial m) in
  if negb ok then 0xFFFD else
  let '(ti, ok) := tailIdx (Tail t) in
  if negb ok then 0xFFFD else
  wrap32 (0xAC00 + (li * 21 + mi) * 28 + ti).

(* hangul.go:49-61; every intermediate is an int32 (rune), hence the wraps;
   / and % truncate towards zero. *)
Definition Split (c : Z) : Z * Z * Z :=
  let t := go_mod (wrap32 (c - 0xAC00)) 28 in
  let m := go_div (go_mod (wrap32 (wrap32 (c - 0xAC00) - t)) 588) 28 in
  let l := go_div (wrap32 (c - 0xAC00)) 588 in
  let l := wrap32 (l + leadBase) in
  let m := wrap32 (m + medialBase) in
  let t := if negb (t =? 0) then wrap32 (t + (tailBase - 1)) else t in
  (l, m, t).

(* hangul.go:64-70 *)
Definition SplitCompat (c : Z) : Z * Z * Z :=
  let '(l, m, t) := Split c in
  let l := CompatJamo l in
  let m := CompatJamo m in
  let t := CompatJamo t in
  (l, m, t).

(* hangul.go:84-91 *)
Definition LastConsonant (word : list Z) : res Z :=
  match word with
  | [] => Ok 0
  | _ =>
    let runes := string_to_runes word in
    let! c := get_or_panic (zget runes (zlen runes - 1)) in
    let '(_, _, t) := Split c in
    Ok t
  end.

(* hangul.go:74-80 *)
Definition EndsWithConsonant (word : list Z) : res bool :=
  let! t := LastConsonant word in
  if t =? 0 then Ok false else Ok true.

(* The string literal "으로" of hangul.go:99, as UTF-8 bytes. *)
Definition str_euro : list Z := [0xEC; 0x9C; 0xBC; 0xEB; 0xA1; 0x9C].

(* Go's == on strings. *)
Fixpoint str_eqb (a b : list Z) : bool :=
  match a, b with
  | [], [] => true
  | x :: a', y :: b' => (x =? y) && str_eqb a' b'
  | _, _ => false
  end.

(* hangul.go:97-106 *)
Definition AppendPostposition (word with_ without : list Z) : res (list Z) :=
  let! lastTail := LastConsonant word in
  if str_eqb with_ str_euro && (lastTail =? TailL) then Ok (word ++ without)
  else if negb (lastTail =? 0) then Ok (word ++ with_)
  else Ok (word ++ without).

(** * stroke.go *)

(* stroke.go:7-32 *)
Definition strokes : list (Z * Z) := [
  (J_G, 1);
  (J_N, 1);
  (J_D, 2);
  (J_L, 3);
  (J_M, 3);
  (J_B, 4);
  (J_S, 2);
  (J_ZS, 1);
  (J_J, 3);
  (J_C, 4);
  (J_K, 2);
  (J_T, 3);
  (J_P, 4);
  (J_H, 3);
  (J_A, 2);
  (J_YA, 3);
  (J_EO, 2);
  (J_YEO, 3);
  (J_O, 2);
  (J_YO, 3);
  (J_U, 2);
  (J_YU, 3);
  (J_EU, 1);
  (J_I, 1)
].

(* strokes[e]: the zero value for a missing key (stroke.go:47, 50). *)
Definition strokes_at (e : Z) : Z :=
  match map_get strokes e with Some n => n | None => 0 end.

(* stroke.go:35-53.  The Go function recurses; [fuel] bounds the recursion depth and
   running out is the explicit outcome [Fuel].  [h] is the current value of the
   multiElements map, see [SplitMultiElement_in]. *)
Fixpoint Stroke_in (h : list (Z * list Z)) (fuel : nat) (r : Z) : res Z :=
  match fuel with
  | O => Fuel
  | S fuel =>
    if (0xAC00 <=? r) && (r <=? 0xD7A3) then
      let '(i, m, f) := Split r in
      let! ci := Stroke_in h fuel i in
      let! cm := Stroke_in h fuel m in
      let! cf := Stroke_in h fuel f in
      Ok (ci + cm + cf)
    else
      let jm := CompatJamo r in
      let '(es, ok) := SplitMultiElement_in h jm in
      if ok then Ok (fold_left (fun c e => c + strokes_at e) es 0)
      else Ok (strokes_at jm)
  end.
(* Stroke(r) in a program that never writes through a slice returned by
   SplitMultiElement.  Depth 2 is enough for every r (proved: Stroke_any_fuel). *)
Definition Stroke (r : Z) : res Z := Stroke_in multiElements 2 r.

(** * Shared state
    jamo.go:86-90 hands out the slices stored in the package-level map [multiElements]
    (jamo.go:55-83), so a caller that assigns to an element of a returned slice changes
    the package's own table.  A program is a list of the following operations; the state
    is the current content of the table. *)
Inductive hangul_op : Type :=
| OpSplitMulti (r : Z)                  (* es, ok := SplitMultiElement(r) *)
| OpStroke (r : Z)                      (* Stroke(r) *)
| OpStore (r : Z) (i : Z) (v : Z).      (* es, _ := SplitMultiElement(r); es[i] = v *)

Inductive hangul_out : Type :=
| OutSplitMulti (es : list Z) (ok : bool)
| OutStroke (c : res Z)
| OutStored
| OutIndexPanic.

Fixpoint map_update (h : list (Z * list Z)) (k : Z) (es : list Z) : list (Z * list Z) :=
  match h with
  | [] => []
  | (k', v) :: h' => if k' =? k then (k', es) :: h' else (k', v) :: map_update h' k es
  end.

Definition hangul_init : list (Z * list Z) := multiElements.

Definition hangul_step (h : list (Z * list Z)) (o : hangul_op)
  : list (Z * list Z) * hangul_out :=
  match o with
  | OpSplitMulti r => let '(es, ok) := SplitMultiElement_in h r in (h, OutSplitMulti es ok)
  | OpStroke r => (h, OutStroke (Stroke_in h 2 r))
  | OpStore r i v =>
    let '(es, _) := SplitMultiElement_in h r in
    if (0 <=? i) && (i <? zlen es)
    then (map_update h (CompatJamo r) (zwrite es i [v]), OutStored)
    else (h, OutIndexPanic)
  end.

Fixpoint hangul_run (h : list (Z * list Z)) (os : list hangul_op) : list hangul_out :=
  match os with
  | [] => []
  | o :: os' => let '(h', out) := hangul_step h o in out :: hangul_run h' os'
  end.
