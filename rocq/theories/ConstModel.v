(** The exported constants of package hangul by name (constant.go:4-151).

    [exported] lists every identifier that a program importing the package can use as
    hangul.<name>, with its value from HangulModel.v; leadBase, medialBase, tailBase and
    the max...Idx constants start with a lower-case letter and are not visible outside. *)
From Coq Require Import ZArith List String.
From Verif Require Import HangulModel.
Import ListNotations.
Local Open Scope Z_scope.

(* constant.go:4-151 *)
Definition exported : list (string * Z) := [
  ("G"%string, J_G); (* constant.go:6 *)
  ("GG"%string, J_GG); (* constant.go:7 *)
  ("GS"%string, J_GS); (* constant.go:8 *)
  ("N"%string, J_N); (* constant.go:9 *)
  ("NJ"%string, J_NJ); (* constant.go:10 *)
  ("NH"%string, J_NH); (* constant.go:11 *)
  ("D"%string, J_D); (* constant.go:12 *)
  ("DD"%string, J_DD); (* constant.go:13 *)
  ("L"%string, J_L); (* constant.go:14 *)
  ("LG"%string, J_LG); (* constant.go:15 *)
  ("LM"%string, J_LM); (* constant.go:16 *)
  ("LB"%string, J_LB); (* constant.go:17 *)
  ("LS"%string, J_LS); (* constant.go:18 *)
  ("LT"%string, J_LT); (* constant.go:19 *)
  ("LP"%string, J_LP); (* constant.go:20 *)
  ("LH"%string, J_LH); (* constant.go:21 *)
  ("M"%string, J_M); (* constant.go:22 *)
  ("B"%string, J_B); (* constant.go:23 *)
  ("BB"%string, J_BB); (* constant.go:24 *)
  ("BS"%string, J_BS); (* constant.go:25 *)
  ("S"%string, J_S); (* constant.go:26 *)
  ("SS"%string, J_SS); (* constant.go:27 *)
  ("ZS"%string, J_ZS); (* constant.go:28 *)
  ("J"%string, J_J); (* constant.go:29 *)
  ("JJ"%string, J_JJ); (* constant.go:30 *)
  ("C"%string, J_C); (* constant.go:31 *)
  ("K"%string, J_K); (* constant.go:32 *)
  ("T"%string, J_T); (* constant.go:33 *)
  ("P"%string, J_P); (* constant.go:34 *)
  ("H"%string, J_H); (* constant.go:35 *)
  ("A"%string, J_A); (* constant.go:36 *)
  ("AE"%string, J_AE); (* constant.go:37 *)
  ("YA"%string, J_YA); (* constant.go:38 *)
  ("YAE"%string, J_YAE); (* constant.go:39 *)
  ("EO"%string, J_EO); (* constant.go:40 *)
  ("E"%string, J_E); (* constant.go:41 *)
  ("YEO"%string, J_YEO); (* constant.go:42 *)
  ("YE"%string, J_YE); (* constant.go:43 *)
  ("O"%string, J_O); (* constant.go:44 *)
  ("WA"%string, J_WA); (* constant.go:45 *)
  ("WAE"%string, J_WAE); (* constant.go:46 *)
  ("OE"%string, J_OE); (* constant.go:47 *)
  ("YO"%string, J_YO); (* constant.go:48 *)
  ("U"%string, J_U); (* constant.go:49 *)
  ("WEO"%string, J_WEO); (* constant.go:50 *)
  ("WE"%string, J_WE); (* constant.go:51 *)
  ("WI"%string, J_WI); (* constant.go:52 *)
  ("YU"%string, J_YU); (* constant.go:53 *)
  ("EU"%string, J_EU); (* constant.go:54 *)
  ("YI"%string, J_YI); (* constant.go:55 *)
  ("I"%string, J_I); (* constant.go:56 *)
  ("NG"%string, J_NG); (* constant.go:57 *)
  ("LeadG"%string, LeadG); (* constant.go:70 *)
  ("LeadGG"%string, LeadGG); (* constant.go:71 *)
  ("LeadN"%string, LeadN); (* constant.go:72 *)
  ("LeadD"%string, LeadD); (* constant.go:73 *)
  ("LeadDD"%string, LeadDD); (* constant.go:74 *)
  ("LeadR"%string, LeadR); (* constant.go:75 *)
  ("LeadM"%string, LeadM); (* constant.go:76 *)
  ("LeadB"%string, LeadB); (* constant.go:77 *)
  ("LeadBB"%string, LeadBB); (* constant.go:78 *)
  ("LeadS"%string, LeadS); (* constant.go:79 *)
  ("LeadSS"%string, LeadSS); (* constant.go:80 *)
  ("LeadZS"%string, LeadZS); (* constant.go:81 *)
  ("LeadJ"%string, LeadJ); (* constant.go:82 *)
  ("LeadJJ"%string, LeadJJ); (* constant.go:83 *)
  ("LeadC"%string, LeadC); (* constant.go:84 *)
  ("LeadK"%string, LeadK); (* constant.go:85 *)
  ("LeadT"%string, LeadT); (* constant.go:86 *)
  ("LeadP"%string, LeadP); (* constant.go:87 *)
  ("LeadH"%string, LeadH); (* constant.go:88 *)
  ("MedialA"%string, MedialA); (* constant.go:95 *)
  ("MedialAE"%string, MedialAE); (* constant.go:96 *)
  ("MedialYA"%string, MedialYA); (* constant.go:97 *)
  ("MedialYAE"%string, MedialYAE); (* constant.go:98 *)
  ("MedialEO"%string, MedialEO); (* constant.go:99 *)
  ("MedialE"%string, MedialE); (* constant.go:100 *)
  ("MedialYEO"%string, MedialYEO); (* constant.go:101 *)
  ("MedialYE"%string, MedialYE); (* constant.go:102 *)
  ("MedialO"%string, MedialO); (* constant.go:103 *)
  ("MedialWA"%string, MedialWA); (* constant.go:104 *)
  ("MedialWAE"%string, MedialWAE); (* constant.go:105 *)
  ("MedialOE"%string, MedialOE); (* constant.go:106 *)
  ("MedialYO"%string, MedialYO); (* constant.go:107 *)
  ("MedialU"%string, MedialU); (* constant.go:108 *)
  ("MedialWEO"%string, MedialWEO); (* constant.go:109 *)
  ("MedialWE"%string, MedialWE); (* constant.go:110 *)
  ("MedialWI"%string, MedialWI); (* constant.go:111 *)
  ("MedialYU"%string, MedialYU); (* constant.go:112 *)
  ("MedialEU"%string, MedialEU); (* constant.go:113 *)
  ("MedialYI"%string, MedialYI); (* constant.go:114 *)
  ("MedialI"%string, MedialI); (* constant.go:115 *)
  ("TailG"%string, TailG); (* constant.go:122 *)
  ("TailGG"%string, TailGG); (* constant.go:123 *)
  ("TailGS"%string, TailGS); (* constant.go:124 *)
  ("TailN"%string, TailN); (* constant.go:125 *)
  ("TailNJ"%string, TailNJ); (* constant.go:126 *)
  ("TailNH"%string, TailNH); (* constant.go:127 *)
  ("TailD"%string, TailD); (* constant.go:128 *)
  ("TailL"%string, TailL); (* constant.go:129 *)
  ("TailLG"%string, TailLG); (* constant.go:130 *)
  ("TailLM"%string, TailLM); (* constant.go:131 *)
  ("TailLB"%string, TailLB); (* constant.go:132 *)
  ("TailLS"%string, TailLS); (* constant.go:133 *)
  ("TailLT"%string, TailLT); (* constant.go:134 *)
  ("TailLP"%string, TailLP); (* constant.go:135 *)
  ("TailLH"%string, TailLH); (* constant.go:136 *)
  ("TailM"%string, TailM); (* constant.go:137 *)
  ("TailB"%string, TailB); (* constant.go:138 *)
  ("TailBS"%string, TailBS); (* constant.go:139 *)
  ("TailS"%string, TailS); (* constant.go:140 *)
  ("TailSS"%string, TailSS); (* constant.go:141 *)
  ("TailNG"%string, TailNG); (* constant.go:142 *)
  ("TailJ"%string, TailJ); (* constant.go:143 *)
  ("TailC"%string, TailC); (* constant.go:144 *)
  ("TailK"%string, TailK); (* constant.go:145 *)
  ("TailT"%string, TailT); (* constant.go:146 *)
  ("TailP"%string, TailP); (* constant.go:147 *)
  ("TailH"%string, TailH) (* constant.go:148 *)
].

(* hangul.<name> in a client; None: the program does not compile *)
Fixpoint lookup (l : list (string * Z)) (name : string) : option Z :=
  match l with
  | [] => None
  | (n, v) :: l' => if String.eqb n name then Some v else lookup l' name
  end.
Definition constant (name : string) : option Z := lookup exported name.
