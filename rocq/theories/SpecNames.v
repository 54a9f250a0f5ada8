(** Names of the letters: the Jamo_Short_Name property of the Unicode Character Database
    (Jamo.txt).  Unicode gives the silent leading U+110B an empty short name; it is called
    "ZS" (zero sound) here.  The letter written U+3139 is R when leading and L elsewhere,
    the one written U+3147 is NG when trailing. *)
From Coq Require Import String.
From Verif Require Import Spec.
Local Open Scope string_scope.

Definition short_name (x : letter) : string :=
  match x with
  | L_KIYEOK => "G"
  | L_SSANGKIYEOK => "GG"
  | L_KIYEOK_SIOS => "GS"
  | L_NIEUN => "N"
  | L_NIEUN_CIEUC => "NJ"
  | L_NIEUN_HIEUH => "NH"
  | L_TIKEUT => "D"
  | L_SSANGTIKEUT => "DD"
  | L_RIEUL => "L"
  | L_RIEUL_KIYEOK => "LG"
  | L_RIEUL_MIEUM => "LM"
  | L_RIEUL_PIEUP => "LB"
  | L_RIEUL_SIOS => "LS"
  | L_RIEUL_THIEUTH => "LT"
  | L_RIEUL_PHIEUPH => "LP"
  | L_RIEUL_HIEUH => "LH"
  | L_MIEUM => "M"
  | L_PIEUP => "B"
  | L_SSANGPIEUP => "BB"
  | L_PIEUP_SIOS => "BS"
  | L_SIOS => "S"
  | L_SSANGSIOS => "SS"
  | L_IEUNG => "ZS"
  | L_CIEUC => "J"
  | L_SSANGCIEUC => "JJ"
  | L_CHIEUCH => "C"
  | L_KHIEUKH => "K"
  | L_THIEUTH => "T"
  | L_PHIEUPH => "P"
  | L_HIEUH => "H"
  | L_A => "A"
  | L_AE => "AE"
  | L_YA => "YA"
  | L_YAE => "YAE"
  | L_EO => "EO"
  | L_E => "E"
  | L_YEO => "YEO"
  | L_YE => "YE"
  | L_O => "O"
  | L_WA => "WA"
  | L_WAE => "WAE"
  | L_OE => "OE"
  | L_YO => "YO"
  | L_U => "U"
  | L_WEO => "WEO"
  | L_WE => "WE"
  | L_WI => "WI"
  | L_YU => "YU"
  | L_EU => "EU"
  | L_YI => "YI"
  | L_I => "I"
  end.
Definition lead_name (x : letter) : string :=
  match x with L_RIEUL => "R" | _ => short_name x end.
Definition tail_name (x : letter) : string :=
  match x with L_IEUNG => "NG" | _ => short_name x end.
