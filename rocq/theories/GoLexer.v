(** Reading Go source text, first step: the tokens.

    After the Go Specification, section "Lexical elements", for the part of the language the
    files of /repo use; any other text is rejected with [None].  Not read: comments with
    slash and star, raw strings, escapes in literals, floating-point and octal numbers,
    letters outside ASCII in identifiers.  Nothing here is specific to /repo. *)
From Coq Require Import String Ascii NArith ZArith List Bool.
Import ListNotations.
Local Open Scope list_scope.
Local Open Scope string_scope.

Inductive tok : Type :=
| TId (x : string) | TKw (x : string)
| TNum (z : Z) | TStr (s : list Z)              (* string literals as bytes *)
| TOp (x : string).

Definition is_keyword (x : string) : bool :=
  match x with
  | "break" | "case" | "chan" | "const" | "continue" | "default" | "defer" | "else" | "fallthrough" | "for" | "func"
  | "go" | "goto" | "if" | "import" | "interface" | "map" | "package" | "range" | "return" | "select" | "struct"
  | "switch" | "type" | "var" => true
  | _ => false
  end.
Definition among (x : string) (l : list string) : bool := existsb (String.eqb x) l.

Definition code (c : ascii) : Z := Z.of_N (N_of_ascii c).
Local Open Scope Z_scope.
Definition within (lo hi x : Z) : bool := (lo <=? x) && (x <=? hi).
Definition newline (c : ascii) : bool := match c with "010" => true | _ => false end%char.
Definition blank (c : ascii) : bool := match c with " " | "009" | "013" => true | _ => false end%char.
Definition digit (c : ascii) : bool :=
  match c with "0" | "1" | "2" | "3" | "4" | "5" | "6" | "7" | "8" | "9" => true | _ => false end%char.
Definition letter (c : ascii) : bool :=
  match c with
  | "A" | "B" | "C" | "D" | "E" | "F" | "G" | "H" | "I" | "J" | "K" | "L" | "M"
  | "N" | "O" | "P" | "Q" | "R" | "S" | "T" | "U" | "V" | "W" | "X" | "Y" | "Z"
  | "a" | "b" | "c" | "d" | "e" | "f" | "g" | "h" | "i" | "j" | "k" | "l" | "m"
  | "n" | "o" | "p" | "q" | "r" | "s" | "t" | "u" | "v" | "w" | "x" | "y" | "z" | "_" => true
  | _ => false
  end%char.
Definition letter_or_digit (c : ascii) : bool := letter c || digit c.
Definition dquote (c : ascii) : bool := match c with """" => true | _ => false end%char.
Definition quote (c : ascii) : bool := match c with "'" => true | _ => false end%char.
Definition backslash (c : ascii) : bool := match c with "\" => true | _ => false end%char.

(** The longest beginning whose characters all satisfy [f], and the rest. *)
Fixpoint span (f : ascii -> bool) (s : string) : string * string :=
  match s with
  | EmptyString => (EmptyString, EmptyString)
  | String c s' => if f c then let '(a, b) := span f s' in (String c a, b) else (EmptyString, s)
  end.
Fixpoint bytes (s : string) : list Z :=
  match s with EmptyString => [] | String c s => code c :: bytes s end.

Definition digit_value (c : ascii) : option Z :=
  match c with
  | "0" => Some 0 | "1" => Some 1 | "2" => Some 2 | "3" => Some 3 | "4" => Some 4 | "5" => Some 5 | "6" => Some 6 | "7" => Some 7 | "8" => Some 8 | "9" => Some 9
  | "a" => Some 10 | "b" => Some 11 | "c" => Some 12 | "d" => Some 13 | "e" => Some 14 | "f" => Some 15
  | "A" => Some 10 | "B" => Some 11 | "C" => Some 12 | "D" => Some 13 | "E" => Some 14 | "F" => Some 15
  | _ => None
  end%char.
Fixpoint digits (base acc : Z) (s : string) : option Z :=
  match s with
  | EmptyString => Some acc
  | String c s =>
    match digit_value c with
    | Some d => if d <? base then digits base (base * acc + d) s else None
    | None => None
    end
  end.
(** Decimal without leading zero, or hexadecimal. *)
Definition number (s : string) : option Z :=
  match s with
  | String "0" EmptyString => Some 0
  | String "0" (String x (String c s)) =>
    if Ascii.eqb x "x" || Ascii.eqb x "X" then digits 16 0 (String c s) else None
  | String "0" _ => None
  | _ => digits 10 0 s
  end.

(** "When the input is broken into tokens, a semicolon is automatically inserted into the
    token stream immediately after a line's final token if that token is ..." *)
Definition ends_line (t : option tok) : bool :=
  match t with
  | Some (TId _) | Some (TNum _) | Some (TStr _) => true
  | Some (TKw x) => among x ["break"; "continue"; "fallthrough"; "return"]
  | Some (TOp x) => among x ["++"; "--"; ")"; "]"; "}"]
  | None => false
  end.

(** The longest operator or punctuation at the beginning, and the rest. *)
Definition take_operator (s : string) : option (string * string) :=
  match s with
  | String "<" (String "<" (String "=" s)) => Some ("<<=", s)
  | String ">" (String ">" (String "=" s)) => Some (">>=", s)
  | String "&" (String "^" (String "=" s)) => Some ("&^=", s)
  | String "." (String "." (String "." s)) => Some ("...", s)
  | String "&" (String "&" s) => Some ("&&", s)
  | String "|" (String "|" s) => Some ("||", s)
  | String "<" (String "-" s) => Some ("<-", s)
  | String "+" (String "+" s) => Some ("++", s)
  | String "-" (String "-" s) => Some ("--", s)
  | String "=" (String "=" s) => Some ("==", s)
  | String "!" (String "=" s) => Some ("!=", s)
  | String "<" (String "=" s) => Some ("<=", s)
  | String ">" (String "=" s) => Some (">=", s)
  | String ":" (String "=" s) => Some (":=", s)
  | String "+" (String "=" s) => Some ("+=", s)
  | String "-" (String "=" s) => Some ("-=", s)
  | String "*" (String "=" s) => Some ("*=", s)
  | String "/" (String "=" s) => Some ("/=", s)
  | String "%" (String "=" s) => Some ("%=", s)
  | String "&" (String "=" s) => Some ("&=", s)
  | String "|" (String "=" s) => Some ("|=", s)
  | String "^" (String "=" s) => Some ("^=", s)
  | String "<" (String "<" s) => Some ("<<", s)
  | String ">" (String ">" s) => Some (">>", s)
  | String "&" (String "^" s) => Some ("&^", s)
  | String "+" s => Some ("+", s)
  | String "-" s => Some ("-", s)
  | String "*" s => Some ("*", s)
  | String "/" s => Some ("/", s)
  | String "%" s => Some ("%", s)
  | String "&" s => Some ("&", s)
  | String "|" s => Some ("|", s)
  | String "^" s => Some ("^", s)
  | String "<" s => Some ("<", s)
  | String ">" s => Some (">", s)
  | String "=" s => Some ("=", s)
  | String "!" s => Some ("!", s)
  | String "(" s => Some ("(", s)
  | String ")" s => Some (")", s)
  | String "[" s => Some ("[", s)
  | String "]" s => Some ("]", s)
  | String "{" s => Some ("{", s)
  | String "}" s => Some ("}", s)
  | String "," s => Some (",", s)
  | String ";" s => Some (";", s)
  | String "." s => Some (".", s)
  | String ":" s => Some (":", s)
  | _ => None
  end.

Definition line_comment (s : string) : bool := match s with String "/" (String "/" _) => true | _ => false end.
Definition block_comment (s : string) : bool := match s with String "/" (String "*" _) => true | _ => false end.

Fixpoint lex (n : nat) (last : option tok) (s : string) : option (list tok) :=
  match n with
  | O => None
  | S n =>
    let emit t s := match lex n (Some t) s with Some ts => Some (t :: ts) | None => None end in
    match s with
    | EmptyString => Some (if ends_line last then [TOp ";"] else [])
    | String c s' =>
      if newline c then (if ends_line last then emit (TOp ";") s' else lex n last s')
      else if blank c then lex n last s'
      else if line_comment s then lex n last (snd (span (fun c => negb (newline c)) s))
      else if block_comment s then None
      else if letter c then
        let '(x, s'') := span letter_or_digit s in
        emit (if is_keyword x then TKw x else TId x) s''
      else if digit c then
        let '(x, s'') := span letter_or_digit s in
        match number x with Some z => emit (TNum z) s'' | None => None end
      else if dquote c then
        match span (fun c => negb (dquote c || backslash c || newline c)) s' with
        | (x, String d s'') => if dquote d then emit (TStr (bytes x)) s'' else None
        | _ => None
        end
      else if quote c then
        match s' with
        | String x (String d s'') =>
          if quote d && within 32 126 (code x) && negb (backslash x || quote x)
          then emit (TNum (code x)) s'' else None
        | _ => None
        end
      else match take_operator s with Some (x, s'') => emit (TOp x) s'' | None => None end
    end
  end.
Definition tokens (s : string) : option (list tok) := lex (S (String.length s)) None s.

Example tokens_case : tokens "x := 0x1F // comment
	if c == '?' { return }
" = Some [TId "x"; TOp ":="; TNum 31; TOp ";"; TKw "if"; TId "c"; TOp "=="; TNum 63; TOp "{"; TKw "return"; TOp "}"; TOp ";"].
Proof. vm_compute. reflexivity. Qed.
