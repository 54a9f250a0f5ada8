(** The Go files of /repo as text (SourceText.v: every file except the tests, character for
    character), read by the lexer, parser and type checker of GoLexer.v, GoParser.v and
    GoElab.v.  [read_package name errs texts] is the program of the package, or [None] if the
    texts are not a well-typed package in the part of Go these files treat. *)
From Coq Require Import String ZArith List Bool.
From Verif Require Import Base Spec SpecCp949 Cp949Model GoLang GoElab SourceText GoSource SourceSpec GoTextFacts.
Import ListNotations.
Local Open Scope list_scope.

(** * C119 The text of the packages is the program the theorems are about *)
Theorem C119_text_hangul : read_package "hangul" errs text_hangul = Some prog_hangul.
Proof. exact hangul_text. Qed.
Print Assumptions C119_text_hangul.
Theorem C119_text_hanja : read_package "hanja" errs text_hanja = Some prog_hanja.
Proof. exact hanja_text. Qed.
Print Assumptions C119_text_hanja.
Theorem C119_text_cp949 : read_package "cp949" errs text_cp949 = Some prog_cp949.
Proof. exact cp949_text. Qed.
Print Assumptions C119_text_cp949.
(** So what is proved of those programs holds of whatever the texts say; for example C95,
    C100 and C101. *)
Theorem C119_text_From : forall p, read_package "cp949" errs text_cp949 = Some p ->
  forall grow E rd wr s v data,
  has_nil (arrs E s) -> slice_holds (arrs E s) v data -> Forall is_byte data ->
  exists out err s' o, calls grow E rd wr p "From" [v] s (VTuple [out; VErr err]) s' /\
    kept (arrs E s) (arrs E s') /\ objs E s' = objs E s ++ [o] /\ ext E s' = ext E s /\
    ((exists rs, decodes data rs /\ err = None /\ slice_holds (arrs E s') out (utf8 rs) /\ fresh (arrs E s) out) \/
     (truncated data /\ err = Some ErrCP949UnexpectedStream /\ out = VSlice 0 0 0 0)).
Proof. exact text_From. Qed.
Print Assumptions C119_text_From.
Theorem C119_text_hangul_pure : forall p, read_package "hangul" errs text_hangul = Some p ->
  exists F : string * list val -> val,
  forall grow E rd wr cs s, Forall hangul_call cs -> hangul_memory (arrs E s) ->
  exists s', calls_seq grow E rd wr p cs s (map F cs) s' /\
    kept (arrs E s) (arrs E s') /\ objs E s' = objs E s /\ ext E s' = ext E s.
Proof. exact text_hangul_pure. Qed.
Print Assumptions C119_text_hangul_pure.
Theorem C119_text_hanja_pure : forall p, read_package "hanja" errs text_hanja = Some p ->
  exists F : string * list val -> val,
  forall grow E rd wr cs s, Forall hanja_call cs ->
  exists s', calls_seq grow E rd wr p cs s (map F cs) s' /\
    kept (arrs E s) (arrs E s') /\ objs E s' = objs E s /\ ext E s' = ext E s.
Proof. exact text_hanja_pure. Qed.
Print Assumptions C119_text_hanja_pure.
(* a small package, read and run *)
Definition small : string := "package small

// Clamp keeps x within a byte.
func Clamp(x int) (b byte, ok bool) {
	if y := x / 2; 0 <= y && y < 0x80 {
		b = byte(x)
		return b, true
	}
	return // zero values
}
".
Example C119_case :
  match read_package "small" errs [small] with
  | Some p => map (fun x => run (fun _ n => n) unit (fun _ _ _ => (0, [], None, tt)) (fun _ _ _ => (0, None, tt)) p 9
                              "Clamp" [VInt x] (mkState unit [] [] tt)) [7; 255; 256; -9]
  | None => []
  end%Z =
  map (fun v => Ok (v, mkState unit [] [] tt))
    [VTuple [VInt 7; VBool true]; VTuple [VInt 255; VBool true]; VTuple [VInt 0; VBool false]; VTuple [VInt 0; VBool false]].
Proof. vm_compute. reflexivity. Qed.
(* rejected: operands of different types, an undeclared name, a name declared twice, break
   outside a loop, a missing result, an assignment to a constant *)
Example C119_rejected :
  map (fun body => read_package "p" errs ["package p
const K = 1
func f(a int, r rune) int {
" ++ body ++ "
}
"]%string) ["return a + r"; "return b"; "a := 1
return a"; "break"; "return"; "K = 2
return a"]%string = [None; None; None; None; None; None] /\
  read_package "p" errs ["package p
const K = 1
func f(a int, r rune) int {
	return a + K
}
"]%string = Some [("f"%string, mkFunc ["a"; "r"]%string [] (Block [Return [Arith Add Int (Var "a") (Lit 1)]]))].
Proof. split; vm_compute; reflexivity. Qed.
