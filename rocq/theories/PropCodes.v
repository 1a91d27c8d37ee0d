(** * Properties C02, C03, C10, the characters: which codes have a meaning.

    Vocabulary: [lex], [Chr], [Mark], [Blank] in Words.v (the first half of [words]);
    [show], [plain_comp] in Spec.v (how a path is written, what a component is). *)
From Verif Require Import Shell Words Spec CodesProofs.

(** C03: in [lex], the first half of C03's [words], every character but space (32), double
    quote (34) and backslash (92) stands for itself.  A double quote opens or closes a quotation; a
    space separates words unless quoted; a backslash makes the next character stand for itself
    and goes away, except before x (120), where it stays for the hex escapes. *)
Theorem C03_codes : forall c quoted r,
  (~ In (nat_of_ascii c) [32; 34; 92] -> lex quoted (c :: r) = Chr c :: lex quoted r) /\
  (nat_of_ascii c = 34 -> lex quoted (c :: r) = Mark :: lex (negb quoted) r) /\
  (nat_of_ascii c = 32 -> lex quoted (c :: r) = (if quoted then Chr c else Blank) :: lex quoted r) /\
  (nat_of_ascii c = 92 -> forall d, lex quoted (c :: d :: r) = (if Nat.eqb (nat_of_ascii d) 120 then [Chr c; Chr d] else [Chr d]) ++ lex quoted r).
Proof. exact C03_codes_proof. Qed.
Print Assumptions C03_codes.

Example C03_codes_example :
  lex false (lit "a\ b" ++ [ascii_of_nat 34] ++ lit " c") = [Chr "a"%char; Chr " "%char; Chr "b"%char; Mark; Chr " "%char; Chr "c"%char].
Proof. reflexivity. Qed.

(** C02: each named character of the statements, by its code. *)
Theorem C02_codes :
  map nat_of_ascii [ETX; BS; TAB; LF; CR; ESC; DEL] = [3; 8; 9; 10; 13; 27; 127] /\
  map nat_of_ascii [NUL; SP; DQ; SL; BSL] = [0; 32; 34; 47; 92] /\ map nat_of_ascii CRLF = [13; 10].
Proof. exact C02_codes_proof. Qed.
Print Assumptions C02_codes.

(** C10: paths are written with the slash (47), and a component is free of it and of NUL. *)
Theorem C10_codes : forall p c,
  show [] = [ascii_of_nat 47] /\ show (c :: p) = flat_map (fun d => ascii_of_nat 47 :: d) (c :: p) /\
  (plain_comp c <-> forall b, In b c -> nat_of_ascii b <> 47 /\ nat_of_ascii b <> 0).
Proof. exact C10_codes_proof. Qed.
Print Assumptions C10_codes.

Example C10_codes_example : show [lit "dev"; lit "time"] = lit "/dev/time" /\ plain_comp (lit "dev").
Proof. split; [reflexivity|]. split; cbn; intuition discriminate. Qed.
