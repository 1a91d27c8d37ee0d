(** * CodesProofs: the characters with a meaning in a line or a path, by their codes (C02, C03, C10). *)
From Coq Require Import Ascii.
From Verif Require Import Shell Words Spec BaseFacts.

Lemma code_eq : forall c d, nat_of_ascii c = nat_of_ascii d -> c = d.
Proof. intros c d E. rewrite <- (ascii_nat_embedding c), <- (ascii_nat_embedding d), E. reflexivity. Qed.

Lemma ceq_code : forall c d, ceq c d = Nat.eqb (nat_of_ascii c) (nat_of_ascii d).
Proof.
  intros c d. change (ceq c d) with (Ascii.eqb c d). destruct (Nat.eqb (nat_of_ascii c) (nat_of_ascii d)) eqn:E.
  - apply Nat.eqb_eq, code_eq in E as ->. apply Ascii.eqb_refl.
  - destruct (Ascii.eqb c d) eqn:F; [|reflexivity]. apply Ascii.eqb_eq in F as ->. rewrite Nat.eqb_refl in E. discriminate.
Qed.

Lemma C03_codes_proof : forall c quoted r,
  (~ In (nat_of_ascii c) [32; 34; 92] -> lex quoted (c :: r) = Chr c :: lex quoted r) /\
  (nat_of_ascii c = 34 -> lex quoted (c :: r) = Mark :: lex (negb quoted) r) /\
  (nat_of_ascii c = 32 -> lex quoted (c :: r) = (if quoted then Chr c else Blank) :: lex quoted r) /\
  (nat_of_ascii c = 92 -> forall d, lex quoted (c :: d :: r) = (if Nat.eqb (nat_of_ascii d) 120 then [Chr c; Chr d] else [Chr d]) ++ lex quoted r).
Proof.
  intros c q r. split; [|split; [|split]].
  - intros N. cbn [lex]. rewrite !ceq_code. change (nat_of_ascii BSL) with 92. change (nat_of_ascii DQ) with 34. change (nat_of_ascii SP) with 32.
    destruct (Nat.eqb (nat_of_ascii c) 92) eqn:E1; [apply Nat.eqb_eq in E1; destruct N; rewrite E1; cbn; tauto|].
    destruct (Nat.eqb (nat_of_ascii c) 34) eqn:E2; [apply Nat.eqb_eq in E2; destruct N; rewrite E2; cbn; tauto|].
    destruct (Nat.eqb (nat_of_ascii c) 32) eqn:E3; [apply Nat.eqb_eq in E3; destruct N; rewrite E3; cbn; tauto|]. reflexivity.
  - intros E. apply (code_eq c DQ) in E as ->. reflexivity.
  - intros E. apply (code_eq c SP) in E as ->. destruct q; reflexivity.
  - intros E d. apply (code_eq c BSL) in E as ->. cbn [lex]. change (ceq BSL BSL) with true. cbv iota. rewrite ceq_code. reflexivity.
Qed.

Lemma C10_codes_proof : forall p c,
  show [] = [ascii_of_nat 47] /\ show (c :: p) = flat_map (fun d => ascii_of_nat 47 :: d) (c :: p) /\
  (plain_comp c <-> forall b, In b c -> nat_of_ascii b <> 47 /\ nat_of_ascii b <> 0).
Proof.
  intros p c. split; [reflexivity|]. split; [reflexivity|]. split.
  - intros (N1 & N2) b I. split; intros E; [apply (code_eq b SL) in E|apply (code_eq b NUL) in E]; subst b; contradiction.
  - intros H. split; intros I; destruct (H _ I) as (N1 & N2); [apply N1|apply N2]; reflexivity.
Qed.

Lemma C02_codes_proof :
  map nat_of_ascii [ETX; BS; TAB; LF; CR; ESC; DEL] = [3; 8; 9; 10; 13; 27; 127] /\
  map nat_of_ascii [NUL; SP; DQ; SL; BSL] = [0; 32; 34; 47; 92] /\ map nat_of_ascii CRLF = [13; 10].
Proof. repeat split. Qed.
