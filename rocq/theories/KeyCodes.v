(** * KeyCodes: the codes of the keys the line editor treats specially. *)
From Verif Require Import Base Editor.

Lemma C02_key_codes_proof : forall c,
  (plain_key c = true <-> ~ In (nat_of_ascii c) [3; 8; 9; 10; 13; 27; 127]) /\
  (erase_key c = true <-> In (nat_of_ascii c) [8; 127]).
Proof.
  intros c. rewrite <- (ascii_nat_embedding c). generalize (nat_ascii_bounded c).
  generalize (nat_of_ascii c). intros n Hn. rewrite nat_ascii_embedding by exact Hn.
  assert (D : forall (b : bool) l, b = existsb (Nat.eqb n) l -> (b = true <-> In n l)).
  { intros b l ->. rewrite existsb_exists. split.
    - intros (x & I & E). apply Nat.eqb_eq in E. subst. exact I.
    - intros I. exists n. split; [exact I|apply Nat.eqb_refl]. }
  assert (A : forall f : nat -> bool, forallb f (seq 0 256) = true -> f n = true).
  { intros f F. rewrite forallb_forall in F. apply F. apply in_seq. lia. }
  split.
  - assert (E : negb (plain_key (ascii_of_nat n)) = existsb (Nat.eqb n) [3; 8; 9; 10; 13; 27; 127]).
    { apply eqb_prop. apply (A (fun n => eqb (negb (plain_key (ascii_of_nat n))) (existsb (Nat.eqb n) [3; 8; 9; 10; 13; 27; 127]))).
      vm_compute. reflexivity. }
    rewrite <- (D _ _ E). destruct (plain_key (ascii_of_nat n)); cbn [negb]; intuition congruence.
  - apply D. apply eqb_prop.
    apply (A (fun n => eqb (erase_key (ascii_of_nat n)) (existsb (Nat.eqb n) [8; 127]))). vm_compute. reflexivity.
Qed.
