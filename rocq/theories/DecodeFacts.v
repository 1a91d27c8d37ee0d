(** * DecodeFacts: ush_utils_decode_ascii against [Spec.decode]. *)
From Verif Require Import Types Spec BaseFacts.

(** Properties of all 256 bytes, checked one by one by the kernel. *)
Definition all_bytes : list byte := map ascii_of_nat (seq 0 256).

Lemma all_bytes_In : forall c, In c all_bytes.
Proof.
  intros c. apply in_map_iff. exists (nat_of_ascii c). split.
  - apply ascii_nat_embedding.
  - apply in_seq. pose proof (nat_ascii_bounded c). lia.
Qed.

Lemma for_all_bytes : forall P : byte -> bool, forallb P all_bytes = true -> forall c, P c = true.
Proof. intros P H c. rewrite forallb_forall in H. apply H, all_bytes_In. Qed.

Lemma hex_value_eq : forall c, hex_to_dec c = hex_value c.
Proof.
  intros c. apply N.eqb_eq.
  apply (for_all_bytes (fun c => (hex_to_dec c =? hex_value c)%N)). vm_compute. reflexivity.
Qed.

Lemma hex_pair_eq : forall h l,
  ascii_of_N (N.lor (N.shiftl (hex_to_dec h) 4 mod 256) (hex_to_dec l)) =
  ascii_of_N (16 * hex_value h + hex_value l).
Proof.
  assert (T : forallb (fun h => forallb (fun l =>
    ceq (ascii_of_N (N.lor (N.shiftl h 4 mod 256) l)) (ascii_of_N (16 * h + l)))
      [0;1;2;3;4;5;6;7;8;9;10;11;12;13;14;15]%N) [0;1;2;3;4;5;6;7;8;9;10;11;12;13;14;15]%N = true)
    by (vm_compute; reflexivity).
  assert (R : forall c, In (hex_value c) [0;1;2;3;4;5;6;7;8;9;10;11;12;13;14;15]%N).
  { intros c. 
    assert (E : existsb (N.eqb (hex_value c)) [0;1;2;3;4;5;6;7;8;9;10;11;12;13;14;15]%N = true).
    { apply (for_all_bytes (fun c => existsb (N.eqb (hex_value c)) [0;1;2;3;4;5;6;7;8;9;10;11;12;13;14;15]%N)).
      vm_compute. reflexivity. }
    apply existsb_exists in E as (x & Hx & E). apply N.eqb_eq in E. congruence. }
  intros h l. rewrite !hex_value_eq. apply ceq_true.
  rewrite forallb_forall in T. specialize (T _ (R h)). rewrite forallb_forall in T. apply (T _ (R l)).
Qed.

(** What is still to be produced in each state of the loop. *)
Definition decode_st (state : nat) (val : N) (s : bytes) : bytes :=
  match state with
  | 0 => decode s
  | 1 => decode (BSL :: s)
  | 2 => match s with h :: l :: r => ascii_of_N (16 * hex_value h + hex_value l) :: decode r | _ => [] end
  | _ => match s with l :: r => ascii_of_N (N.lor val (hex_to_dec l)) :: decode r | _ => [] end
  end.

Lemma stored_length : forall m o d, o + length d <= length m -> length (stored m o d) = length m.
Proof. intros. unfold stored. rewrite !app_length, firstn_length, skipn_length. lia. Qed.

Lemma stored_cons : forall m o x d, o + S (length d) <= length m ->
  stored (upd m o x) (S o) d = stored m o (x :: d).
Proof.
  intros m o x d L. destruct (split_at _ m o ltac:(lia)) as (a & y & r & -> & <-).
  rewrite upd_app. unfold stored. cbn [length].
  rewrite !firstn_app, (firstn_all2 (n := S (length a)) a), (firstn_all2 (n := length a) a) by lia.
  replace (S (length a) - length a) with 1 by lia. rewrite Nat.sub_diag. cbn [firstn].
  rewrite app_nil_r, <- !app_assoc. cbn [app]. do 3 f_equal.
  rewrite !skipn_app, !(skipn_all2 a) by lia. cbn [app].
  replace (S (length a) + length d - length a) with (S (length d)) by lia.
  replace (length a + S (length d) - length a) with (S (length d)) by lia. reflexivity.
Qed.

Lemma stored_nil : forall m o, stored m o [] = m.
Proof. intros. unfold stored. cbn [app length]. rewrite Nat.add_0_r. apply firstn_skipn. Qed.

(** The loop: [s] is unread, output goes to [o], which is not ahead of the reader or
    is behind the whole input. *)
Lemma decode_loop_eq : forall s fuel m i o max ret state val,
  no_nul s -> length s < fuel ->
  (forall j, j <= length s -> nth_error m (i + j) = nth_error (s ++ [NUL]) j) ->
  (o + (match state with 0 => 0 | _ => 1 end) <= i \/ i + length s < o) ->
  let d := firstn (max - ret) (decode_st state val s) in
  o + length d <= length m ->
  decode_loop fuel m i o max ret state val = Ok (stored m o d, ret + length d).
Proof.
  induction s as [|c s IH]; intros fuel m i o max ret state val N F R P d L.
  - destruct fuel as [|f]; [lia|]. cbn [decode_loop].
    specialize (R 0 ltac:(lia)) as R0. rewrite Nat.add_0_r in R0. cbn [app nth_error] in R0.
    unfold rd. rewrite R0. cbn [bind]. rewrite ceq_refl. cbn [orb].
    assert (D : d = []). { subst d. destruct state as [|[|[|?]]]; cbn [decode_st decode]; apply firstn_nil. }
    rewrite D, stored_nil. cbn [length]. rewrite Nat.add_0_r. reflexivity.
  - destruct fuel as [|f]; [lia|]. cbn [decode_loop].
    specialize (R 0 ltac:(lia)) as R0. rewrite Nat.add_0_r in R0. cbn [app nth_error] in R0.
    unfold rd at 1. rewrite R0. cbn [bind].
    apply no_nul_cons in N as [Nc Ns]. rewrite ceq_neq by auto. cbn [orb].
    cbn [length] in F, R, P.
    destruct (Nat.ltb_spec ret max) as [LM|LM]; cbn [negb].
    2:{ assert (D : d = []). { subst d. replace (max - ret) with 0 by lia. reflexivity. }
        rewrite D, stored_nil. cbn [length]. rewrite Nat.add_0_r. reflexivity. }
    assert (Rn : forall j, j <= length s -> nth_error m (S i + j) = nth_error (s ++ [NUL]) j).
    { intros j Hj. specialize (R (S j) ltac:(lia)). cbn [app nth_error] in R.
      replace (S i + j) with (i + S j) by lia. auto. }
    (* a byte is stored *)
    assert (Step : forall x rest v', decode_st state val (c :: s) = x :: rest ->
              rest = decode s ->
              wr m o x = Ok (upd m o x) /\
              decode_loop f (upd m o x) (S i) (S o) max (S ret) 0 v' = Ok (stored m o d, ret + length d)).
    { intros x rest v' E Er. subst rest.
      assert (Lo : o < length m).
      { subst d. rewrite E in L. replace (max - ret) with (S (max - S ret)) in L by lia.
        cbn [firstn length] in L. lia. }
      split; [apply wr_ok; auto|].
      rewrite IH; auto; try lia.
      - subst d. rewrite E. replace (max - ret) with (S (max - S ret)) by lia.
        cbn [firstn length decode_st]. rewrite stored_cons.
        + f_equal. f_equal. lia.
        + rewrite E in L. replace (max - ret) with (S (max - S ret)) in L by lia. cbn [firstn length] in L. lia.
      - intros j Hj. rewrite upd_nth_other; [auto|]. destruct P; destruct state; lia.
      - rewrite upd_length. subst d. rewrite E in L.
        replace (max - ret) with (S (max - S ret)) in L by lia. cbn [firstn length] in L.
        cbn [decode_st]. lia. }
    destruct state as [|[|[|st']]].
    + destruct (ceq_spec c BSL) as [->|Nb].
      * rewrite IH; auto; try lia.
      * destruct (Step c (decode s) val) as [W1 W2]; auto.
        { cbn [decode_st decode]. rewrite ceq_neq by auto. reflexivity. }
        rewrite W1. cbn [bind]. exact W2.
    + destruct (ceq_spec c "x"%char) as [->|Nx].
      * assert (D : decode_st 1 val ("x"%char :: s) = decode_st 2 val s).
        { cbn [decode_st decode]. rewrite !ceq_refl. destruct s as [|h [|l s]]; reflexivity. }
        rewrite IH; auto; try lia; rewrite <- D; auto.
      * destruct (Step c (decode s) val) as [W1 W2]; auto.
        { cbn [decode_st decode]. rewrite ceq_refl, ceq_neq by auto. reflexivity. }
        rewrite W1. cbn [bind]. exact W2.
    + set (v := (N.shiftl (hex_to_dec c) 4 mod 256)%N).
      assert (D : decode_st 2 val (c :: s) = decode_st 3 v s).
      { cbn [decode_st]. destruct s as [|l s]; [reflexivity|].
        unfold v. rewrite hex_pair_eq. reflexivity. }
      rewrite IH; auto; try lia; rewrite <- D; auto.
    + destruct (Step (ascii_of_N (N.lor val (hex_to_dec c))) (decode s) (N.lor val (hex_to_dec c))) as [W1 W2]; auto.
      cbv zeta. rewrite W1. cbn [bind]. exact W2.
Qed.

Theorem decode_ascii_eq : forall s m i o max,
  no_nul s ->
  (forall j, j <= length s -> nth_error m (i + j) = nth_error (s ++ [NUL]) j) ->
  (o <= i \/ i + length s < o) ->
  let d := firstn max (decode s) in
  o + length d <= length m ->
  ush_utils_decode_ascii m i o max = Ok (stored m o d, length d).
Proof.
  intros s m i o max N R P d L. unfold ush_utils_decode_ascii.
  subst d. rewrite (decode_loop_eq s); auto.
  - cbn [decode_st]. rewrite Nat.sub_0_r. reflexivity.
  - assert (nth_error m (i + length s) = Some NUL).
    { rewrite R by lia. rewrite nth_error_app2, Nat.sub_diag by lia. reflexivity. }
    assert (i + length s < length m) by (apply nth_error_Some; congruence). lia.
  - destruct P; [left; lia|right; lia].
  - cbn [decode_st]. rewrite Nat.sub_0_r. auto.
Qed.

Lemma decode_length : forall n s, length s <= n -> length (decode s) <= length s.
Proof.
  induction n as [|n IH]; intros s L.
  - destruct s; [auto|cbn [length] in L; lia].
  - destruct s as [|c s]; [auto|]. cbn [decode length] in *.
    destruct (ceq c BSL).
    + destruct s as [|d s]; [cbn [length]; lia|]. cbn [length] in L.
      destruct (ceq d "x"%char).
      * destruct s as [|h [|l s]]; cbn [length] in *; try lia. specialize (IH s ltac:(lia)). lia.
      * cbn [length]. specialize (IH s ltac:(lia)). lia.
    + cbn [length]. specialize (IH s ltac:(lia)). lia.
Qed.

Lemma decode_length_le : forall s, length (decode s) <= length s.
Proof. intros. eapply decode_length; eauto. Qed.

(** In place, on the string at offset |a|. *)
Theorem decode_in_place : forall a s r max, no_nul s ->
  let d := firstn max (decode s) in
  ush_utils_decode_ascii (a ++ s ++ NUL :: r) (length a) (length a) max =
    Ok (a ++ d ++ skipn (length d) s ++ NUL :: r, length d).
Proof.
  intros a s r max N d.
  assert (Ld : length d <= length s).
  { subst d. rewrite firstn_length. pose proof (decode_length_le s). lia. }
  rewrite (decode_ascii_eq s).
  - fold d. f_equal. f_equal. unfold stored.
    rewrite firstn_app, firstn_all, Nat.sub_diag, firstn_O, app_nil_r. f_equal. f_equal.
    rewrite skipn_app, skipn_all2 by lia. cbn [app].
    replace (length a + length d - length a) with (length d) by lia.
    rewrite skipn_app. replace (length d - length s) with 0 by lia. reflexivity.
  - auto.
  - intros j Hj. rewrite nth_error_app2 by lia. replace (length a + j - length a) with j by lia.
    change (NUL :: r) with ([NUL] ++ r). rewrite app_assoc. apply nth_error_app1.
    rewrite app_length. cbn [length]. lia.
  - left; lia.
  - fold d. rewrite !app_length. cbn [length]. lia.
Qed.

(** No escapes: nothing changes. *)
Lemma decode_plain : forall s, ~ In BSL s -> decode s = s.
Proof.
  induction s as [|c s IH]; intros H; [reflexivity|]. cbn [decode].
  rewrite ceq_neq by (intros ->; apply H; left; auto). rewrite IH; auto. intros H'; apply H; right; auto.
Qed.

Lemma decode_encode_byte : forall u c r, decode (encode_byte u c ++ r) = c :: decode r.
Proof.
  intros u c r. unfold encode_byte. cbn [app decode]. rewrite !ceq_refl. f_equal.
  apply ceq_true.
  apply (for_all_bytes (fun c => ceq (ascii_of_N (16 * hex_value (hex_digit u (N_of_ascii c / 16)) +
       hex_value (hex_digit u (N_of_ascii c mod 16)))) c)).
  destruct u; vm_compute; reflexivity.
Qed.

Lemma decode_encode : forall u d, decode (encode u d) = d.
Proof.
  induction d as [|c d IH]; [reflexivity|]. unfold encode. cbn [flat_map].
  rewrite decode_encode_byte. f_equal. exact IH.
Qed.

Lemma encode_no_nul : forall u d, no_nul (encode u d).
Proof.
  induction d as [|c d IH]; [apply no_nul_nil|]. unfold encode. cbn [flat_map].
  apply no_nul_app. split; auto. unfold no_nul, encode_byte.
  assert (E : existsb (ceq NUL) (encode_byte u c) = false).
  { apply negb_true_iff. apply (for_all_bytes (fun c => negb (existsb (ceq NUL) (encode_byte u c)))).
    destruct u; vm_compute; reflexivity. }
  intros H. assert (existsb (ceq NUL) (encode_byte u c) = true); [|congruence].
  apply existsb_exists. exists NUL. split; [exact H|reflexivity].
Qed.
