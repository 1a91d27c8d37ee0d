(** * BaseFacts: lemmas about the C string primitives. *)
From Verif Require Import Base.

Ltac bsimp := repeat match goal with
  | H : bind ?m ?f = Ok ?x |- _ => 
      let E := fresh "E" in destruct m eqn:E; cbn [bind] in H; [|discriminate H]
  end.

Lemma ceq_spec : forall a b, reflect (a = b) (ceq a b).
Proof. intros; unfold ceq; apply Ascii.eqb_spec. Qed.

Lemma ceq_refl : forall a, ceq a a = true.
Proof. intros; unfold ceq; apply Ascii.eqb_refl. Qed.

Lemma ceq_true : forall a b, ceq a b = true -> a = b.
Proof. intros a b H. destruct (ceq_spec a b); congruence. Qed.

Lemma ceq_false : forall a b, ceq a b = false -> a <> b.
Proof. intros a b H. destruct (ceq_spec a b); congruence. Qed.

Lemma ceq_neq : forall a b, a <> b -> ceq a b = false.
Proof. intros a b H. destruct (ceq_spec a b); congruence. Qed.

Lemma beq_spec : forall a b, reflect (a = b) (beq a b).
Proof.
  induction a as [|x a IH]; destruct b as [|y b]; cbn [beq]; try (constructor; congruence).
  destruct (ceq_spec x y) as [->|N]; cbn [andb].
  - destruct (IH b) as [->|N]; constructor; congruence.
  - constructor; congruence.
Qed.

Lemma beq_refl : forall a, beq a a = true.
Proof. intros a. destruct (beq_spec a a); congruence. Qed.

Lemma beq_true : forall a b, beq a b = true -> a = b.
Proof. intros a b H. destruct (beq_spec a b); congruence. Qed.

Lemma beq_neq : forall a b, a <> b -> beq a b = false.
Proof. intros a b H. destruct (beq_spec a b); congruence. Qed.

Lemma beq_false : forall a b, beq a b = false -> a <> b.
Proof. intros a b H. destruct (beq_spec a b); congruence. Qed.

Lemma beq_sym : forall a b, beq a b = beq b a.
Proof. intros a b. destruct (beq_spec a b), (beq_spec b a); congruence. Qed.

Lemma prefixb_spec : forall p s, prefixb p s = true <-> exists r, s = p ++ r.
Proof.
  induction p as [|x p IH]; intros s; cbn [prefixb].
  - split; [exists s; reflexivity|reflexivity].
  - destruct s as [|y s]; cbn [app].
    + split; [discriminate|]. intros (r & H); discriminate.
    + rewrite andb_true_iff, IH. split.
      * intros [E (r & ->)]. apply ceq_true in E; subst. eauto.
      * intros (r & H). injection H as -> ->. split; [apply ceq_refl|eauto].
Qed.

(** ** Arrays *)

Lemma upd_length : forall A (b : list A) i x, length (upd b i x) = length b.
Proof. induction b as [|y b IH]; destruct i; intros; cbn [upd length]; auto. Qed.

Lemma wr_ok : forall A (b : list A) i x, i < length b -> wr b i x = Ok (upd b i x).
Proof. intros. unfold wr. destruct (Nat.ltb_spec i (length b)); [auto|lia]. Qed.

Lemma wr_inv : forall A (b b' : list A) i x, wr b i x = Ok b' -> i < length b /\ b' = upd b i x.
Proof.
  intros A b b' i x. unfold wr. destruct (Nat.ltb_spec i (length b)); [|discriminate].
  intros H'; injection H' as <-. auto.
Qed.

Lemma wr_length : forall A (b b' : list A) i x, wr b i x = Ok b' -> length b' = length b.
Proof. intros A b b' i x H. apply wr_inv in H as [_ ->]. apply upd_length. Qed.

Lemma upd_app : forall A (a : list A) y r x, upd (a ++ y :: r) (length a) x = a ++ x :: r.
Proof. induction a; intros; cbn [upd app length]; congruence. Qed.

Lemma wr_app : forall A (a : list A) y r x n, n = length a -> wr (a ++ y :: r) n x = Ok (a ++ x :: r).
Proof. intros; subst. rewrite wr_ok, upd_app; auto. rewrite app_length; cbn [length]; lia. Qed.

Lemma rd_app : forall A (a : list A) y r n, n = length a -> rd (a ++ y :: r) n = Ok y.
Proof.
  intros; subst. unfold rd. rewrite nth_error_app2, Nat.sub_diag by lia. reflexivity.
Qed.

Lemma rd_ok : forall A (b : list A) i, i < length b -> exists x, rd b i = Ok x.
Proof.
  intros A b i H. unfold rd. destruct (nth_error b i) eqn:E; [eauto|].
  apply nth_error_None in E. lia.
Qed.

Lemma rd_inv : forall A (b : list A) i x, rd b i = Ok x -> nth_error b i = Some x.
Proof. intros A b i x. unfold rd. destruct (nth_error b i); congruence. Qed.

Lemma rd_bound : forall A (b : list A) i x, rd b i = Ok x -> i < length b.
Proof. intros A b i x H. apply rd_inv in H. apply nth_error_Some. congruence. Qed.

Lemma upd_nth_same : forall A (b : list A) i x, i < length b -> nth_error (upd b i x) i = Some x.
Proof.
  induction b as [|y b IH]; intros [|i] x H; cbn [upd nth_error length] in *; try lia; auto.
  apply IH. lia.
Qed.

Lemma upd_nth_other : forall A (b : list A) i j x, i <> j -> nth_error (upd b i x) j = nth_error b j.
Proof.
  induction b as [|y b IH]; intros [|i] [|j] x H; cbn [upd nth_error]; auto; try congruence.
Qed.

Lemma split_at : forall A (b : list A) i, i < length b ->
  exists a y r, b = a ++ y :: r /\ length a = i.
Proof.
  induction b as [|y b IH]; intros i H; cbn [length] in H; [lia|].
  destruct i as [|i].
  - exists [], y, b; auto.
  - destruct (IH i ltac:(lia)) as (a & z & r & -> & L).
    exists (y :: a), z, r; cbn [app length]; auto.
Qed.

(** ** Strings *)

Lemma no_nul_nil : no_nul [].
Proof. intros []. Qed.

Lemma no_nul_cons : forall c s, no_nul (c :: s) <-> c <> NUL /\ no_nul s.
Proof. unfold no_nul; cbn [In]; intros; split; intuition. Qed.

Lemma no_nul_app : forall a b, no_nul (a ++ b) <-> no_nul a /\ no_nul b.
Proof. unfold no_nul; intros; rewrite in_app_iff; intuition. Qed.

Lemma c_str0_app : forall s r, no_nul s -> c_str0 (s ++ NUL :: r) = Ok s.
Proof.
  induction s as [|c s IH]; intros r H; cbn [app c_str0].
  - rewrite ceq_refl; reflexivity.
  - apply no_nul_cons in H as [H1 H2]. rewrite ceq_neq, IH by auto. reflexivity.
Qed.

Lemma c_str0_inv : forall b s, c_str0 b = Ok s -> no_nul s /\ exists r, b = s ++ NUL :: r.
Proof.
  induction b as [|c b IH]; intros s H; cbn [c_str0] in H; [discriminate|].
  destruct (ceq_spec c NUL) as [->|N].
  - injection H as <-. split; [apply no_nul_nil|]. exists b; reflexivity.
  - destruct (c_str0 b) as [t|] eqn:E; cbn [bind] in H; [|discriminate].
    injection H as <-. destruct (IH t eq_refl) as (H1 & r & ->).
    split; [apply no_nul_cons; auto|]. exists r; reflexivity.
Qed.

Lemma c_str_app : forall a s r n, n = length a -> no_nul s -> c_str (a ++ s ++ NUL :: r) n = Ok s.
Proof.
  intros; subst. unfold c_str. rewrite skipn_app, skipn_all, Nat.sub_diag by lia.
  cbn [app skipn]. apply c_str0_app; auto.
Qed.

Lemma c_str_0 : forall s r, no_nul s -> c_str (s ++ NUL :: r) 0 = Ok s.
Proof. intros. apply (c_str_app []); auto. Qed.

Lemma c_strlen_app : forall a s r n, n = length a -> no_nul s ->
  c_strlen (a ++ s ++ NUL :: r) n = Ok (length s).
Proof. intros. unfold c_strlen. rewrite c_str_app; auto. Qed.

Lemma c_strlen_0 : forall s r, no_nul s -> c_strlen (s ++ NUL :: r) 0 = Ok (length s).
Proof. intros. apply (c_strlen_app []); auto. Qed.

(** A buffer with a NUL at or after [off] holds a string there. *)
Lemma c_str0_ok : forall l, In NUL l -> exists s, c_str0 l = Ok s.
Proof.
  induction l as [|c l IH]; intros H; [destruct H|]. cbn [c_str0].
  destruct (ceq_spec c NUL) as [->|N]; [eauto|].
  destruct H as [H|H]; [congruence|]. destruct (IH H) as (s & ->). cbn [bind]. eauto.
Qed.

Lemma c_str_ok : forall b off, In NUL (skipn off b) -> exists s, c_str b off = Ok s.
Proof. intros b off H. apply c_str0_ok. exact H. Qed.

Lemma c_str_inv : forall b off s, c_str b off = Ok s ->
  no_nul s /\ exists a r, b = a ++ s ++ NUL :: r /\ length a = off.
Proof.
  intros b off s H. unfold c_str in H. pose proof H as H0. apply c_str0_inv in H as (H1 & r & H2).
  split; auto. exists (firstn off b), r. split.
  - rewrite <- H2. symmetry. apply firstn_skipn.
  - apply firstn_length_le. destruct (le_lt_dec off (length b)); auto.
    rewrite skipn_all2 in H2 by lia. destruct s; discriminate.
Qed.

Lemma wr_bytes_ok : forall b off s, off + length s <= length b ->
  wr_bytes b off s = Ok (firstn off b ++ s ++ skipn (off + length s) b).
Proof.
  intros. unfold wr_bytes. destruct (Nat.leb_spec (off + length s) (length b)); [auto|lia].
Qed.

Lemma wr_bytes_err : forall b off s, length b < off + length s -> wr_bytes b off s = Err EOob.
Proof.
  intros. unfold wr_bytes. destruct (Nat.leb_spec (off + length s) (length b)); [lia|auto].
Qed.

Lemma wr_bytes_length : forall b off s b', wr_bytes b off s = Ok b' -> length b' = length b.
Proof.
  intros b off s b'. unfold wr_bytes. destruct (Nat.leb_spec (off + length s) (length b)); [|discriminate].
  intros H'; injection H' as <-. rewrite !app_length, firstn_length, skipn_length. lia.
Qed.

(** strcpy to the start of an array *)
Lemma c_strcpy_0 : forall b s, length s < length b ->
  c_strcpy b 0 s = Ok (s ++ NUL :: skipn (S (length s)) b).
Proof.
  intros b s H. unfold c_strcpy. rewrite wr_bytes_ok.
  - cbn [firstn app]. rewrite <- app_assoc. cbn [app Nat.add].
    rewrite app_length; cbn [length]. rewrite Nat.add_1_r. reflexivity.
  - rewrite app_length; cbn [length]; lia.
Qed.

Lemma c_strcpy_err : forall b off s, length b <= off + length s -> c_strcpy b off s = Err EOob.
Proof.
  intros. unfold c_strcpy. apply wr_bytes_err. rewrite app_length; cbn [length]; lia.
Qed.

Lemma c_strcpy_length : forall b off s b', c_strcpy b off s = Ok b' -> length b' = length b.
Proof. intros b off s b' H. eapply wr_bytes_length; eauto. Qed.

Lemma c_strcpy_ok : forall b off s, off + length s < length b ->
  c_strcpy b off s = Ok (firstn off b ++ s ++ NUL :: skipn (off + S (length s)) b).
Proof.
  intros b off s H. unfold c_strcpy. rewrite wr_bytes_ok.
  - rewrite <- app_assoc. cbn [app]. rewrite app_length; cbn [length].
    rewrite (Nat.add_1_r (length s)). reflexivity.
  - rewrite app_length; cbn [length]; lia.
Qed.

(** strcpy after a known part *)
Lemma c_strcpy_app : forall a r s n, n = length a -> length s < length r ->
  c_strcpy (a ++ r) n s = Ok (a ++ s ++ NUL :: skipn (S (length s)) r).
Proof.
  intros a r s n -> H. rewrite c_strcpy_ok by (rewrite app_length; lia).
  rewrite firstn_app, firstn_all, Nat.sub_diag, firstn_O, app_nil_r.
  rewrite skipn_app, skipn_all2 by lia. cbn [app].
  replace (length a + S (length s) - length a) with (S (length s)) by lia. reflexivity.
Qed.

(** strcat to the string at the start of an array *)
Lemma c_strcat_0 : forall t r s, no_nul t -> length s <= length r ->
  c_strcat (t ++ NUL :: r) 0 s = Ok (t ++ s ++ NUL :: skipn (length s) r).
Proof.
  intros t r s N H. unfold c_strcat. rewrite c_strlen_0 by auto. cbn [bind Nat.add].
  rewrite c_strcpy_app by (auto; cbn [length]; lia). reflexivity.
Qed.

Lemma c_strcat_err : forall t r s, no_nul t -> length r < length s ->
  c_strcat (t ++ NUL :: r) 0 s = Err EOob.
Proof.
  intros t r s N H. unfold c_strcat. rewrite c_strlen_0 by auto. cbn [bind Nat.add].
  apply c_strcpy_err. rewrite app_length; cbn [length]; lia.
Qed.

Lemma local_array_length : forall n, length (local_array n) = n.
Proof. intros; apply repeat_length. Qed.

Lemma skipn_add : forall A b a (l : list A), skipn a (skipn b l) = skipn (b + a) l.
Proof.
  induction b as [|b IH]; intros a l; auto. destruct l as [|x l]; cbn [skipn Nat.add]; auto.
  destruct a; reflexivity.
Qed.
