(** * PathFacts: the path helpers of ush_utils.c against [Spec]. *)
From Verif Require Import Types Spec BaseFacts.

Lemma slashed_app : forall a b, slashed (a ++ b) = slashed a ++ slashed b.
Proof. intros. unfold slashed. apply flat_map_app. Qed.

Lemma slashed_cons : forall c p, slashed (c :: p) = SL :: c ++ slashed p.
Proof. reflexivity. Qed.

Lemma slashed_snoc : forall p c, slashed (p ++ [c]) = slashed p ++ SL :: c.
Proof. intros. rewrite slashed_app. cbn [slashed flat_map]. rewrite app_nil_r. reflexivity. Qed.

(** Every text starting with '/' is [slashed] of slash-free components. *)
Lemma slashed_decomp : forall s, exists c p, SL :: s = slashed (c :: p) /\ Forall (fun c => ~ In SL c) (c :: p).
Proof.
  induction s as [|x s IH].
  - exists [], []. split; [reflexivity|]. repeat constructor. intros [].
  - destruct IH as (c & p & E & F). destruct (ceq_spec x SL) as [->|N].
    + exists [], (c :: p). split; [|constructor; auto]. rewrite E. reflexivity.
    + exists (x :: c), p. rewrite slashed_cons in *. cbn [app]. injection E as E.
      split; [rewrite E; reflexivity|]. inversion F; subst. constructor; auto.
      intros [H|H]; auto.
Qed.

Lemma show_slashed : forall p, p <> [] -> show p = slashed p.
Proof. destruct p; [congruence|reflexivity]. Qed.

(** [slashed] is injective on slash-free components. *)
Lemma slash_free_split : forall a b x y, ~ In SL a -> ~ In SL b ->
  a ++ slashed x = b ++ slashed y -> a = b /\ slashed x = slashed y.
Proof.
  induction a as [|c a IH]; intros [|d b] x y Ha Hb E; cbn [app] in E.
  - auto.
  - destruct x; [discriminate|]. rewrite slashed_cons in E. injection E as E _.
    exfalso; apply Hb; left; auto.
  - destruct y; [discriminate|]. rewrite slashed_cons in E. injection E as E _.
    exfalso; apply Ha; left; auto.
  - injection E as -> E. apply IH in E as [-> ->]; auto; intros H; [apply Ha|apply Hb]; right; auto.
Qed.

Lemma slashed_inj : forall x y, Forall (fun c => ~ In SL c) x -> Forall (fun c => ~ In SL c) y ->
  slashed x = slashed y -> x = y.
Proof.
  induction x as [|c x IH]; intros [|d y] Fx Fy E; auto; try discriminate.
  rewrite !slashed_cons in E. injection E as E. inversion Fx; inversion Fy; subst.
  apply slash_free_split in E as [-> E]; auto. f_equal. apply IH; auto.
Qed.

Lemma path_ok_slash : forall p, path_ok p -> Forall (fun c => ~ In SL c) p.
Proof. intros p H. eapply Forall_impl; [|apply H]. intros c (_ & H1 & _); auto. Qed.

Lemma slashed_root : forall p, slashed p = [SL] -> p = [[]].
Proof.
  intros [|c p] H; [discriminate|]. rewrite slashed_cons in H. injection H as H.
  apply app_eq_nil in H as [-> H]. destruct p; [reflexivity|discriminate].
Qed.

Lemma show_inj : forall x y, path_ok x -> path_ok y -> show x = show y -> x = y.
Proof.
  intros x y Hx Hy E.
  destruct x as [|c x], y as [|d y]; auto.
  - symmetry in E. cbn [show] in E. apply slashed_root in E. injection E as -> ->.
    inversion Hy; subst. destruct H1; congruence.
  - cbn [show] in E. apply slashed_root in E. injection E as -> ->.
    inversion Hx; subst. destruct H1; congruence.
  - apply slashed_inj; auto using path_ok_slash.
Qed.

Lemma no_nul_slashed : forall p, Forall (fun c => ~ In NUL c) p -> no_nul (slashed p).
Proof.
  induction p as [|c p IH]; intros F; [apply no_nul_nil|].
  rewrite slashed_cons. inversion F; subst. apply no_nul_cons. split; [discriminate|].
  apply no_nul_app; auto.
Qed.

Lemma no_nul_slashed_inv : forall p, no_nul (slashed p) -> Forall (fun c => ~ In NUL c) p.
Proof.
  induction p as [|c p IH]; intros F; constructor.
  - rewrite slashed_cons in F. apply no_nul_cons in F as [_ F]. apply no_nul_app in F as [F _]; auto.
  - rewrite slashed_cons in F. apply no_nul_cons in F as [_ F]. apply no_nul_app in F as [_ F]; auto.
Qed.

Lemma path_ok_nul : forall p, path_ok p -> Forall (fun c => ~ In NUL c) p.
Proof. intros p H. eapply Forall_impl; [|apply H]. intros c (_ & _ & H1); auto. Qed.

Lemma show_no_nul : forall p, path_ok p -> no_nul (show p).
Proof.
  intros [|c p] H; cbn [show].
  - intros [E|[]]; discriminate.
  - apply no_nul_slashed, path_ok_nul; auto.
Qed.

(** ** Levels *)

Fixpoint count_slash (s : bytes) : nat :=
  match s with [] => 0 | c :: r => (if ceq c SL then 1 else 0) + count_slash r end.

Lemma count_slash_app : forall a b, count_slash (a ++ b) = count_slash a + count_slash b.
Proof. induction a as [|c a IH]; intros; cbn [app count_slash]; [auto|rewrite IH; lia]. Qed.

Lemma count_slash_free : forall a, ~ In SL a -> count_slash a = 0.
Proof.
  induction a as [|c a IH]; intros H; cbn [count_slash]; auto.
  rewrite ceq_neq by (intros ->; apply H; left; auto). apply IH. intros H'; apply H; right; auto.
Qed.

Lemma count_slashed : forall p, Forall (fun c => ~ In SL c) p -> count_slash (slashed p) = length p.
Proof.
  induction p as [|c p IH]; intros F; auto. rewrite slashed_cons. inversion F; subst.
  cbn [count_slash length]. rewrite ceq_refl, count_slash_app, count_slash_free, IH by auto. lia.
Qed.

Lemma levels_loop_count : forall s n, levels_loop s n = n + count_slash (tl s).
Proof.
  induction s as [|c s IH]; intros n; cbn [levels_loop tl count_slash]; [lia|].
  rewrite IH. destruct s as [|d s]; cbn [tl count_slash]; [lia|].
  destruct (ceq d SL); lia.
Qed.

Lemma levels_count_slashed : forall c p, Forall (fun c => ~ In SL c) (c :: p) ->
  slashed (c :: p) <> [SL] ->
  ush_utils_get_path_levels_count (slashed (c :: p)) = S (length p).
Proof.
  intros c p F N. unfold ush_utils_get_path_levels_count.
  rewrite beq_neq by auto.
  pose proof (count_slashed _ F) as H. rewrite slashed_cons in *.
  rewrite levels_loop_count. cbn [tl count_slash length] in *. rewrite ceq_refl in H. lia.
Qed.

Lemma levels_count_show : forall p, path_ok p ->
  ush_utils_get_path_levels_count (show p) = length p.
Proof.
  intros [|c p] H; [reflexivity|]. cbn [show length].
  apply levels_count_slashed; auto using path_ok_slash.
  intros E. apply slashed_root in E. injection E as -> ->.
  inversion H; subst. destruct H2; congruence.
Qed.

(** ** One level of a path *)

(** The characters [path_level_loop] copies. *)
Fixpoint level_prefix (level i : nat) (s : bytes) : bytes :=
  match s with
  | [] => []
  | c :: r =>
      if i <=? level then
        c :: level_prefix level (match r with c' :: _ => if ceq c' SL then S i else i | [] => i end) r
      else []
  end.

Lemma path_level_loop_eq : forall s level i out o,
  o <= length out ->
  let t := level_prefix level i s in
  path_level_loop level i s out o =
    if o + length t <? length out
    then Ok (firstn o out ++ t ++ NUL :: skipn (o + S (length t)) out)
    else Err EOob.
Proof.
  assert (W : forall (out : bytes) o x, o <= length out ->
    wr out o x = if o + 0 <? length out then Ok (firstn o out ++ x :: skipn (o + 1) out) else Err EOob).
  { intros out o x H. unfold wr. rewrite Nat.add_0_r. destruct (Nat.ltb_spec o (length out)); auto.
    destruct (split_at _ out o H0) as (a & y & r & -> & <-). f_equal.
    rewrite upd_app, firstn_app, firstn_all, Nat.sub_diag, firstn_O, app_nil_r.
    rewrite skipn_app, (skipn_all2 a) by lia.
    replace (length a + 1 - length a) with 1 by lia. reflexivity. }
  induction s as [|c s IH]; intros level i out o H; cbn [path_level_loop level_prefix length app].
  - apply W; auto.
  - destruct (i <=? level).
    + rewrite W by auto. rewrite Nat.add_0_r. cbn [length].
      destruct (Nat.ltb_spec o (length out)) as [H0|H0]; cbn [bind].
      * destruct (split_at _ out o H0) as (a & y & r & -> & <-).
        rewrite firstn_app, firstn_all, Nat.sub_diag, firstn_O, app_nil_r.
        rewrite skipn_app, (skipn_all2 a) by lia.
        replace (length a + 1 - length a) with 1 by lia. cbn [skipn app].
        rewrite IH by (rewrite app_length; cbn [length]; lia).
        cbv zeta.
        set (t := level_prefix _ _ s).
        replace (length (a ++ c :: r)) with (length (a ++ y :: r)) by (rewrite !app_length; reflexivity).
        destruct (Nat.ltb_spec (S (length a) + length t) (length (a ++ y :: r)));
          destruct (Nat.ltb_spec (length a + S (length t)) (length (a ++ y :: r))); try lia; auto.
        f_equal.
        rewrite firstn_app, (firstn_all2 a) by lia.
        replace (S (length a) - length a) with 1 by lia. cbn [firstn].
        rewrite <- app_assoc. cbn [app]. do 4 f_equal.
        rewrite !skipn_app, !(skipn_all2 a) by lia. cbn [app].
        replace (S (length a) + S (length t) - length a) with (S (S (length t))) by lia.
        replace (length a + S (S (length t)) - length a) with (S (S (length t))) by lia.
        reflexivity.
      * destruct (Nat.ltb_spec (o + S (length (level_prefix level match s with
             | [] => i | c' :: _ => if ceq c' SL then S i else i end s))) (length out)); [lia|auto].
    + apply W; auto.
Qed.

Lemma level_prefix_comp : forall level i c p, ~ In SL c -> i <= level ->
  forall c0, level_prefix level i (c0 :: c ++ slashed p) =
    c0 :: c ++ match p with
         | [] => []
         | _ => level_prefix level (S i) (slashed p)
         end.
Proof.
  intros level i c p. revert i. induction c as [|x c IH]; intros i Hc Hi c0.
  - cbn [app]. cbn [level_prefix]. destruct (Nat.leb_spec i level); [|lia].
    destruct p as [|d p]; [reflexivity|]. rewrite slashed_cons at 1. rewrite ceq_refl. reflexivity.
  - cbn [app]. remember (x :: c ++ slashed p) as l. cbn [level_prefix].
    destruct (Nat.leb_spec i level); [|lia]. subst l.
    rewrite ceq_neq by (intros ->; apply Hc; left; auto).
    f_equal. apply IH; auto. intros H'; apply Hc; right; auto.
Qed.

Lemma level_prefix_done : forall level i s, level < i -> level_prefix level i s = [].
Proof. intros level i [|c s] H; cbn [level_prefix]; auto. destruct (Nat.leb_spec i level); [lia|auto]. Qed.

Lemma level_prefix_slashed : forall p i k, Forall (fun c => ~ In SL c) p -> 1 <= k ->
  level_prefix (i + k - 1) i (slashed p) = slashed (firstn k p).
Proof.
  induction p as [|c p IH]; intros i k F Hk.
  - destruct k; [lia|reflexivity].
  - destruct k as [|k]; [lia|]. cbn [firstn]. rewrite !slashed_cons. inversion F; subst.
    rewrite level_prefix_comp by (auto; lia). f_equal. f_equal.
    destruct p as [|d p]; [destruct k; reflexivity|].
    destruct k as [|k].
    + cbn [firstn]. rewrite level_prefix_done by lia. reflexivity.
    + replace (i + S (S k) - 1) with (S i + S k - 1) by lia. apply IH; auto; lia.
Qed.

(** ush_utils_get_path_level: exact behaviour, for a level from 1 on. *)
Lemma get_path_level_eq : forall p k out, Forall (fun c => ~ In SL c) p -> 1 <= k ->
  let t := slashed (firstn k p) in
  ush_utils_get_path_level k (slashed p) out =
    if length t <? length out then Ok (t ++ NUL :: skipn (S (length t)) out) else Err EOob.
Proof.
  intros p k out F Hk t. unfold ush_utils_get_path_level.
  destruct (Nat.eqb_spec k 0); [lia|].
  rewrite path_level_loop_eq by lia. cbv zeta.
  replace (level_prefix k 1 (slashed p)) with t.
  - reflexivity.
  - unfold t. rewrite <- (level_prefix_slashed p 1 k) by auto. f_equal. lia.
Qed.

(** ** Parent path and last component *)

Lemma last_slash : forall p c, ~ In SL c -> forall r,
  (* scanning back from the end of [slashed (p ++ [c])] *)
  path_upper_loop (slashed p ++ SL :: c ++ r) (length (slashed p) + S (length c)) =
    match slashed p with
    | [] => wr (SL :: c ++ r) 1 NUL
    | _ => wr (slashed p ++ SL :: c ++ r) (length (slashed p)) NUL
    end.
Proof.
  intros p c Hc. induction c as [|x c IH] using rev_ind; intros r.
  - cbn [app length]. rewrite Nat.add_1_r. cbn [path_upper_loop].
    rewrite rd_app by auto. cbn [bind]. rewrite ceq_refl. cbn [negb].
    destruct (slashed p); cbn [length Nat.eqb app Nat.add]; auto.
  - rewrite app_length; cbn [length].
    replace (length (slashed p) + S (length c + 1)) with (S (length (slashed p) + S (length c))) by lia.
    cbn [path_upper_loop].
    replace (slashed p ++ SL :: (c ++ [x]) ++ r) with ((slashed p ++ SL :: c) ++ x :: r)
      by (rewrite <- !app_assoc; reflexivity).
    rewrite rd_app by (rewrite app_length; reflexivity). cbn [bind].
    rewrite ceq_neq by (intros ->; apply Hc; apply in_or_app; right; left; auto).
    cbn [negb].
    replace ((slashed p ++ SL :: c) ++ x :: r) with (slashed p ++ SL :: c ++ (x :: r))
      by (rewrite <- !app_assoc; reflexivity).
    rewrite IH.
    + rewrite <- (app_assoc c). reflexivity.
    + intros H; apply Hc; apply in_or_app; auto.
Qed.

(** ush_utils_path_upper on [slashed (p ++ [c])]. *)
Lemma path_upper_slashed : forall p c, ~ In SL c -> no_nul (slashed (p ++ [c])) ->
  slashed (p ++ [c]) <> [SL] ->
  exists b, ush_utils_path_upper (slashed (p ++ [c]) ++ [NUL]) = Ok b /\ c_str b 0 = Ok (show p).
Proof.
  intros p c Hc N E. unfold ush_utils_path_upper. rewrite c_strlen_0 by auto. cbn [bind].
  destruct (Nat.eqb_spec (length (slashed (p ++ [c]))) 1) as [L|L].
  - exfalso. apply E. rewrite slashed_snoc, app_length in *. cbn [length] in L.
    destruct (slashed p); cbn [length] in L; [|lia]. destruct c; cbn [length] in L; [auto|lia].
  - rewrite slashed_snoc in *. rewrite <- app_assoc. cbn [app].
    rewrite app_length. cbn [length]. rewrite last_slash by auto.
    destruct p as [|d p].
    + cbn [slashed flat_map app show]. destruct c as [|x c].
      * exfalso. apply E. reflexivity.
      * cbn [app]. exists (SL :: NUL :: c ++ [NUL]). split; [reflexivity|].
        apply (c_str_0 [SL]). intros [H|[]]; discriminate.
    + cbn [show]. apply no_nul_app in N as [N _].
      destruct (slashed (d :: p)) as [|z zs] eqn:S; [discriminate|]. rewrite <- S in *. clear S z zs.
      rewrite wr_app by auto. eexists; split; [reflexivity|]. apply c_str_0; auto.
Qed.

Lemma path_upper_show : forall p, path_ok p ->
  exists b, ush_utils_path_upper (show p ++ [NUL]) = Ok b /\
    c_str b 0 = Ok (match p with [] => [] | _ => show (removelast p) end).
Proof.
  intros p H. destruct p as [|d q] using rev_ind.
  - exists [NUL; NUL]. split; reflexivity.
  - clear IHq. rewrite removelast_last.
    replace (match q ++ [d] with [] => [] | _ => show q end) with (show q) by (destruct q; reflexivity).
    rewrite show_slashed by (destruct q; discriminate).
    apply path_upper_slashed.
    + apply path_ok_slash in H. apply Forall_app in H as [_ H]. inversion H; auto.
    + apply no_nul_slashed, path_ok_nul; auto.
    + intros E. apply slashed_root in E. destruct q as [|x q]; [|destruct q; discriminate].
      injection E as ->. inversion H; subst. destruct H2; congruence.
Qed.

Lemma path_last_loop_free : forall a c r, ~ In SL c ->
  path_last_loop (a ++ SL :: c ++ r) (S (length a) + length c) = S (length a).
Proof.
  intros a c. induction c as [|x c IH] using rev_ind; intros r Hc.
  - cbn [length app]. rewrite Nat.add_0_r. cbn [path_last_loop].
    rewrite nth_error_app2, Nat.sub_diag by lia. cbn [nth_error]. rewrite ceq_refl. reflexivity.
  - rewrite app_length; cbn [length].
    replace (S (length a) + (length c + 1)) with (S (S (length a) + length c)) by lia.
    cbn [path_last_loop].
    rewrite nth_error_app2 by lia.
    replace (S (length a) + length c - length a) with (S (length c)) by lia.
    cbn [nth_error]. rewrite <- app_assoc. rewrite nth_error_app2, Nat.sub_diag by lia.
    cbn [app nth_error]. rewrite ceq_neq by (intros ->; apply Hc, in_or_app; right; left; auto).
    apply IH. intros H; apply Hc, in_or_app; auto.
Qed.

(** ush_utils_path_last *)
Lemma path_last_slashed : forall p c, ~ In SL c -> slashed (p ++ [c]) <> [SL] ->
  ush_utils_path_last (slashed (p ++ [c])) = c.
Proof.
  intros p c Hc E. unfold ush_utils_path_last. rewrite slashed_snoc in *.
  destruct (Nat.eqb_spec (length (slashed p ++ SL :: c)) 1) as [L|L].
  - exfalso. apply E. rewrite app_length in L. cbn [length] in L.
    destruct (slashed p); cbn [length] in L; [|lia]. destruct c; cbn [length] in L; [auto|lia].
  - pose proof (path_last_loop_free (slashed p) c [] Hc) as H. rewrite app_nil_r in H.
    replace (length (slashed p ++ SL :: c)) with (S (length (slashed p)) + length c)
      by (rewrite app_length; cbn [length]; lia).
    rewrite H.
    rewrite skipn_app, skipn_all2 by lia.
    replace (S (length (slashed p)) - length (slashed p)) with 1 by lia. reflexivity.
Qed.

Lemma path_last_show : forall p, path_ok p ->
  ush_utils_path_last (show p) = match p with [] => [SL] | _ => last p [] end.
Proof.
  intros p H. destruct p as [|c q] using rev_ind; [reflexivity|]. clear IHq.
  rewrite last_last.
  replace (match q ++ [c] with [] => [SL] | _ => c end) with c by (destruct q; reflexivity).
  rewrite show_slashed by (destruct q; discriminate).
  apply path_last_slashed.
  - apply path_ok_slash in H. apply Forall_app in H as [_ H]. inversion H; auto.
  - intros E. apply slashed_root in E. destruct q as [|x q]; [|destruct q; discriminate].
    injection E as ->. inversion H; subst. destruct H2; congruence.
Qed.

(** ush_utils_join_path: exact. *)
Definition join_text (p name : bytes) : bytes :=
  if beq p (lit "/") then p ++ name else p ++ SL :: name.

Lemma join_path_eq : forall p name out, no_nul p -> no_nul name ->
  let t := join_text p name in
  (length t < length out ->
   ush_utils_join_path p name out = Ok (t ++ NUL :: skipn (S (length t)) out)) /\
  (length out <= length t -> ush_utils_join_path p name out = Err EOob).
Proof.
  intros p name out Np Nn t. unfold ush_utils_join_path.
  assert (SK : forall (l : bytes) a b, skipn a (skipn b l) = skipn (b + a) l).
  { intros l a b. apply skipn_add. }
  destruct (le_lt_dec (length out) (length p)) as [L|L].
  - rewrite c_strcpy_err by lia. cbn [bind]. split; intros H; auto.
    unfold t, join_text in H. destruct (beq p (lit "/")); rewrite app_length in H; cbn [length] in H; lia.
  - rewrite c_strcpy_0 by auto. cbn [bind]. rewrite c_str_0 by auto. cbn [bind].
    unfold t, join_text. destruct (beq p (lit "/")) eqn:B.
    + rewrite app_length. split; intros H.
      * rewrite c_strcat_0 by (auto; rewrite skipn_length; lia).
        rewrite <- app_assoc. cbn [app]. rewrite SK. cbn [Nat.add]. reflexivity.
      * apply c_strcat_err; auto. rewrite skipn_length; lia.
    + assert (length (lit "/") = 1) as L1 by reflexivity.
      rewrite app_length; cbn [length]. split; intros H.
      * rewrite c_strcat_0 by (auto; rewrite skipn_length, L1; lia). cbn [bind].
        change (lit "/") with [SL]. rewrite SK. cbn [app].
        replace (p ++ SL :: NUL :: skipn (S (length p) + length [SL]) out)
          with ((p ++ [SL]) ++ NUL :: skipn (S (length p) + 1) out) by (rewrite <- app_assoc; reflexivity).
        rewrite c_strcat_0.
        -- rewrite SK, <- !app_assoc. cbn [app].
           replace (S (length p) + 1 + length name) with (S (length p + S (length name))) by lia.
           reflexivity.
        -- apply no_nul_app; split; auto. intros [E|[]]; discriminate.
        -- rewrite skipn_length. lia.
      * destruct (le_lt_dec (length out) (S (length p))) as [L2|L2].
        -- rewrite c_strcat_err; auto. rewrite skipn_length, L1. lia.
        -- rewrite c_strcat_0 by (auto; rewrite skipn_length, L1; lia). cbn [bind].
           change (lit "/") with [SL]. rewrite SK. cbn [app].
           replace (p ++ SL :: NUL :: skipn (S (length p) + length [SL]) out)
             with ((p ++ [SL]) ++ NUL :: skipn (S (length p) + 1) out) by (rewrite <- app_assoc; reflexivity).
           rewrite c_strcat_err; auto.
           ++ apply no_nul_app; split; auto. intros [E|[]]; discriminate.
           ++ rewrite skipn_length. lia.
Qed.

Lemma join_text_show : forall p name, path_ok p -> join_text (show p) name = slashed (p ++ [name]).
Proof.
  intros p name H. unfold join_text. rewrite slashed_snoc.
  destruct p as [|c p].
  - reflexivity.
  - destruct (beq_spec (show (c :: p)) (lit "/")) as [E|E]; auto.
    cbn [show] in E. apply slashed_root in E. injection E as -> ->. inversion H; subst. destruct H2; congruence.
Qed.
