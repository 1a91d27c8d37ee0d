(** * AmendProofs: proofs of C82. *)
From Coq Require Import Arith Lia.
From Verif Require Import Shell BaseFacts Words Sched Line Editor Spec Tree Cmds Complete Session SessionProofs Forget ForgetProofs LineEnd LineEndProofs EditProofs Amend.

Lemma plain_not : forall c k, plain_key c = true -> In k [ETX; BS; DEL; TAB; ESC; CR; LF] -> ceq c k = false.
Proof.
  intros c k P I. unfold plain_key in P. apply Bool.negb_true_iff in P. destruct (ceq c k) eqn:E; [|reflexivity].
  assert (X : existsb (ceq c) [ETX; BS; DEL; TAB; ESC; CR; LF] = true) by (apply existsb_exists; exists k; split; assumption). rewrite X in P. discriminate.
Qed.

(** Keys that are neither TAB nor end the line only edit. *)
Lemma edits_only : forall own x p a, ~ In TAB p -> no_eol (d_insize (x_desc x)) p (se_esc a, se_line a) ->
  let kl := ed_run (d_insize (x_desc x)) p (se_esc a, se_line a) in
  run_limits own x a p /\ snd (sess_run x a p) = mkSess (se_world a) (se_read a ++ p) (fst kl) (snd kl) /\ callbacks (fst (sess_run x a p)) = [] /\ ins (fst (sess_run x a p)) = p.
Proof.
  intros own x p. induction p as [|c r IH]; intros a T N; cbv zeta.
  - split; [exact I|]. split; [|split; reflexivity]. cbn. rewrite app_nil_r. destruct a; reflexivity.
  - destruct N as (N1 & N2). cbn [fst] in N1.
    assert (E : ends_line a c = false).
    { unfold ends_line. destruct (se_esc a =? 0) eqn:Z; [|reflexivity]. apply Nat.eqb_eq in Z. destruct (N1 Z) as (A & B). cbn [andb]. rewrite (ceq_neq c CR A), (ceq_neq c LF B). reflexivity. }
    assert (F : completes x c = false) by (unfold completes; rewrite (ceq_neq c TAB); [reflexivity|intros ->; apply T; left; reflexivity]).
    assert (St : sess_step x a c = (map EvOut (ed_out (CRLF ++ prompt (x_desc x) (show (here (se_world a)))) (se_esc a, se_line a) c),
      mkSess (se_world a) (se_read a ++ [c]) (fst (ed_step (d_insize (x_desc x)) (se_esc a, se_line a) c)) (snd (ed_step (d_insize (x_desc x)) (se_esc a, se_line a) c)))).
    { unfold sess_step. rewrite E, F. reflexivity. }
    cbn [run_limits sess_run]. rewrite St. cbn [snd].
    specialize (IH (mkSess (se_world a) (se_read a ++ [c]) (fst (ed_step (d_insize (x_desc x)) (se_esc a, se_line a) c)) (snd (ed_step (d_insize (x_desc x)) (se_esc a, se_line a) c)))
      (fun I => T (or_intror I))). cbn [se_esc se_line se_world se_read] in IH. rewrite <- surjective_pairing in IH. specialize (IH N2). cbv zeta in IH. destruct IH as (L & Sn & Cb & In').
    split; [split; [split; intros X; congruence|exact L]|]. destruct (sess_run x _ r) as [e2 a2]. cbn [fst snd] in *. split; [|split].
    + rewrite Sn, <- app_assoc. reflexivity.
    + change (callbacks (EvIn c :: ?l)) with (callbacks l). unfold callbacks in *. cbn [filter]. rewrite filter_app, Cb, app_nil_r.
      generalize (ed_out (CRLF ++ prompt (x_desc x) (show (here (se_world a)))) (se_esc a, se_line a) c). intros t. induction t; [reflexivity|assumption].
    + cbn [ins flat_map]. fold (ins e2). rewrite flat_map_app. cbn [app]. f_equal. change (ins (map EvOut (ed_out (CRLF ++ prompt (x_desc x) (show (here (se_world a)))) (se_esc a, se_line a) c)) ++ ins e2 = r). rewrite ins_map_out, In'. reflexivity.
Qed.

Lemma no_eol_app : forall n p q kl, no_eol n (p ++ q) kl <-> no_eol n p kl /\ no_eol n q (ed_run n p kl).
Proof.
  intros n p. induction p as [|c r IH]; intros q kl; cbn [app no_eol ed_run fold_left]; [tauto|]. rewrite IH. unfold ed_run. tauto.
Qed.
Lemma ed_run_app : forall n p q kl, ed_run n (p ++ q) kl = ed_run n q (ed_run n p kl).
Proof. intros. apply fold_left_app. Qed.

Lemma plain_step : forall n l c, plain_key c = true -> S (length l) < n -> ed_step n (0, l) c = (0, l ++ [c]).
Proof.
  intros n l c P L. unfold ed_step, erase_key. rewrite !(plain_not c) by (assumption || cbn; tauto). cbn [orb]. unfold stored_line. apply Nat.ltb_lt in L. rewrite L. reflexivity.
Qed.
Lemma erase_step : forall n l c, erase_key c = true -> ed_step n (0, l) c = (0, removelast l).
Proof.
  intros n l c E. unfold ed_step. rewrite E. unfold erase_key in E. destruct (ceq_spec c ETX) as [->|]; [discriminate E|reflexivity].
Qed.
Lemma erase_eol : forall c, erase_key c = true -> c <> CR /\ c <> LF /\ c <> TAB.
Proof. intros c E. split; [|split]; intros ->; discriminate E. Qed.

Lemma scrap_edits : forall n r p, scrap r p -> forall l, length l + r < n -> ed_run n p (0, l) = (0, l) /\ no_eol n p (0, l) /\ ~ In TAB p.
Proof.
  intros n r p H. induction H as [r|r c p b q P E Hp IHp Hq IHq|r o k q O K Hq IHq]; intros l L.
  - split; [reflexivity|]. split; [exact I|intros []].
  - destruct (IHp (l ++ [c])) as (A & B & C); [rewrite app_length; cbn [length]; lia|]. destruct (IHq l L) as (A' & B' & C'). destruct (erase_eol b E) as (E1 & E2 & E3).
    assert (St : ed_step n (0, l) c = (0, l ++ [c])) by (apply plain_step; [exact P|lia]).
    assert (Sb : ed_step n (0, l ++ [c]) b = (0, l)) by (rewrite erase_step by exact E; rewrite removelast_last; reflexivity).
    split; [|split].
    + change (c :: p ++ b :: q) with ([c] ++ p ++ [b] ++ q). rewrite !ed_run_app. cbn [ed_run fold_left]. rewrite St. unfold ed_run in *. rewrite A, Sb. exact A'.
    + cbn [no_eol]. split; [intros _; split; intros ->; discriminate P|]. rewrite St. apply no_eol_app. split; [exact B|]. rewrite A. cbn [no_eol]. split; [intros _; split; assumption|].
      rewrite Sb. exact B'.
    + intros [->|I]; [discriminate P|]. apply in_app_or in I as [I|[I|I]]; [exact (C I)|exact (E3 I)|exact (C' I)].
  - destruct (IHq l L) as (A & B & C).
    assert (S1 : ed_step n (0, l) ESC = (1, l)) by reflexivity.
    assert (S2 : ed_step n (1, l) o = (2, l)) by (destruct O as [->| ->]; reflexivity).
    assert (S3 : ed_step n (2, l) k = (0, l)).
    { destruct K as [P|[->| ->]]; [|reflexivity|reflexivity]. unfold ed_step, erase_key. rewrite !(plain_not k) by (assumption || cbn; tauto). reflexivity. }
    split; [|split].
    + unfold ed_run in *. cbn [fold_left]. rewrite S1, S2, S3. exact A.
    + cbn [no_eol]. rewrite S1, S2, S3. split; [intros _; split; discriminate|]. split; [discriminate|]. split; [discriminate|exact B].
    + intros [I|[I|[I|I]]]; [discriminate I|subst o; destruct O; discriminate|subst k; destruct K as [P|[P|P]]; discriminate P|exact (C I)].
Qed.

Lemma clean_no_eol : forall n p kl, ~ In CR p -> ~ In LF p -> no_eol n p kl.
Proof.
  intros n p. induction p as [|c r IH]; intros kl A B; [exact I|]. split; [intros _; split; intros ->; [apply A|apply B]; left; reflexivity|].
  apply IH; intros X; [apply A|apply B]; right; exact X.
Qed.

Lemma abandoned_edits : forall n p k l, abandoned p -> ed_run n p (k, l) = (0, []) /\ no_eol n p (k, l) /\ ~ In TAB p.
Proof.
  intros n p k l (q & -> & T & A & B). split; [|split].
  - rewrite ed_run_app. destruct (ed_run n q (k, l)). reflexivity.
  - apply clean_no_eol; intros X; apply in_app_or in X as [X|[X|[]]]; auto; discriminate X.
  - intros X; apply in_app_or in X as [X|[X|[]]]; auto; discriminate X.
Qed.

Lemma C82_proof : forall own x a s p cs, shows own x a s -> run_limits own x a cs -> se_esc a = 0 ->
  (exists r, length (se_line a) + r < d_insize (x_desc x) /\ scrap r p) \/ (se_line a = [] /\ abandoned p) ->
  (forall h, x_app x (se_read a ++ p ++ h) = x_app x (se_read a ++ h)) ->
  exists n tr evs, callbacks tr = [] /\ ins tr = p /\ forall l, n <= both_ready l ->
    (exists s', drive (app_of x) cs l s = Ok ([], s') /\ polling s' /\ lg s' = lg s ++ evs) /\
    (exists s', drive (app_of x) (p ++ cs) l s = Ok ([], s') /\ polling s' /\ lg s' = lg s ++ tr ++ evs).
Proof.
  intros own x a s p cs Hs L Z H Nm.
  assert (X : ed_run (d_insize (x_desc x)) p (se_esc a, se_line a) = (0, se_line a) /\ no_eol (d_insize (x_desc x)) p (se_esc a, se_line a) /\ ~ In TAB p).
  { rewrite Z. destruct H as [(r & R & Sc)|(E & Ab)]; [exact (scrap_edits _ r p Sc _ R)|]. rewrite E. apply abandoned_edits. exact Ab. }
  destruct X as (R & N & T). destruct (edits_only own x p a T N) as (Lp & Sn & Cb & In'). rewrite R in Sn. cbn [fst snd] in Sn.
  destruct (C69_histories_proof own x a s [] p cs Hs L Lp) as (n & evs & D).
  - rewrite Sn. cbn [sess_run snd]. split; [reflexivity|]. split; [exact Z|reflexivity].
  - rewrite Sn. cbn [sess_run snd se_read]. intros h. rewrite <- app_assoc. symmetry. apply Nm.
  - exists n, (fst (sess_run x a p)), evs. split; [exact Cb|]. split; [exact In'|]. intros l G. exact (D l G).
Qed.
