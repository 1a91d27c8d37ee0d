(** * ColoursProofs: proofs of C78. *)
From Coq Require Import Arith Lia.
From Verif Require Import Shell BaseFacts Words Sched Line Editor Spec Tree Cmds Complete Session SessionProofs Colours.

Lemma dec_refl : forall l, decorated l l.
Proof. induction l; constructor; auto. Qed.
Lemma dec_app : forall l m l' m', decorated l m -> decorated l' m' -> decorated (l ++ l') (m ++ m').
Proof.
  intros l m l' m' D. induction D as [|e l m D IH|t l m I D IH]; intros D'; cbn [app]; [exact D'|constructor; auto|]. rewrite <- app_assoc. constructor; auto.
Qed.

Definition dressed (t u : bytes) : Prop := decorated (map EvOut t) (map EvOut u).
Lemma dressed_refl : forall t, dressed t t.
Proof. intros t. apply dec_refl. Qed.
Lemma dressed_app : forall t u t' u', dressed t u -> dressed t' u' -> dressed (t ++ t') (u ++ u').
Proof. intros t u t' u' A B. unfold dressed. rewrite !map_app. apply dec_app; assumption. Qed.
Lemma dressed_colour : forall c code, In (ESC :: lit code) colour_codes -> dressed (colour c code) (colour (plain_cfg c) code).
Proof.
  intros c code I. unfold dressed, colour, plain_cfg. cbn [cfg_styles map]. destruct (cfg_styles c); [|constructor].
  rewrite <- (app_nil_r (map EvOut (ESC :: lit code))). constructor; [exact I|constructor].
Qed.
Lemma dressed_flat : forall {A} (f g : A -> bytes) l, (forall x, dressed (f x) (g x)) -> dressed (flat_map f l) (flat_map g l).
Proof. intros A f g l H. induction l as [|x l IH]; [constructor|]. cbn [flat_map]. apply dressed_app; auto. Qed.

Ltac code := apply dressed_colour; unfold colour_codes; cbn [In]; tauto.
Ltac parts := repeat (apply dressed_app; [first [apply dressed_refl|code]|]); try first [apply dressed_refl|code].

Lemma dressed_prompt : forall d p, dressed (prompt d p) (prompt (plain_desc d) p).
Proof. intros d p. unfold prompt. cbn [plain_desc d_cfg d_host]. parts. Qed.
Lemma dressed_name : forall c f, dressed (name_text c f) (name_text (plain_cfg c) f).
Proof. intros c f. unfold name_text. destruct (f_desc f); [|apply dressed_refl]. cbn [plain_cfg cfg_align]. parts. Qed.
Lemma dressed_help : forall c fl, dressed (help_text c fl) (help_text (plain_cfg c) fl).
Proof. intros c fl. unfold help_text. apply dressed_flat. intros f. apply dressed_app; [apply dressed_name|apply dressed_refl]. Qed.
Lemma dressed_line : forall c n, dressed (dir_line c n) (dir_line (plain_cfg c) n).
Proof. intros c n. unfold dir_line. parts. Qed.
Lemma dressed_ls : forall c d fs, dressed (ls_dir c d fs) (ls_dir (plain_cfg c) d fs).
Proof.
  intros c d fs. unfold ls_dir, ls_text. apply dressed_app; [apply dressed_line|]. apply dressed_app; [destruct (is_root d); [constructor|apply dressed_line]|].
  apply dressed_app; [apply dressed_flat; intros n; apply dressed_line|]. apply dressed_flat. intros f. apply dressed_app; [apply dressed_refl|]. apply dressed_app; [apply dressed_name|apply dressed_refl].
Qed.

Lemma spoken_plain : forall d ws l buf t, spoken (plain_desc d) ws buf t l = spoken d ws buf t l.
Proof.
  intros d ws l. induction l as [|a l IH]; intros buf t; [reflexivity|]. destruct a as [| | | |x| | | | | | | | | |]; cbn [spoken tree_call]; try apply IH.
  destruct x; [|apply IH]. destruct buf as [[]|]; apply IH.
Qed.
Lemma said_plain : forall d c ws l, said (plain_desc d) c ws l = said d c ws l.
Proof. intros. apply spoken_plain. Qed.

(** Two reactions that differ in the text printed only. *)
Definition alike (r r' : reaction) : Prop := fst (fst r) = fst (fst r') /\ snd r = snd r' /\ dressed (snd (fst r)) (snd (fst r')).
Lemma alike_refl : forall r, alike r r.
Proof. intros r. split; [reflexivity|]. split; [reflexivity|apply dressed_refl]. Qed.
Lemma alike_prints : forall w t u, dressed t u -> alike (prints_only w t) (prints_only w u).
Proof. intros w t u D. split; [reflexivity|]. split; [reflexivity|exact D]. Qed.

Lemma exec_plain : forall d e w c cb f ws, alike (do_exec d e w c cb f ws) (do_exec (plain_desc d) e w c cb f ws).
Proof.
  intros d e w c cb f ws. unfold do_exec. destruct (accepts cb (length ws)); [|apply alike_refl].
  change (hook_calls e (plain_desc d) ws) with (hook_calls e d ws).
  destruct cb; try apply alike_refl.
  - apply alike_prints. destruct (tl ws) as [|n r]; [apply dressed_help|]. destruct (denotes w n) as [g|]; [|apply dressed_refl]. destruct (f_help g); apply dressed_refl.
  - apply alike_prints. unfold list_dir. destruct (tl ws) as [|n r].
    + destruct (dir_at (here w) (w_fs w)); [apply dressed_ls|constructor].
    + destruct (dir_named (show (resolve_text (here w) n)) (w_fs w)); [apply dressed_ls|apply dressed_refl].
  - unfold do_cd. change (hook_calls e (plain_desc d) ws) with (hook_calls e d ws). rewrite said_plain. apply alike_refl.
  - unfold do_echo. destruct (tl ws) as [|t1 [|t2 [|t3 [|]]]]; try apply alike_refl. destruct (beq t2 (lit ">")); [|apply alike_refl].
    destruct (denotes w t3) as [g|]; [|apply alike_refl]. destruct (f_set g) as [k|]; [|apply alike_refl]. unfold do_calls.
    change (hook_calls e (plain_desc d) ws) with (hook_calls e d ws). rewrite said_plain. apply alike_refl.
  - unfold do_calls. change (hook_calls e (plain_desc d) ws) with (hook_calls e d ws). rewrite said_plain. apply alike_refl.
Qed.

Lemma react_plain : forall d e w c ws, alike (react d e w c ws) (react (plain_desc d) e w c ws).
Proof.
  intros d e w c ws. unfold react. destruct ws as [|n r] eqn:E; [apply alike_refl|]. rewrite <- E. cbv zeta.
  change (hook_events (plain_desc d) ws) with (hook_events d ws). change (after_hook e (plain_desc d) ws w) with (after_hook e d ws w).
  destruct (denotes (after_hook e d ws w) n) as [f|]; [|apply alike_refl]. destruct (f_exec f) as [cb|]; [|apply alike_refl].
  pose proof (exec_plain d e (after_hook e d ws w) c cb f ws) as (A & B & C).
  destruct (do_exec d e (after_hook e d ws w) c cb f ws) as [[e1 t1] w1], (do_exec (plain_desc d) e (after_hook e d ws w) c cb f ws) as [[e2 t2] w2].
  cbn [fst snd] in *. subst. split; [reflexivity|]. split; [reflexivity|exact C].
Qed.

Lemma step_plain : forall x a c, snd (sess_step (uncoloured x) a c) = snd (sess_step x a c) /\ decorated (fst (sess_step x a c)) (fst (sess_step (uncoloured x) a c)).
Proof.
  intros x a c. unfold sess_step. cbv zeta. change (env_at (uncoloured x) a c) with (env_at x a c). change (line_argv (uncoloured x) a) with (line_argv x a).
  change (completes (uncoloured x) c) with (completes x c). change (x_desc (uncoloured x)) with (plain_desc (x_desc x)).
  destruct (ends_line a c).
  - pose proof (react_plain (x_desc x) (env_at x a c) (se_world a) c (line_argv x a)) as (A & B & C).
    destruct (react (x_desc x) (env_at x a c) (se_world a) c (line_argv x a)) as [[e1 t1] w1], (react (plain_desc (x_desc x)) (env_at x a c) (se_world a) c (line_argv x a)) as [[e2 t2] w2].
    cbn [fst snd] in *. subst. split; [reflexivity|]. apply dec_app; [apply dec_refl|]. apply dec_app; [apply dec_refl|]. apply dressed_app; [exact C|apply dressed_prompt].
  - destruct (completes x c).
    + unfold complete. destruct (candidates (se_world a) (here (se_world a)) (last_word (se_line a))) as [|n [|m r]]; [split; [reflexivity|apply dec_refl]|split; [reflexivity|apply dec_refl]|].
      destruct (beq (common (n :: m :: r)) (last_word (se_line a))); (split; [reflexivity|]); [|apply dec_refl].
      cbn [fst]. apply dressed_app; [apply dressed_refl|]. apply dressed_app; [apply dressed_refl|]. apply dressed_app; [apply dressed_prompt|apply dressed_refl].
    + split; [reflexivity|]. cbn [fst]. unfold ed_out. destruct (ceq c ETX); [|apply dec_refl].
      apply dressed_app; [apply dressed_refl|]. apply dressed_app; [apply dressed_refl|apply dressed_prompt].
Qed.

Lemma run_plain : forall x cs a, snd (sess_run (uncoloured x) a cs) = snd (sess_run x a cs) /\ decorated (fst (sess_run x a cs)) (fst (sess_run (uncoloured x) a cs)).
Proof.
  intros x cs. induction cs as [|c r IH]; intros a; [split; [reflexivity|constructor]|]. cbn [sess_run].
  pose proof (step_plain x a c) as (A & B). destruct (sess_step x a c) as [e1 a1], (sess_step (uncoloured x) a c) as [e2 a2]. cbn [fst snd] in A, B. subst a2.
  specialize (IH a1). destruct IH as (C & D). destruct (sess_run x a1 r) as [f1 b1], (sess_run (uncoloured x) a1 r) as [f2 b2]. cbn [fst snd] in *. subst b2.
  split; [reflexivity|]. constructor. apply dec_app; assumption.
Qed.

(** ** Limits *)
Section Limits.
Variables (d : desc) (own : list nat).
Let d' := plain_desc d.

Lemma listable_plain : forall f, listable d f -> listable d' f.
Proof.
  intros f (A & B). split; [|exact B]. unfold d'. cbn [plain_desc d_cfg d_outsize]. unfold name_room in *. destruct (f_desc f); [|exact A].
  change (colour (plain_cfg (d_cfg d)) "[33m") with (@nil byte). change (cfg_align (plain_cfg (d_cfg d))) with (cfg_align (d_cfg d)). cbn [length]. lia.
Qed.
Lemma all_listable_plain : forall l, Forall (listable d) l -> Forall (listable d') l.
Proof. intros l. apply Forall_impl. exact listable_plain. Qed.
Lemma dir_plain : forall dd, dir_listable d dd -> dir_listable d' dd.
Proof. intros dd (A & B). split; [apply all_listable_plain; exact A|exact B]. Qed.
Lemma cat_plain : forall e ns w, cat_limits own d e w ns -> cat_limits own d' e w ns.
Proof.
  intros e. induction ns as [|n r IH]; intros w A; [exact I|]. cbn [cat_limits] in *. destruct A as (A & B & f & cb & C & D & E & F & H & K).
  split; [exact A|]. split; [exact B|]. exists f, cb. split; [exact C|]. split; [exact D|]. split; [exact E|]. split; [exact F|]. split; [exact H|apply IH; exact K].
Qed.
Lemma exec_limits_plain : forall e w cb f ws, exec_limits own d e w cb f ws -> exec_limits own d' e w cb f ws.
Proof.
  intros e w cb f ws. unfold exec_limits. change (hook_calls e d' ws) with (hook_calls e d ws). destruct cb.
  - destruct (tl ws) as [|n [|]]; auto. apply all_listable_plain.
  - destruct (tl ws) as [|p [|]]; auto; [intros A dd E; apply dir_plain, A, E|]. intros (A & B). split; [exact A|]. intros dd E. apply dir_plain, B, E.
  - auto.
  - auto.
  - intros (A & B). split; [exact A|]. intros E. apply cat_plain, B, E.
  - auto.
  - auto.
  - auto.
Qed.
Lemma line_plain : forall e w ws, line_limits own d e w ws -> line_limits own d' e w ws.
Proof.
  intros e w [|n r]; [auto|]. unfold line_limits. cbv zeta. intros (A & B & C & D). split; [exact A|]. split; [exact B|]. split; [exact C|].
  intros f cb E1 E2 E3. apply exec_limits_plain. exact (D f cb E1 E2 E3).
Qed.
End Limits.

Lemma limits_plain : forall own x cs a, run_limits own x a cs -> run_limits own (uncoloured x) a cs.
Proof.
  intros own x cs. induction cs as [|c r IH]; intros a L; [exact I|]. cbn [run_limits] in *. destruct L as ((L1 & L2) & Lr).
  split; [split|].
  - intros E. apply (line_plain (x_desc x)). exact (L1 E).
  - intros E. exact (L2 E).
  - rewrite (proj1 (step_plain x a c)). apply IH. exact Lr.
Qed.

Lemma C78_colours_proof : forall own x a s t cs, shows own x a s -> run_limits own x a cs -> shows own (uncoloured x) a t ->
  (forall m, exists q t', drive (app_of (uncoloured x)) cs m t = Ok (q, t')) /\
  exists n evs evs' b, decorated evs evs' /\
    (forall l, n <= both_ready l -> exists s', drive (app_of x) cs l s = Ok ([], s') /\ polling s' /\ lg s' = lg s ++ evs /\ shows own x b s') /\
    (forall m, n <= both_ready m -> exists t', drive (app_of (uncoloured x)) cs m t = Ok ([], t') /\ polling t' /\ lg t' = lg t ++ evs' /\ shows own (uncoloured x) b t').
Proof.
  intros own x a s t cs Hs Ls Ht. pose proof (limits_plain own x cs a Ls) as Lp.
  destruct (schedule_done own x cs a s s (quiet_by_here _ _ (shows_polling _ _ _ _ Hs)) Hs Ls) as (_ & n1 & s' & B1 & Sh1 & Lg1).
  destruct (schedule_done own (uncoloured x) cs a t t (quiet_by_here _ _ (shows_polling _ _ _ _ Ht)) Ht Lp) as (A & n2 & t' & B2 & Sh2 & Lg2).
  split; [intros m; destruct (A m) as (q & u & D); eauto|].
  pose proof (run_plain x cs a) as (Eb & De). rewrite Eb in Sh2.
  exists (n1 + n2), (fst (sess_run x a cs)), (fst (sess_run (uncoloured x) a cs)), (snd (sess_run x a cs)). split; [exact De|]. split.
  - intros l L. exists s'. split; [apply B1; lia|]. split; [apply (shows_polling _ _ _ _ Sh1)|]. split; [exact Lg1|exact Sh1].
  - intros m L. exists t'. split; [apply B2; lia|]. split; [apply (shows_polling _ _ _ _ Sh2)|]. split; [exact Lg2|exact Sh2].
Qed.
