(** * SizesProofs: proofs of C68. *)
From Coq Require Import Arith Lia.
From Verif Require Import Shell BaseFacts Words Sched Line Editor Spec Tree Cmds Complete Session SessionProofs Interrupt Sizes.

Lemma spoken_sizes : forall d d' ws l buf t, d_cfg d = d_cfg d' ->
  (let n := match buf with Some (full, _) => length full | None => 0 end in
   n + length (formatted l) < d_outsize d /\ n + length (formatted l) < d_outsize d') ->
  spoken d ws buf t l = spoken d' ws buf t l.
Proof.
  intros d d' ws l. induction l as [|a l IH]; intros buf t C F; [reflexivity|]. cbv zeta in F.
  assert (Lf : match buf with Some (full, _) => length full | None => 0 end + length (formatted l) <= match buf with Some (full, _) => length full | None => 0 end + length (formatted (a :: l))).
  { unfold formatted. cbn [flat_map]. rewrite app_length. lia. }
  assert (Gn : forall t', spoken d ws None t' l = spoken d' ws None t' l).
  { intros t'. apply IH; [exact C|]. cbv zeta. lia. }
  assert (Gs : forall t', spoken d ws buf t' l = spoken d' ws buf t' l).
  { intros t'. apply IH; [exact C|]. cbv zeta. lia. }
  destruct a as [| | | |x| | | | | | | | | |]; cbn [spoken tree_call print_text]; rewrite <- ?C; auto.
  - destruct x as [u|]; [|apply Gn].
    destruct buf as [[full p]|].
    + assert (L : length (full ++ u) + length (formatted l) < d_outsize d /\ length (full ++ u) + length (formatted l) < d_outsize d').
      { rewrite app_length. unfold formatted in F. cbn [flat_map] in F. rewrite app_length in F. unfold formatted. lia. }
      unfold printf_text. destruct (Nat.ltb_spec (length (full ++ u)) (d_outsize d)); [|lia]. destruct (Nat.ltb_spec (length (full ++ u)) (d_outsize d')); [|lia].
      apply IH; [exact C|exact L].
    + assert (L : length u + length (formatted l) < d_outsize d /\ length u + length (formatted l) < d_outsize d').
      { unfold formatted in F. cbn [flat_map] in F. rewrite app_length in F. unfold formatted. lia. }
      unfold printf_text. destruct (Nat.ltb_spec (length u) (d_outsize d)); [|lia]. destruct (Nat.ltb_spec (length u) (d_outsize d')); [|lia].
      apply IH; [exact C|exact L].
Qed.

Lemma said_sizes : forall d d' c ws l, d_cfg d = d_cfg d' -> 2 + length (formatted l) < d_outsize d -> 2 + length (formatted l) < d_outsize d' ->
  said d c ws l = said d' c ws l.
Proof.
  intros d d' c ws l C F F'. unfold said. apply spoken_sizes; [exact C|]. cbv zeta.
  assert (length (eol_echo c) <= 2) by (unfold eol_echo; destruct (ceq c CR); cbn; lia). lia.
Qed.

Definition fits_in (e : env) (d : desc) (ws : list bytes) (m : nat) : Prop :=
  let fit (calls : list action) := 2 + length (formatted (hook_calls e d ws ++ calls)) < m in
  (forall k f, fit (e_exec e k f ws)) /\ (forall k f t, fit (e_set e k f t)) /\ fit [].

Lemma react_sizes : forall i o p i' o' p' hst ex cf e w c ws,
  let d := mkDesc i o p hst ex cf in let d' := mkDesc i' o' p' hst ex cf in
  fits_in e d ws o -> fits_in e d ws o' -> react d e w c ws = react d' e w c ws.
Proof.
  intros i o p i' o' p' hst ex cf e w c ws d d' (F1 & F2 & F3) (G1 & G2 & G3).
  assert (Hk : hook_calls e d' ws = hook_calls e d ws) by reflexivity.
  assert (S1 : forall k f, said d c ws (hook_calls e d ws ++ e_exec e k f ws) = said d' c ws (hook_calls e d ws ++ e_exec e k f ws)).
  { intros k f. apply said_sizes; [reflexivity|apply F1|apply G1]. }
  assert (S2 : forall k f t, said d c [] (hook_calls e d ws ++ e_set e k f t) = said d' c [] (hook_calls e d ws ++ e_set e k f t)).
  { intros k f t. apply said_sizes; [reflexivity|apply F2|apply G2]. }
  assert (S3 : said d c ws (hook_calls e d ws) = said d' c ws (hook_calls e d ws)).
  { rewrite app_nil_r in F3, G3. apply said_sizes; [reflexivity|exact F3|exact G3]. }
  unfold react. destruct ws as [|name r] eqn:Ews; [reflexivity|]. rewrite <- Ews in *.
  change (hook_events d' ws) with (hook_events d ws). change (after_hook e d' ws w) with (after_hook e d ws w). cbv zeta.
  destruct (denotes (after_hook e d ws w) name) as [f|]; [|reflexivity]. destruct (f_exec f) as [cb|]; [|reflexivity].
  set (w1 := after_hook e d ws w).
  assert (E : do_exec d e w1 c cb f ws = do_exec d' e w1 c cb f ws); [|rewrite E; reflexivity].
  unfold do_exec. change (msg d' ST_COMMAND_WRONG_ARGUMENTS) with (msg d ST_COMMAND_WRONG_ARGUMENTS).
  destruct (accepts cb (length ws)); [|reflexivity]. destruct cb; try reflexivity.
  - unfold do_cd. rewrite Hk, S3. reflexivity.
  - unfold do_echo. destruct (tl ws) as [|t1 [|t2 [|t3 [|]]]]; try reflexivity. destruct (beq t2 (lit ">")); [|reflexivity].
    destruct (denotes w1 t3) as [g|]; [|reflexivity]. destruct (f_set g) as [k|]; [|reflexivity]. unfold do_calls. rewrite Hk, S2. reflexivity.
  - unfold do_calls. rewrite Hk, S1. reflexivity.
Qed.

Lemma step_sizes : forall x y a c, same_but_sizes x y -> S (length (se_line a)) < d_insize (x_desc x) -> S (length (se_line a)) < d_insize (x_desc y) ->
  modest (d_insize (x_desc x)) (d_outsize (x_desc x)) x -> modest (d_insize (x_desc x)) (d_outsize (x_desc y)) x -> sess_step x a c = sess_step y a c.
Proof.
  intros [dx fx] [dy fy] a c (Eh & Ee & Ec & Ef) Lx Ly Mx My. destruct dx as [i o p hst ex cf], dy as [i' o' p' hst' ex' cf'].
  cbn [x_desc x_app d_host d_exec d_cfg d_insize d_outsize] in *. subst hst' ex' cf'.
  unfold sess_step. cbn [x_desc]. cbv zeta. unfold line_argv, env_at, completes. cbn [x_desc x_app d_insize d_cfg].
  assert (Ki : kept_line i (se_line a) = se_line a) by (unfold kept_line; destruct (Nat.ltb_spec (S (length (se_line a))) i); [reflexivity|lia]).
  assert (Ki' : kept_line i' (se_line a) = se_line a) by (unfold kept_line; destruct (Nat.ltb_spec (S (length (se_line a))) i'); [reflexivity|lia]).
  rewrite Ki, Ki', <- Ef.
  destruct (ends_line a c).
  - rewrite (react_sizes i o p i' o' p' hst ex cf (fx (se_read a ++ [c])) (se_world a) c (argv_of (se_line a))); [reflexivity|exact (Mx _ _ Lx)|exact (My _ _ Lx)].
  - destruct (ceq c TAB && cfg_autocomp cf); [reflexivity|].
    assert (Es : ed_step i (se_esc a, se_line a) c = ed_step i' (se_esc a, se_line a) c).
    { unfold ed_step, stored_line. destruct (Nat.ltb_spec (S (length (se_line a))) i); [|lia]. destruct (Nat.ltb_spec (S (length (se_line a))) i'); [|lia]. reflexivity. }
    rewrite Es. reflexivity.
Qed.

Lemma C68_run_proof : forall x y cs a, same_but_sizes x y ->
  short_lines (d_insize (x_desc x)) x a cs -> short_lines (d_insize (x_desc y)) x a cs ->
  modest (d_insize (x_desc x)) (d_outsize (x_desc x)) x -> modest (d_insize (x_desc x)) (d_outsize (x_desc y)) x ->
  sess_run x a cs = sess_run y a cs.
Proof.
  intros x y cs. induction cs as [|c cs IH]; intros a Sm Sx Sy Mx My; [reflexivity|]. cbn [short_lines] in Sx, Sy. destruct Sx as (L1 & Sx), Sy as (L2 & Sy).
  cbn [sess_run]. pose proof (step_sizes x y a c Sm L1 L2 Mx My) as E. rewrite <- E. destruct (sess_step x a c) as [evs a1]. cbn [snd] in Sx, Sy.
  rewrite (IH a1 Sm Sx Sy Mx My). reflexivity.
Qed.

Lemma C68_devices_proof : forall own own' x y a s t cs, same_but_sizes x y ->
  short_lines (d_insize (x_desc x)) x a cs -> short_lines (d_insize (x_desc y)) x a cs ->
  modest (d_insize (x_desc x)) (d_outsize (x_desc x)) x -> modest (d_insize (x_desc x)) (d_outsize (x_desc y)) x ->
  shows own x a s -> run_limits own x a cs -> shows own' y a t -> run_limits own' y a cs ->
  forall l m s' t', drive (app_of x) cs l s = Ok ([], s') -> polling s' -> drive (app_of y) cs m t = Ok ([], t') -> polling t' ->
  exists evs, lg s' = lg s ++ evs /\ lg t' = lg t ++ evs.
Proof.
  intros own own' x y a s t cs Sm Sx Sy Mx My Hs Ls Ht Lt l m s' t' D1 P1 D2 P2.
  destruct (schedule_proof own x cs a s s l [] s' (quiet_by_here _ _ (shows_polling _ _ _ _ Hs)) Hs Ls D1) as (p & s2 & E & Q & _ & Lg).
  destruct (schedule_proof own' y cs a t t m [] t' (quiet_by_here _ _ (shows_polling _ _ _ _ Ht)) Ht Lt D2) as (p' & t2 & E' & Q' & _ & Lg').
  rewrite app_nil_r in E, E'. subst p p'. rewrite (polling_quiet _ _ _ P1 Q) in Lg. rewrite (polling_quiet _ _ _ P2 Q') in Lg'.
  rewrite <- (C68_run_proof x y cs a Sm Sx Sy Mx My) in Lg'. eauto.
Qed.

(** ** Larger buffers *)
Definition no_larger (d d' : desc) : Prop := d_insize d <= d_insize d' /\ d_outsize d <= d_outsize d' /\ d_pathmax d <= d_pathmax d' /\
  d_host d = d_host d' /\ d_exec d = d_exec d' /\ d_cfg d = d_cfg d'.

Section Larger.
Variables (d d' : desc) (own : list nat).
Hypothesis N : no_larger d d'.

Lemma allowed_larger : forall w o, allowed (d_pathmax d) own w o -> allowed (d_pathmax d') own w o.
Proof. destruct N as (_ & _ & Lp & _). intros w [p id fl|t|id fl|id|t] A; cbn [allowed] in *; intuition lia. Qed.
Lemma all_allowed_larger : forall os w, all_allowed (d_pathmax d) own os w -> all_allowed (d_pathmax d') own os w.
Proof. induction os as [|o r IH]; intros w A; [exact I|]. cbn [all_allowed] in *. destruct A as (A & B). split; [apply allowed_larger; exact A|apply IH; exact B]. Qed.
Lemma room_larger : forall l, room_for d l -> room_for d' l.
Proof. destruct N as (_ & Lo & _). unfold room_for. intros l [A|A]; [left|right]; lia. Qed.
Lemma hook_larger : forall e ws, hook_calls e d' ws = hook_calls e d ws.
Proof. destruct N as (_ & _ & _ & _ & E & _). intros. unfold hook_calls. rewrite E. reflexivity. Qed.
Lemma after_hook_larger : forall e ws w, after_hook e d' ws w = after_hook e d ws w.
Proof. intros. unfold after_hook. rewrite hook_larger. reflexivity. Qed.
Lemma names_larger : forall fs, names_ok (d_pathmax d) fs -> names_ok (d_pathmax d') fs.
Proof. destruct N as (_ & _ & Lp & _). intros fs A x f I J. destruct (A x f I J) as (B & C). split; [exact B|lia]. Qed.
Lemma sought_larger : forall w n, sought d w n -> sought d' w n.
Proof. destruct N as (_ & _ & Lp & _). intros w n [A|A]; [left; exact A|right; lia]. Qed.
Lemma calls_larger : forall w ws hook l, calls_well own d w ws hook l -> calls_well own d' w ws hook l.
Proof. intros w ws hook l (A & B & C & D). split; [exact A|]. split; [apply room_larger; exact B|]. split; [apply all_allowed_larger; exact C|exact D]. Qed.
Lemma listable_larger : forall f, listable d f -> listable d' f.
Proof. destruct N as (_ & Lo & _ & _ & _ & C). intros f (A & B). split; [rewrite <- C; lia|exact B]. Qed.
Lemma all_listable_larger : forall l, Forall (listable d) l -> Forall (listable d') l.
Proof. intros l. apply Forall_impl. exact listable_larger. Qed.
Lemma dir_larger : forall dd, dir_listable d dd -> dir_listable d' dd.
Proof. destruct N as (_ & Lo & _). intros dd (A & B). split; [apply all_listable_larger; exact A|]. destruct B as [B|B]; [left; lia|right; exact B]. Qed.
Lemma dumpable_larger : forall t, dumpable d t -> dumpable d' t.
Proof. destruct N as (_ & Lo & _ & _ & _ & C). intros t (A & B & E & F). unfold dumpable. rewrite <- C. split; [exact A|]. split; [exact B|]. lia. Qed.
Lemma cat_larger : forall e ns w, cat_limits own d e w ns -> cat_limits own d' e w ns.
Proof.
  intros e. induction ns as [|n r IH]; intros w A; [exact I|]. cbn [cat_limits] in *. destruct A as (A & B & f & cb & C & D & E & (F & G) & H & K).
  split; [apply names_larger; exact A|]. split; [apply sought_larger; exact B|]. exists f, cb. split; [exact C|]. split; [exact D|]. split; [exact E|].
  split; [split; [exact F|apply all_allowed_larger; exact G]|]. split; [exact H|apply IH; exact K].
Qed.
Lemma exec_larger : forall e w cb f ws, exec_limits own d e w cb f ws -> exec_limits own d' e w cb f ws.
Proof.
  destruct N as (_ & _ & Lp & _). intros e w cb f ws. unfold exec_limits. rewrite !hook_larger. destruct cb.
  - destruct (tl ws) as [|n [|]]; auto; [apply all_listable_larger|apply sought_larger].
  - destruct (tl ws) as [|p [|]]; auto; [intros A dd E; apply dir_larger, A, E|]. intros (A & B). split; [lia|]. intros dd E. apply dir_larger, B, E.
  - destruct (tl ws) as [|p [|]]; auto. lia.
  - auto.
  - intros (A & B). split; [revert A; apply Forall_impl, sought_larger|]. intros E. apply cat_larger, B, E.
  - destruct (tl ws) as [|n [|]]; auto. intros (A & B). split; [apply sought_larger; exact A|]. intros g k E1 E2. destruct (B g k E1 E2) as (C & D & E).
    split; [exact C|]. split; [apply dumpable_larger; exact D|apply calls_larger; exact E].
  - destruct (tl ws) as [|t [|o [|n [|]]]]; auto. intros (A & B). split; [apply sought_larger; exact A|]. intros g k E1 E2. destruct (B g k E1 E2) as (C & D). split; [exact C|apply calls_larger; exact D].
  - apply calls_larger.
Qed.
Lemma line_larger : forall e w ws, line_limits own d e w ws -> line_limits own d' e w ws.
Proof.
  intros e w [|n r]; [auto|]. unfold line_limits. rewrite hook_larger, after_hook_larger. cbv zeta. intros (A & (B1 & B2 & B3) & C & D).
  split; [apply calls_larger; exact A|]. split; [split; [exact B1|split; [exact B2|apply names_larger; exact B3]]|]. split; [apply sought_larger; exact C|].
  intros f cb E1 E2 E3. apply exec_larger, D; assumption.
Qed.
Lemma tab_larger : forall w l, tab_limits d w l -> tab_limits d' w l.
Proof. destruct N as (Li & _ & Lp & _). intros w l (A & B & (C1 & C2) & D). split; [exact A|]. split; [exact B|]. split; [split; lia|exact D]. Qed.
End Larger.

Lemma run_larger : forall own x y cs a, no_larger (x_desc x) (x_desc y) -> (forall h, x_app x h = x_app y h) ->
  short_lines (d_insize (x_desc x)) x a cs -> modest (d_insize (x_desc x)) (d_outsize (x_desc x)) x ->
  run_limits own x a cs -> run_limits own y a cs /\ sess_run x a cs = sess_run y a cs.
Proof.
  intros own x y cs. induction cs as [|c r IH]; intros a N Ef Sh Mo Li; [split; reflexivity|].
  cbn [run_limits short_lines] in *. destruct Sh as (L1 & Sh), Li as ((L2 & L3) & Li).
  pose proof N as (Ni & No & _ & Nh & Ne & Nc).
  assert (Sm : same_but_sizes x y) by (split; [exact Nh|split; [exact Ne|split; [exact Nc|exact Ef]]]).
  assert (Mo' : modest (d_insize (x_desc x)) (d_outsize (x_desc y)) x).
  { intros h l L. destruct (Mo h l L) as (A & B & C). split; [|split]; [intros k f; pose proof (A k f)|intros k f t; pose proof (B k f t)|]; cbv zeta in *; lia. }
  pose proof (step_sizes x y a c Sm L1 ltac:(lia) Mo Mo') as E. destruct (IH _ N Ef Sh Mo Li) as (R1 & R2). split.
  - split; [|rewrite <- E; exact R1]. split.
    + intros En. unfold line_argv, env_at, kept_line in *. rewrite <- Ef. apply (line_larger (x_desc x) (x_desc y) own N).
      destruct (Nat.ltb_spec (S (length (se_line a))) (d_insize (x_desc x))); [|lia]. destruct (Nat.ltb_spec (S (length (se_line a))) (d_insize (x_desc y))); [|lia]. exact (L2 En).
    + intros En. apply (tab_larger (x_desc x) (x_desc y) N). apply L3. unfold completes in *. rewrite Nc. exact En.
  - cbn [sess_run]. rewrite <- E. destruct (sess_step x a c) as [evs a1]. cbn [snd] in R2. rewrite R2. reflexivity.
Qed.

Lemma C68_larger_proof : forall own x y a s t cs, same_but_sizes x y ->
  d_insize (x_desc x) <= d_insize (x_desc y) -> d_outsize (x_desc x) <= d_outsize (x_desc y) -> d_pathmax (x_desc x) <= d_pathmax (x_desc y) ->
  short_lines (d_insize (x_desc x)) x a cs -> modest (d_insize (x_desc x)) (d_outsize (x_desc x)) x ->
  shows own x a s -> run_limits own x a cs -> shows own y a t ->
  (forall m, exists q t', drive (app_of y) cs m t = Ok (q, t')) /\
  exists n evs, (forall l, n <= both_ready l -> exists s', drive (app_of x) cs l s = Ok ([], s') /\ polling s' /\ lg s' = lg s ++ evs) /\
    (forall m, n <= both_ready m -> exists t', drive (app_of y) cs m t = Ok ([], t') /\ polling t' /\ lg t' = lg t ++ evs).
Proof.
  intros own x y a s t cs (Eh & Ee & Ec & Ef) Li Lo Lp Sx Mx Hs Ls Ht.
  assert (N : no_larger (x_desc x) (x_desc y)) by (split; [exact Li|split; [exact Lo|split; [exact Lp|split; [exact Eh|split; [exact Ee|exact Ec]]]]]).
  destruct (run_larger own x y cs a N Ef Sx Mx Ls) as (Lt & E).
  destruct (schedule_done own x cs a s s (quiet_by_here _ _ (shows_polling _ _ _ _ Hs)) Hs Ls) as (_ & n1 & s' & B1 & Sh1 & Lg1).
  destruct (schedule_done own y cs a t t (quiet_by_here _ _ (shows_polling _ _ _ _ Ht)) Ht Lt) as (A & n2 & t' & B2 & Sh2 & Lg2).
  split; [intros m; destruct (A m) as (q & u & D); eauto|]. exists (n1 + n2), (fst (sess_run x a cs)). split.
  - intros l L. exists s'. split; [apply B1; lia|]. split; [apply (shows_polling _ _ _ _ Sh1)|exact Lg1].
  - intros m L. exists t'. split; [apply B2; lia|]. split; [apply (shows_polling _ _ _ _ Sh2)|rewrite E; exact Lg2].
Qed.
