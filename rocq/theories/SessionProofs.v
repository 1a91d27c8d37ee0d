(** * SessionProofs: the shell behaves as the abstract shell (C41), C01, C08. *)
From Coq Require Import Arith.
From Verif Require Import Shell BaseFacts LogFacts Sched ServiceFacts SchedFacts Macro Editor EditFacts Words ParseFacts PromptFacts PhaseFacts Line LineFacts SchedProofs LineProofs Spec PathFacts CollapseFacts DecodeFacts Tree TreeFacts TreeOps TreeFind TreeProofs Cmds CmdFacts PrintfFacts HookFacts CmdProofs NamesProofs Complete CompleteProofs ReconfProofs GetProofs IdleFacts Session.

Lemma here_cwd : forall w, w_cwd w <> None -> w_cwd w = Some (here w).
Proof. intros w H. unfold here. destruct (w_cwd w); [reflexivity|contradiction]. Qed.

Lemma shows_cwd : forall own x a s, shows own x a s -> cwd_is s (show (here (se_world a))).
Proof. intros own x a s (_ & K & Wc & _). apply (cwd_show own s _ _ K). apply here_cwd, Wc. Qed.

Lemma file_named_in : forall n fl f, file_named n fl = Some f -> In f fl /\ f_name f = n.
Proof. intros n fl f H. apply find_some in H as (I & E). split; auto. apply beq_true in E. exact E. Qed.

Lemma denotes_own : forall d w n f cb, stock d w -> denotes w n = Some f -> f_exec f = Some cb ->
  (exists k, cb = XUser k) \/ (file_named n (flat_map snd (w_groups w)) = Some f /\ own_callback f cb).
Proof.
  intros d w n f cb (G & D & _) H Fx. unfold denotes, find_file in H.
  destruct (file_named n (flat_map snd (w_groups w))) as [g|] eqn:E.
  - injection H as ->. right. split; [reflexivity|]. apply file_named_in in E as (I & _). eauto.
  - left. destruct (resolve_text (here w) n) as [|p0 p]; [discriminate|]. destruct (dir_at _ _) as [dd|] eqn:Da; [|discriminate].
    apply file_named_in in H as (I & _). apply dir_at_some in Da as (Id & _). eauto.
Qed.

Lemma sought_findable : forall d w s ns, stock d w -> o_desc s = d -> Forall (sought d w) ns -> findable s w ns.
Proof. intros d w s ns (_ & _ & N) D F. split; rewrite D; [exact N|exact F]. Qed.

Lemma cat_reads_on : forall own d e s ns w, o_desc s = d -> cat_limits own d e w ns ->
  reads_on e own s w ns (fst (read_all e w ns)) (snd (read_all e w ns)).
Proof.
  intros own d e s ns. induction ns as [|n ns IH]; intros w D L; [apply reads_on_nil|].
  destruct L as (Nm & So & f & cb & De & G & (ex & calls & Eg) & (Ch & Al) & Wn & L). specialize (IH _ D L).
  cbn [read_all]. rewrite De, G. destruct (read_all e (after_get e w cb f) ns) as (evs, w'). cbn [fst snd] in *.
  unfold after_get in *. rewrite Eg in *. cbn [g_calls] in *.
  apply (reads_on_cons e own s w n f cb _ (tree_calls calls)); auto.
  - split; rewrite D; [exact Nm|]. constructor; [exact So|constructor].
  - exists ex, calls. split; [exact Eg|]. split; [exact Ch|reflexivity].
  - rewrite D. exact Al.
Qed.

Lemma all_readable : forall w ns, first_unreadable w ns = None -> Forall (has_getter (denotes w)) ns.
Proof.
  intros w ns. induction ns as [|n ns IH]; intros H; [constructor|]. cbn [first_unreadable] in H. unfold unreadable in H.
  destruct (denotes w n) as [f|] eqn:D; [|discriminate]. destruct (f_get f) as [cb|] eqn:G; [|discriminate].
  constructor; [exists f, cb; auto|auto].
Qed.

Lemma unreadable_split : forall w ns st, first_unreadable w ns = Some st -> exists pre bad post, ns = pre ++ bad :: post /\ Forall (has_getter (denotes w)) pre /\
  match denotes w bad with None => st = ST_FILE_NOT_FOUND | Some f => f_get f = None /\ st = ST_FILE_NOT_READABLE end.
Proof.
  intros w ns. induction ns as [|n ns IH]; intros st H; [discriminate|]. cbn [first_unreadable] in H. unfold unreadable in H.
  destruct (denotes w n) as [f|] eqn:D; [destruct (f_get f) as [cb|] eqn:G|].
  - destruct (IH _ H) as (pre & bad & post & -> & F & M). exists (n :: pre), bad, post. split; [reflexivity|]. split; [|exact M]. constructor; [exists f, cb; auto|exact F].
  - injection H as <-. exists [], n, ns. split; [reflexivity|]. split; [constructor|]. rewrite D. auto.
  - injection H as <-. exists [], n, ns. split; [reflexivity|]. split; [constructor|]. rewrite D. auto.
Qed.

(** The outcome of a line. *)
Definition reacts (own : list nat) (d : desc) (Go : st -> Prop) (c : byte) (s : st) (r : reaction) : Prop :=
  let '(evs, t, w') := r in
  exists s', answered_at Go c s (evs ++ map EvOut (t ++ prompt d (show (here w')))) s' /\ o_desc s' = d /\ knows own s' w' /\ w_cwd w' <> None.

(** From the statements about commands. *)
Lemma does_reacts : forall own d Go c s cb f ws evs t w, o_desc s = d -> knows own s w -> w_cwd w <> None ->
  (exists s', does_at Go c s cb f ws evs t (here w) s' /\ core s' = core s) ->
  reacts own d Go c s (hook_events d ws ++ EvExec cb (Some (f_name f)) ws :: evs, t, w).
Proof.
  intros own d Go c s cb f ws evs t w D K Wn (s' & Do & C). exists s'. unfold does_at in Do. rewrite D in Do. rewrite <- app_assoc. split; [exact Do|].
  split; [rewrite (core_desc _ _ C); exact D|]. split; [exact (knows_core _ _ _ _ C K)|exact Wn].
Qed.
(** From the statements about callbacks that change the tree. *)
Lemma changes_reacts : forall own d Go c s cb f ws evs t w', o_desc s = d -> w_cwd w' <> None ->
  (exists s', does_at Go c s cb f ws evs t (here w') s' /\ knows own s' w' /\ o_desc s' = o_desc s) ->
  reacts own d Go c s (hook_events d ws ++ EvExec cb (Some (f_name f)) ws :: evs, t, w').
Proof.
  intros own d Go c s cb f ws evs t w' D Wn (s' & Do & K & D'). exists s'. unfold does_at in Do. rewrite D in Do. rewrite <- app_assoc. split; [exact Do|].
  split; [congruence|]. split; [exact K|exact Wn].
Qed.

Lemma exec_reacts : forall own d e w Go c s cb f ws, stock d w -> o_desc s = d -> knows own s w -> w_cwd w <> None -> Forall no_nul ws -> c = CR \/ c = LF ->
  ws <> [] -> poised e Go c ws s -> sought d w (hd [] ws) -> denotes w (hd [] ws) = Some f -> f_exec f = Some cb ->
  (accepts cb (length ws) = true -> exec_limits own d e w cb f ws) ->
  reacts own d Go c s (let '(evs, t, w') := do_exec d e w c cb f ws in (hook_events d ws ++ EvExec cb (Some (f_name f)) ws :: evs, t, w')).
Proof.
  intros own d e w Go c s cb f ws Sk D K Wn En Hc Ne X So De Fx Li. pose proof Sk as (_ & _ & Nm). pose proof (here_cwd w Wn) as Wc.
  assert (Msg : forall st, msg d st = message s st ++ CRLF) by (intros; unfold msg, message; rewrite D; reflexivity).
  assert (User : forall k, exec_limits own d e w (XUser k) f ws -> f_exec f = Some (XUser k) ->
     reacts own d Go c s (let '(evs, t, w') := do_exec d e w c (XUser k) f ws in (hook_events d ws ++ EvExec (XUser k) (Some (f_name f)) ws :: evs, t, w'))).
  { intros k (P & R & Al & Wn') Fk. unfold do_exec, do_calls. cbn [accepts]. apply (changes_reacts own d Go c s); auto. rewrite <- D in *.
    apply (C48_at e own w (here w) Go); auto; [|apply here_cwd, Wn'].
    split; [exact K|]. split; [exact Wc|]. split; [exact En|]. split; [exact X|]. split; [|exact De]. eapply sought_findable; eauto. }
  destruct (denotes_own d w _ _ _ Sk De Fx) as [(k & ->)|(Fn & Ow)].
  { apply User; auto. }
  assert (As : asked_at e own w (here w) Go c ws f s).
  { split; [exact K|]. split; [exact Wc|]. split; [exact En|]. split; [exact X|exact Fn]. }
  destruct (accepts cb (length ws)) eqn:Ac.
  2:{ unfold do_exec. rewrite Ac. apply (does_reacts own d Go c s); auto. rewrite Msg. eapply C45_at; eauto. }
  specialize (Li eq_refl). unfold do_exec. rewrite Ac.
  assert (Find : forall n, sought d w n -> findable s w [n]) by (intros n Sn; eapply sought_findable; eauto).
  destruct cb as [| | | | | | |k]; cbn [own_callback] in Ow; try subst f; cbn [accepts] in Ac; (destruct ws as [|n ws]; [congruence|]); cbn [tl nth length hd] in *.
  - (* help *)
    destruct ws as [|name [|? ?]]; [| |discriminate Ac].
    + apply (does_reacts own d Go c s); auto. cbn [do_help]. rewrite <- D. apply (C23_list_at e own w (here w) Go n s c); auto. rewrite D. exact Li.
    + apply (does_reacts own d Go c s); auto. cbn [do_help]. rewrite !Msg. apply (C23_file_at e own w (here w) Go n name s c); auto.
  - (* ls *)
    destruct ws as [|p [|? ?]]; [| |discriminate Ac].
    + apply (does_reacts own d Go c s); auto. cbn [do_ls]. unfold list_dir.
      pose proof K as (_ & _ & _ & _ & _ & Cu). rewrite Wc in Cu. destruct Cu as (dd & Da & _).
      rewrite Da. destruct (Li dd Da) as (L1 & L2). rewrite <- D. apply (C22_here_at e own w (here w) Go n s c dd); auto; rewrite D; auto.
    + apply (does_reacts own d Go c s); auto. destruct Li as (Lp & Ll). cbn [do_ls]. rewrite <- D in Lp.
      pose proof (C22_path_at e own w (here w) Go n p s c As Hc Lp) as G.
      destruct (dir_named (show (resolve_text (here w) p)) (w_fs w)) as [dd|]; [|rewrite Msg; exact G].
      destruct (Ll dd eq_refl) as (L1 & L2). rewrite D in G. exact (G L1 L2).
  - (* cd *)
    destruct ws as [|p [|? ?]]; [discriminate Ac| |discriminate Ac]. cbn [nth]. change (length (full_text (here w) p) < d_pathmax d) in Li. rewrite <- D in Li.
    pose proof (C44_cd_at e own w (here w) Go n p s c As Hc Li) as G. unfold do_cd. cbn [nth].
    destruct p as [|p0 p]; [apply (does_reacts own d Go c s); auto; rewrite Msg; exact G|].
    destruct (dir_named (show (resolve_text (here w) (p0 :: p))) (w_fs w)) as [dd|]; [|apply (does_reacts own d Go c s); auto; rewrite Msg; exact G].
    destruct G as (s' & Do & C & K'). exists s'. unfold does_at in Do. rewrite D in Do. rewrite <- app_assoc. split; [exact Do|]. split; [|split; [exact K'|discriminate]].
    unfold core in C. injection C as C1. rewrite C1. exact D.
  - (* pwd *)
    destruct ws as [|? ?]; [|discriminate Ac]. apply (does_reacts own d Go c s); auto. apply (C44_pwd_at e own w (here w) Go n s c); auto.
  - (* cat *)
    unfold do_cat. destruct Li as (So2 & Li). assert (Fi : findable s w ws) by (eapply sought_findable; eauto).
    destruct (first_unreadable w ws) as [st|] eqn:U.
    + destruct (unreadable_split _ _ _ U) as (pre & bad & post & -> & F & M). apply (does_reacts own d Go c s); auto. rewrite Msg.
      apply (C19_bad_at e own w (here w) Go n pre bad post s c st); auto.
    + specialize (Li U). pose proof (cat_reads_on own d e s ws w D Li) as R. pose proof (reads_on_cwd _ _ _ _ _ _ _ R Wn) as Wn'.
      destruct (read_all e w ws) as (evs, w'). cbn [fst snd] in *. apply (changes_reacts own d Go c s); auto.
      apply (C51_cat_at e own w (here w) Go n ws s c evs w' (here w')); auto.
      * destruct ws; [discriminate Ac|discriminate].
      * apply all_readable, U.
      * apply here_cwd, Wn'.
  - (* xxd *)
    destruct ws as [|p [|? ?]]; [discriminate Ac| |discriminate Ac]. cbn [nth]. destruct Li as (L1 & L2). unfold do_xxd.
    assert (Bad : forall st, match denotes w p with None => st = ST_FILE_NOT_FOUND | Some f => f_get f = None /\ st = ST_FILE_NOT_READABLE end ->
       reacts own d Go c s (hook_events d [n; p] ++ EvExec XXxd (Some (f_name cmd_xxd)) [n; p] :: [], msg d st, w)).
    { intros st M. apply (does_reacts own d Go c s); auto. rewrite Msg. apply (C20_bad_at e own w (here w) Go n p s c st); auto. }
    destruct (denotes w p) as [g|] eqn:Dp; [|apply Bad; reflexivity]. destruct (f_get g) as [k|] eqn:G; [|apply Bad; auto].
    destruct (L2 g k eq_refl G) as ((ex & calls & Eg) & Du & Cw). unfold after_get. rewrite Eg in *. cbn [g_calls] in *. destruct Cw as (Pc & Rm & Al & Wn').
    apply (changes_reacts own d Go c s); auto. rewrite <- D in *. apply (C51_xxd_at e own w (here w) Go n p s c g k _ ex calls); auto. apply here_cwd, Wn'.
  - (* echo *)
    destruct ws as [|text [|op [|name [|? ?]]]]; try discriminate Ac; cbn [do_echo tl].
    + apply (does_reacts own d Go c s); auto. apply (C25_alone_at e own w (here w) Go n s c); auto.
    + apply (does_reacts own d Go c s); auto. apply (C25_at e own w (here w) Go n text s c); auto.
    + destruct Li as (L1 & L2).
      assert (Bad : forall st, (op <> lit ">" /\ st = ST_COMMAND_WRONG_ARGUMENTS \/
         op = lit ">" /\ match denotes w name with None => st = ST_FILE_NOT_FOUND | Some f => f_set f = None /\ st = ST_FILE_NOT_WRITABLE end) ->
         reacts own d Go c s (hook_events d [n; text; op; name] ++ EvExec XEcho (Some (f_name cmd_echo)) [n; text; op; name] :: [], msg d st, w)).
      { intros st M. apply (does_reacts own d Go c s); auto. rewrite Msg. apply (C24_bad_at e own w (here w) Go n text op name s c st); auto. }
      destruct (beq op (lit ">")) eqn:Op; [apply beq_true in Op; subst op|apply Bad; left; split; [intros ->; discriminate Op|reflexivity]].
      destruct (denotes w name) as [g|] eqn:Dp; [|apply Bad; right; auto].
      destruct (f_set g) as [k|] eqn:G; [|apply Bad; right; auto].
      destruct (L2 g k eq_refl G) as (P1 & P2 & P3 & P4 & P5). unfold do_calls. apply (changes_reacts own d Go c s); auto. rewrite <- D in *.
      apply (C48_setter_at e own w (here w) Go n text name s c g k); auto. apply here_cwd, P5.
  - (* callback of the application, in a group *)
    apply User; auto.
Qed.

Lemma line_reacts : forall own d e w l c s ws, o_desc s = d -> knows own s w -> w_cwd w <> None -> entered l ws s -> c = CR \/ c = LF ->
  line_limits own d e w ws -> reacts own d (fed e [c] s) c s (react d e w c ws).
Proof.
  intros own d e w l c s ws D K Wn En Hc Li.
  assert (W : cwd_is s (show (here w))) by (apply (cwd_show own s _ _ K); apply here_cwd, Wn).
  destruct ws as [|name rest].
  { destruct (C04_blank_proof e l s c (show (here w)) En W Hc) as (s' & A & C). exists s'. rewrite D in A. split; [exact A|].
    split; [rewrite (core_desc _ _ C); exact D|]. split; [exact (knows_core _ _ _ _ C K)|exact Wn]. }
  destruct Li as ((X1 & X2 & X3 & Wn1) & Sk & So & Li). cbn [app] in X2. cbn [react].
  change (snd (spec_ops (tree_calls (hook_calls e d (name :: rest))) w)) with (after_hook e d (name :: rest) w) in *.
  destruct (hook_poised e own w (here w) l (name :: rest) s c K (here_cwd _ Wn) En Hc) as (s0 & D0 & L0 & K0 & X); [discriminate|rewrite D; split; auto|].
  rewrite D in *. set (w1 := after_hook e d (name :: rest) w) in *. pose proof (entered_no_nul _ _ _ En) as Nn. inversion Nn as [|? ? Nh _]; subst.
  assert (Sw : forall r, reacts own (o_desc s) (fed e [c] s) c s0 r -> reacts own (o_desc s) (fed e [c] s) c s r).
  { intros [[evs t] w'] (s' & (A1 & A2 & A3 & A4) & R). exists s'. split; [|exact R]. split; [exact A1|]. split; [exact A2|]. split; [exact A3|]. rewrite <- L0. exact A4. }
  apply Sw. clear Sw.
  assert (Bad : forall st, match denotes w1 name with None => st = ST_COMMAND_SYNTAX_ERROR | Some f => f_exec f = None /\ st = ST_FILE_NOT_EXECUTABLE end ->
     reacts own (o_desc s) (fed e [c] s) c s0 (hook_events (o_desc s) (name :: rest), msg (o_desc s) st, w1)).
  { intros st M. destruct (C38_denotes_at own w1 (here w1) e (fed e [c] s) s0 c name rest st K0 (here_cwd _ Wn1) Nh) as (s' & A & C); auto.
    - eapply sought_findable; eauto.
    - exists s'. unfold then_prompt, message in A. rewrite D0 in A. unfold msg. rewrite <- app_assoc. split; [exact A|].
      split; [rewrite (core_desc _ _ C); exact D0|]. split; [exact (knows_core _ _ _ _ C K0)|exact Wn1]. }
  destruct (denotes w1 name) as [f|] eqn:De; [|apply Bad; reflexivity].
  destruct (f_exec f) as [cb|] eqn:Fx; [|apply Bad; auto].
  apply (exec_reacts own (o_desc s) e w1 (fed e [c] s) c s0 cb f (name :: rest)); auto; try discriminate.
Qed.

Lemma tab_step : forall own x a s, shows own x a s -> cfg_autocomp (d_cfg (x_desc x)) = true -> tab_limits (x_desc x) (se_world a) (se_line a) -> forall e,
  exists s', tabbed e (se_esc a) s (fst (complete (x_desc x) (se_world a) (se_line a))) (snd (complete (x_desc x) (se_world a) (se_line a))) s'.
Proof.
  intros own x a s (D & K & Wn & _ & Ed & B & Le & Ef) Au (Ty & Nn & Rm & Fe) e.
  assert (At : at_tab own (se_world a) (here (se_world a)) (se_esc a) (se_line a) s).
  { split; [exact K|]. split; [apply here_cwd, Wn|]. split; [exact Ed|]. split; [exact B|]. split; [exact Nn|]. split; [exact Ty|]. rewrite D. exact Au. }
  unfold complete. rewrite <- D in Rm |- *.
  destruct (candidates (se_world a) (here (se_world a)) (last_word (se_line a))) as [|n1 [|n2 cs]] eqn:C.
  - cbn [fst snd]. apply (C28_none_proof e own (se_world a) (here (se_world a))); auto. exact (proj1 Rm).
  - cbn [fst snd]. apply (C28_one_proof e own (se_world a) (here (se_world a))); auto.
  - rewrite <- C in *. assert (Len : 2 <= length (candidates (se_world a) (here (se_world a)) (last_word (se_line a)))) by (rewrite C; cbn; lia).
    destruct (beq _ _) eqn:Eq; cbn [fst snd].
    + apply (C29_list_proof e own (se_world a) (here (se_world a))); auto. apply beq_true. exact Eq.
    + apply (C29_extend_proof e own (se_world a) (here (se_world a))); auto. apply beq_false. exact Eq.
Qed.

Lemma step_proof : forall own x a s c, shows own x a s -> step_limits own x a c ->
  exists s', fed (env_at x a c) [c] s s' /\ shows own x (snd (sess_step x a c)) s' /\ lg s' = lg s ++ EvIn c :: fst (sess_step x a c).
Proof.
  intros own x a s c Sh (L1 & L2). pose proof Sh as (D & K & Wn & Hr & Ed & B & Le & Ef). unfold sess_step.
  assert (Rd : forall s', fed (env_at x a c) [c] s s' -> se_read a ++ [c] = ins (lg s')) by (intros s' F; apply fed_reads in F; unfold Sched.reads in F; congruence).
  destruct (ends_line a c) eqn:El.
  { apply andb_true_iff in El as (Ez & Ec). apply Nat.eqb_eq in Ez. rewrite Ez in *.
    assert (Hc : c = CR \/ c = LF) by (apply orb_true_iff in Ec as [Ec|Ec]; apply ceq_true in Ec; auto).
    assert (En : entered (se_line a) (line_argv x a) s).
    { split; [exact Ed|]. split; [exact B|]. split; [exact Ef|]. unfold line_argv. rewrite D. reflexivity. }
    pose proof (line_reacts own (x_desc x) (env_at x a c) (se_world a) (se_line a) c s (line_argv x a) D K Wn En Hc (L1 eq_refl)) as R.
    destruct (react (x_desc x) (env_at x a c) (se_world a) c (line_argv x a)) as [[evs t] w']. destruct R as (s' & (F & Ed' & B' & Lg) & D' & K' & Wn').
    exists s'. split; [exact F|]. cbn [fst snd]. split; [|exact Lg]. split; [exact D'|]. split; [exact K'|]. split; [exact Wn'|]. split; [apply Rd, F|]. split; [exact Ed'|]. split; [exact B'|].
    split; [cbn [se_esc]; lia|split; intros []]. }
  destruct (completes x c) eqn:Co.
  { apply andb_true_iff in Co as (Ec & Au). apply ceq_true in Ec. subst c. specialize (L2 eq_refl).
    destruct (tab_step own x a s Sh Au L2 (env_at x a TAB)) as (s' & F & Ed' & B' & C & Lg). destruct (complete (x_desc x) (se_world a) (se_line a)) as [out l'] eqn:Cm. cbn [fst snd] in *.
    exists s'. split; [exact F|]. split; [|exact Lg]. split; [rewrite (core_desc _ _ C); exact D|]. split; [exact (knows_core _ _ _ _ C K)|]. split; [exact Wn|]. split; [apply Rd, F|].
    split; [exact Ed'|]. split; [exact B'|]. split; [exact Le|]. cbn [se_line].
    destruct L2 as (_ & _ & _ & Fe). unfold complete in Cm.
    assert (G : forall n, eol_free n -> eol_free (before_word (se_line a) ++ n)).
    { intros n (N1 & N2). destruct Ef as (E1 & E2). split; intros I; apply in_app_or in I as [I|I]; auto; unfold before_word in I; apply In_firstn in I; auto. }
    destruct (candidates (se_world a) (here (se_world a)) (last_word (se_line a))) as [|n1 [|n2 cs]] eqn:C'.
    - injection Cm as _ <-. exact Ef.
    - injection Cm as _ <-. apply G. inversion Fe; auto.
    - destruct (beq _ _); injection Cm as _ <-; [exact Ef|]. apply G.
      destruct (C29_common_proof (n1 :: n2 :: cs)) as (P & _); [discriminate|]. destruct (P n1 (or_introl eq_refl)) as (r & P1).
      inversion Fe as [|? ? (N1 & N2) _]; subst. rewrite P1 in N1, N2. split; intros I; [apply N1|apply N2]; apply in_or_app; left; exact I. }
  assert (NT : c = TAB -> cfg_autocomp (d_cfg (o_desc s)) = false).
  { intros ->. unfold completes in Co. rewrite D. rewrite ceq_refl in Co. exact Co. }
  assert (NE : se_esc a = 0 -> c <> CR /\ c <> LF).
  { intros Z. unfold ends_line in El. rewrite Z in El. cbn [Nat.eqb andb] in El. apply orb_false_iff in El as (E1 & E2). split; apply ceq_false; auto. }
  destruct (key_step (env_at x a c) (se_esc a) (se_line a) s c (show (here (se_world a))) Ed (shows_cwd _ _ _ _ Sh) B Le NE NT) as (s' & F & Ed' & C & B' & Lg).
  rewrite D in *. exists s'. split; [exact F|]. cbn [fst snd]. split; [|exact Lg].
  split; [rewrite (core_desc _ _ C); exact D|]. split; [exact (knows_core _ _ _ _ C K)|]. split; [exact Wn|]. split; [apply Rd, F|]. split; [exact Ed'|]. split; [exact B'|].
  cbn [se_esc se_line]. clear - Le Ef NE. destruct Ef as (E1 & E2). unfold ed_step.
  assert (Rl : forall b, In b (removelast (se_line a)) -> In b (se_line a)) by (intros b; apply removelast_incl).
  destruct (ceq c ETX); [cbn; split; [lia|split; intros []]|].
  destruct (erase_key c); [cbn [fst snd]; split; [lia|split; intros I; apply Rl in I; auto]|].
  destruct (ceq c TAB); [cbn [fst snd]; split; [lia|split; auto]|].
  destruct (ceq c ESC); [cbn [fst snd]; split; [lia|split; auto]|].
  destruct (se_esc a) as [|k]; cbn [fst snd].
  - split; [lia|]. destruct (NE eq_refl) as (N1 & N2). unfold stored_line. destruct (_ <? _); [|split; intros []].
    split; intros I; apply in_app_or in I as [I|[I|[]]]; auto.
  - split; [|split; auto]. unfold esc_next. destruct k as [|k]; [destruct (_ || _); lia|lia].
Qed.

Lemma C41_proof : forall own x cs a s, shows own x a s -> run_limits own x a cs ->
  exists s', fed_by (app_of x) cs s s' /\ shows own x (snd (sess_run x a cs)) s' /\ lg s' = lg s ++ fst (sess_run x a cs).
Proof.
  intros own x cs. induction cs as [|c cs IH]; intros a s Sh Li.
  - exists s. split; [constructor; apply Sh|]. split; [exact Sh|]. cbn [sess_run fst]. rewrite app_nil_r. reflexivity.
  - destruct Li as (L1 & L2). destruct (step_proof own x a s c Sh L1) as (s1 & F1 & Sh1 & Lg1).
    destruct (IH _ s1 Sh1 L2) as (s2 & F2 & Sh2 & Lg2). exists s2. split; [apply (fed_by_app (app_of x) [c] cs s s1 s2); [|exact F2]; apply (fed_on_input (x_app x)); unfold env_at in F1; rewrite (proj1 (proj2 (proj2 (proj2 Sh)))) in F1; exact F1|].
    cbn [sess_run]. destruct (sess_step x a c) as [evs a1] eqn:E1. cbn [fst snd] in *. destruct (sess_run x a1 cs) as [evs2 a2]. cbn [fst snd] in *.
    split; [exact Sh2|]. rewrite Lg2, Lg1. rewrite <- app_assoc. reflexivity.
Qed.

(** ** Every schedule *)
Lemma esteps_more : forall e os s s1, esteps e os s s1 -> forall os' s', esteps e os' s s' -> polling s' -> somes os = somes os' ->
  exists os2, esteps e os2 s1 s' /\ somes os2 = [].
Proof.
  intros e os s s1 H. induction H as [s|o os s s' s1 H1 H2 IH]; intros os2 s2 G P2 E.
  - exists os2. split; [exact G|]. symmetry. exact E.
  - inversion G as [|o' os' ? s'' ? G1 G2]; subst.
    + destruct o as [c|]; [discriminate|]. destruct H1 as [N _]. contradiction.
    + assert (o = o' /\ somes os = somes os') as [<- E'].
      { destruct o as [c|], o' as [c'|]; cbn [somes flat_map app] in E.
        - injection E as -> E. auto.
        - destruct H1 as [A _], G1 as [B _]. contradiction.
        - destruct H1 as [A _], G1 as [B _]. contradiction.
        - auto. }
      pose proof (estep_det _ _ _ _ _ H1 G1); subst. eapply IH; eauto.
Qed.

Lemma esteps_quiet : forall e os s s', esteps e os s s' -> somes os = [] -> polling s' -> quiet_by e s s'.
Proof.
  intros e os s s' H. induction H as [s|o os s s1 s2 H1 H2 IH]; intros E P; [constructor; exact P|].
  destruct o as [c|]; [discriminate|]. destruct H1 as (N & b & S). econstructor; eauto.
Qed.

(** A run from [s0], possibly still at work, that reads [p]. *)
Lemma drive_prefix : forall e p q l s0 s s1 s', quiet_by e s0 s -> fed_by e p s s' -> drive e (p ++ q) l s0 = Ok (q, s1) -> quiet_by e s1 s'.
Proof.
  intros e p q l s0 s s1 s' Q F H. apply drive_esteps in H as (os & H & E). apply app_inv_tail in E.
  apply quiet_by_esteps in Q as (oq & Q1 & Q2 & _). apply fed_by_esteps in F as (of & F1 & F2 & F3).
  pose proof (esteps_app _ _ _ _ _ _ Q1 F1) as G.
  destruct (esteps_more _ _ _ _ H _ _ G F3) as (os2 & G2 & Z); [rewrite somes_app, Q2, F2, <- E; reflexivity|].
  eapply esteps_quiet; eauto.
Qed.

Lemma drive_started : forall e cs s0 s s', quiet_by e s0 s -> fed_by e cs s s' -> o_cur s' <> None ->
  (forall l, exists q s1, drive e cs l s0 = Ok (q, s1)) /\ exists n, forall l, n <= both_ready l -> drive e cs l s0 = Ok ([], s').
Proof.
  intros e cs s0 s s' Q F C. apply quiet_by_esteps in Q as (oq & Q1 & Q2 & _). apply fed_by_esteps in F as (of & F1 & F2 & F3).
  pose proof (esteps_app _ _ _ _ _ _ Q1 F1) as G. assert (So : somes (oq ++ of) = cs) by (rewrite somes_app, Q2, F2; reflexivity). subst cs.
  rewrite <- So. split.
  - intros l. destruct (drive_total e l _ _ _ G F3 C) as (q1 & s1 & os1 & D & _). eauto.
  - exists (length (oq ++ of)). intros l L. destruct (drive_total e l _ _ _ G F3 C) as (q1 & s1 & os1 & D & X & Y & Z).
    assert (length os1 = 0) by lia. destruct os1; [|discriminate]. inversion X; subst. exact D.
Qed.

Lemma run_limits_app : forall own x p q a, run_limits own x a (p ++ q) -> run_limits own x a p.
Proof. intros own x p q. induction p as [|c p IH]; intros a H; [exact I|]. destruct H as (H1 & H2). split; [exact H1|apply IH; exact H2]. Qed.

Lemma shows_cur : forall own x a s, shows own x a s -> o_cur s <> None.
Proof. intros own x a s Sh. apply (cwd_cur _ _ (shows_cwd _ _ _ _ Sh)). Qed.

Lemma shows_polling : forall own x a s, shows own x a s -> polling s.
Proof. intros own x a s (_ & _ & _ & _ & (P & _) & _). exact P. Qed.

(** The same for any history, [s0] being a state from which [s] is reached without input. *)
Lemma schedule_proof : forall own x cs a s0 s l q s1, quiet_by (app_of x) s0 s -> shows own x a s -> run_limits own x a cs ->
  drive (app_of x) cs l s0 = Ok (q, s1) ->
  exists p s', cs = p ++ q /\ quiet_by (app_of x) s1 s' /\ shows own x (snd (sess_run x a p)) s' /\ lg s' = lg s ++ fst (sess_run x a p).
Proof.
  intros own x cs a s0 s l q s1 Q Sh Li Dr.
  pose proof Dr as Dr'. apply drive_esteps in Dr' as (os & H & E). exists (somes os).
  pose proof Li as Lp. rewrite E in Lp. apply run_limits_app in Lp.
  destruct (C41_proof own x (somes os) a s Sh Lp) as (s' & F & Sh' & Lg). exists s'. split; [exact E|]. split; [|split; [exact Sh'|exact Lg]].
  rewrite E in Dr. eapply drive_prefix; eauto.
Qed.

Lemma schedule_done : forall own x cs a s0 s, quiet_by (app_of x) s0 s -> shows own x a s -> run_limits own x a cs ->
  (forall l, exists q s1, drive (app_of x) cs l s0 = Ok (q, s1)) /\
  exists n s', (forall l, n <= both_ready l -> drive (app_of x) cs l s0 = Ok ([], s')) /\ shows own x (snd (sess_run x a cs)) s' /\ lg s' = lg s ++ fst (sess_run x a cs).
Proof.
  intros own x cs a s0 s Q Sh Li. destruct (C41_proof own x cs a s Sh Li) as (s' & F & Sh' & Lg).
  destruct (drive_started _ _ _ _ _ Q F (shows_cur _ _ _ _ Sh')) as (A & n & B). split; [exact A|]. exists n, s'. auto.
Qed.

Lemma polling_quiet : forall e s s', polling s -> quiet_by e s s' -> s' = s.
Proof. intros e s s' P Q. inversion Q; subst; [reflexivity|contradiction]. Qed.

(** ** The limits hold in a snug setting *)
Lemma word_packed : forall (w : bytes) ws, In w ws -> length w < length (packed ws).
Proof.
  intros w ws. induction ws as [|v ws IH]; intros I; [destruct I|]. change (packed (v :: ws)) with ((v ++ [NUL]) ++ packed ws). rewrite !app_length. cbn [length].
  destruct I as [->|I]; [lia|]. apply IH in I. lia.
Qed.

Lemma group_some : forall l w, exists x r, group (Some w) l = (w ++ x) :: r.
Proof.
  induction l as [|i l IH]; intros w; cbn [group flush_word word_so_far].
  - exists [], []. rewrite app_nil_r. reflexivity.
  - destruct i as [c| |].
    + destruct (IH (w ++ [c])) as (x & r & E). exists ([c] ++ x), r. rewrite E, app_assoc. reflexivity.
    + apply IH.
    + exists [], (group None l). rewrite app_nil_r. reflexivity.
Qed.

Lemma argv_nul : forall l, exists ws, argv_of (NUL :: l) = [] :: ws.
Proof.
  intros l. unfold argv_of, words. change (lex false (NUL :: l)) with (Chr NUL :: lex false l). cbn [group word_so_far app].
  destruct (group_some (lex false l) [NUL]) as (x & r & E). rewrite E. cbn [length flat_map app]. change (split_nul (NUL :: x)) with ([] :: split_nul x). cbn [app firstn]. eauto.
Qed.

Lemma argv_room : forall k, length (packed (argv_of k)) <= S (length k).
Proof.
  intros k. destruct (packed_argv (words k)) as (r2 & P). pose proof (words_room k) as R. rewrite P, app_length in R. unfold argv_of. unfold argv_of_words in R. lia.
Qed.

Lemma argv_tight : forall x a s own w, shows own x a s -> In w (line_argv x a) -> 2 + length w <= d_insize (x_desc x).
Proof.
  intros x a s own w (D & _ & _ & _ & (_ & _ & _ & r & Hb) & (B1 & _ & B3 & _) & _) I. rewrite D in *.
  assert (Ll : length (se_line a) < d_insize (x_desc x)) by (rewrite <- B1, Hb, app_length; cbn [length]; lia).
  unfold line_argv, kept_line in I. destruct (Nat.ltb_spec (S (length (se_line a))) (d_insize (x_desc x))) as [L|L].
  - apply word_packed in I. pose proof (argv_room (se_line a)). lia.
  - pose proof (argv_room (NUL :: tl (se_line a))) as R. destruct (argv_nul (tl (se_line a))) as (ws & E). rewrite E in *.
    change (packed ([] :: ws)) with (NUL :: packed ws) in R. cbn [length] in R.
    destruct I as [<-|I]; [cbn [length]; destruct (se_line a); cbn [tl length] in *; lia|].
    apply word_packed in I. destruct (se_line a); cbn [tl length] in *; lia.
Qed.

Lemma argv_short : forall x a s own w, shows own x a s -> In w (line_argv x a) -> length w < d_insize (x_desc x).
Proof. intros x a s own w Sh I. pose proof (argv_tight x a s own w Sh I). lia. Qed.

Lemma show_slashed_length : forall p, length (slashed p) <= length (show p).
Proof. intros [|c p]; [cbn [slashed flat_map length]; lia|apply Nat.le_refl]. Qed.

Lemma full_text_tight : forall cwd t, length (full_text cwd t) <= S (length (slashed cwd) + length t).
Proof.
  intros cwd t. unfold full_text. destruct t as [|c t].
  - destruct cwd; [cbn [length]; lia|]. rewrite app_length. change (show (l :: cwd)) with (slashed (l :: cwd)). cbn [length]. lia.
  - destruct (ceq c SL); [lia|]. rewrite app_length. destruct cwd; [cbn [length]; lia|]. rewrite app_length. change (show (l :: cwd)) with (slashed (l :: cwd)). cbn [length]. lia.
Qed.

Lemma full_text_short : forall cwd t, length (full_text cwd t) <= length (show cwd) + S (length t).
Proof.
  intros cwd t. unfold full_text. destruct t as [|c t].
  - destruct cwd; rewrite ?app_length; cbn [length]; lia.
  - destruct (ceq c SL); [lia|]. rewrite app_length. destruct cwd; rewrite ?app_length; cbn [length]; lia.
Qed.

Lemma denotes_file : forall w n f, denotes w n = Some f -> file_of w f.
Proof.
  intros w n f H. unfold denotes, find_file in H.
  destruct (file_named n (flat_map snd (w_groups w))) as [g|] eqn:E.
  - injection H as ->. left. apply file_named_in in E as (I & _). exact I.
  - right. destruct (resolve_text (here w) n) as [|p0 p]; [discriminate|]. destruct (dir_at _ _) as [dd|] eqn:Da; [|discriminate].
    apply file_named_in in H as (I & _). apply dir_at_some in Da as (Id & _). eauto.
Qed.

Lemma dir_named_in : forall t fs dd, dir_named t fs = Some dd -> In dd fs.
Proof. intros t fs dd H. unfold dir_named in H. destruct t; [apply dir_at_some in H as (I & _); exact I|apply find_some in H as (I & _); exact I]. Qed.

Lemma first_readable : forall w ns, first_unreadable w ns = None <-> forall n, In n ns -> unreadable w n = None.
Proof.
  intros w ns. induction ns as [|n ns IH]; cbn [first_unreadable In]; [tauto|]. destruct (unreadable w n) as [st|] eqn:U.
  - split; [discriminate|]. intros H. specialize (H n (or_introl eq_refl)). congruence.
  - rewrite IH. split; [intros H m [<-|I]; auto|auto].
Qed.

Lemma snug_cat : forall own x W h ns w, snug own x W -> W w -> (forall n, In n ns -> 2 + length n <= d_insize (x_desc x)) ->
  first_unreadable w ns = None -> cat_limits own (x_desc x) (x_app x h) w ns.
Proof.
  intros own x W h ns. induction ns as [|n ns IH]; intros w Am Iw Sh U; [exact I|]. pose proof (proj1 (first_readable _ _) U) as Ur.
  destruct (Am w Iw) as ((_ & _ & Nm) & _ & Ph & _ & _ & _ & Ae). destruct (Ae h) as (Gt & _).
  pose proof (Ur n (or_introl eq_refl)) as Un. unfold unreadable in Un.
  destruct (denotes w n) as [f|] eqn:De; [|discriminate]. destruct (f_get f) as [cb|] eqn:G; [|discriminate].
  destruct (Gt f cb [] (denotes_file _ _ _ De) G) as (G1 & _ & G3 & (_ & _ & G4 & G5) & G6 & G7).
  split; [exact Nm|]. split.
  { right. pose proof (full_text_tight (here w) n). pose proof (Sh n (or_introl eq_refl)). lia. }
  exists f, cb. split; [exact De|]. split; [exact G|]. split; [exact G1|]. split; [split; [exact G3|exact G4]|]. split; [exact G5|].
  apply IH; auto; [intros m I; apply Sh; right; exact I|]. apply first_readable. intros m I. apply G7, Ur. right. exact I.
Qed.

Lemma snug_read : forall own x W h ns w, snug own x W -> W w -> W (snd (read_all (x_app x h) w ns)).
Proof.
  intros own x W h ns. induction ns as [|n ns IH]; intros w Am Iw; [exact Iw|]. cbn [read_all].
  destruct (denotes w n) as [f|] eqn:De; [|exact Iw]. destruct (f_get f) as [cb|] eqn:G; [|exact Iw].
  destruct (Am w Iw) as (_ & _ & _ & _ & _ & _ & Ae). destruct (Ae h) as (Gt & _). destruct (Gt f cb [] (denotes_file _ _ _ De) G) as (_ & _ & _ & _ & G6 & _).
  specialize (IH _ Am G6). destruct (read_all _ _ ns). exact IH.
Qed.

Lemma tried_length : forall x cs k, length x <= k -> (forall n, In n cs -> length n <= k) -> length (tried x cs) <= k.
Proof.
  intros x cs k Lx Lc. destruct cs as [|n1 [|n2 r]]; [exact Lx|apply Lc; left; reflexivity|]. unfold tried. rewrite firstn_length.
  assert (length (last (n1 :: n2 :: r) []) <= k) by (apply Lc, last_in; discriminate). lia.
Qed.

Lemma tab_snug : forall own x W a k, snug own x W -> W (se_world a) -> (forall n, In n (candidates (se_world a) (here (se_world a)) (last_word (se_line a))) -> length n <= k) ->
  S (length (se_line a)) < d_insize (x_desc x) -> S (length (before_word (se_line a)) + k) < d_insize (x_desc x) -> tab_short x a.
Proof.
  intros own x W a k Am Iw Lc Ll Lk. destruct (Am _ Iw) as (_ & _ & Ph & _). cbv beta in Ph. unfold tab_short. set (cs := candidates _ _ _) in *.
  pose proof (before_last (se_line a)) as E. apply (f_equal (@length byte)) in E. rewrite app_length in E.
  pose proof (tried_length (last_word (se_line a)) cs (Nat.max (length (last_word (se_line a))) k) (Nat.le_max_l _ _) (fun n I => Nat.le_trans _ _ _ (Lc n I) (Nat.le_max_r _ _))) as T.
  assert (P : length (probed (last_word (se_line a)) cs) <= Nat.max (length (last_word (se_line a))) k) by (unfold probed; destruct cs as [|n1 [|n2 r]]; [apply Nat.le_max_l|apply Nat.le_max_l|exact T]).
  pose proof (full_text_tight (here (se_world a)) (probed (last_word (se_line a)) cs)). split; lia.
Qed.

Lemma snug_step : forall own x W a s c, snug own x W -> W (se_world a) -> shows own x a s -> (cfg_autocomp (d_cfg (x_desc x)) = true -> c = TAB -> tab_ready a /\ tab_short x a) ->
  step_limits own x a c.
Proof.
  intros own x W a s c Am Iw Sh Nt. split.
  2:{ intros Co. apply andb_true_iff in Co as (Ec & Au). apply ceq_true in Ec. destruct (Nt Au Ec) as ((N1 & N2 & N3) & N4). split; [exact N1|]. split; [exact N3|]. split; [exact N4|exact N2]. }
  intros _. assert (Sw : forall v, In v (line_argv x a) -> 2 + length v <= d_insize (x_desc x)) by (intros v; exact (argv_tight x a s own v Sh)).
  destruct (line_argv x a) as [|name rest]; [exact I|].
  destruct (Am _ Iw) as (_ & _ & _ & _ & _ & _ & Ae). destruct (Ae (se_read a ++ [c])) as (_ & Hk & _). fold (env_at x a c) in Hk.
  destruct (Hk (name :: rest)) as (Hw & Iw1). unfold line_limits. set (w := after_hook _ _ _ _) in *. clear Ae Hk.
  destruct (Am _ Iw1) as (Sk & Pm & Ph & Os & Ls & _ & Ae). destruct (Ae (se_read a ++ [c])) as (Gt & _ & St & Ex). fold (env_at x a c) in Gt, St, Ex.
  assert (Short : forall v, In v (name :: rest) -> length (full_text (here w) v) < d_pathmax (x_desc x)).
  { intros v I. pose proof (Sw v I). pose proof (full_text_tight (here w) v). lia. }
  assert (Dl : forall dd, In dd (w_fs w) -> dir_listable (x_desc x) dd).
  { intros dd I. split; [|left; exact Os]. apply Forall_forall. intros f If. apply Ls. right. eauto. }
  split; [exact Hw|]. split; [exact Sk|]. split; [right; apply Short; left; reflexivity|].
  assert (So : forall n, In n rest -> sought (x_desc x) w n) by (intros n I; right; apply Short; right; exact I).
  intros f cb De Fx Ac. apply denotes_file in De. unfold exec_limits.
  destruct cb as [| | | | | | |k]; cbn [tl].
  - destruct rest as [|n [|? ?]]; [|apply So; left; reflexivity|exact I]. apply Forall_forall. intros g Ig. apply Ls. left. exact Ig.
  - destruct rest as [|p [|? ?]]; [| |exact I].
    + intros dd Da. apply dir_at_some in Da as (I & _). auto.
    + split; [apply Short; right; left; reflexivity|]. intros dd Dn. apply dir_named_in in Dn. auto.
  - destruct rest as [|p [|? ?]]; [exact I| |exact I]. apply Short. right. left. reflexivity.
  - exact I.
  - split; [apply Forall_forall; exact So|]. apply (snug_cat own x W (se_read a ++ [c]) rest w Am Iw1). intros n I. apply Sw. right. exact I.
  - destruct rest as [|p [|? ?]]; [exact I| |exact I]. split; [apply So; left; reflexivity|].
    intros g k Dg Gg. apply denotes_file in Dg. destruct (Gt g k (name :: [p]) Dg Gg) as (G1 & G2 & _ & G4 & _). auto.
  - destruct rest as [|text [|op [|n [|? ?]]]]; try exact I. split; [apply So; right; right; left; reflexivity|].
    intros g k Dg Gg. apply denotes_file in Dg. destruct (St g k (name :: [text; op; n]) (decode text) Dg Gg) as (P1 & P2 & _). auto.
  - destruct (Ex f k (name :: rest) De Fx) as (P & _). exact P.
Qed.

Lemma snug_world : forall own x W a c, snug own x W -> W (se_world a) -> W (se_world (snd (sess_step x a c))).
Proof.
  intros own x W a c Am Iw. destruct (Am _ Iw) as (_ & _ & _ & _ & _ & _ & Ah). destruct (Ah (se_read a ++ [c])) as (_ & Hk & _). fold (env_at x a c) in *. clear Ah.
  unfold sess_step. destruct (ends_line a c).
  2:{ destruct (completes x c); [destruct (complete _ _ _)|]; exact Iw. }
  assert (G : W (snd (react (x_desc x) (env_at x a c) (se_world a) c (line_argv x a)))).
  2:{ destruct (react _ _ _ _ _) as [[evs t] w']. exact G. }
  generalize (line_argv x a) as ws. intros ws.
  unfold react. destruct ws as [|name rest]; [exact Iw|]. destruct (Hk (name :: rest)) as (_ & Iw1). set (w := after_hook _ _ _ _) in *. clear Iw Hk. rename Iw1 into Iw.
  destruct (Am _ Iw) as (_ & _ & _ & _ & _ & Cd & Ae). destruct (Ae (se_read a ++ [c])) as (Gt & _ & St & Ex). fold (env_at x a c) in *. set (e := env_at x a c) in *. destruct (denotes w name) as [f|] eqn:De; [|exact Iw]. apply denotes_file in De.
  destruct (f_exec f) as [cb|] eqn:Fx; [|exact Iw].
  assert (G : W (snd (do_exec (x_desc x) e w c cb f (name :: rest)))).
  2:{ destruct (do_exec _ _ _ _ _ _ _) as [[evs t] w']. exact G. }
  unfold do_exec. destruct (accepts cb _); [|exact Iw]. destruct cb as [| | | | | | |k]; cbn [do_help do_ls prints_only snd]; try exact Iw.
  - unfold do_cd. destruct (nth 1 _ []) as [|p0 p]; [exact Iw|]. destruct (dir_named _ _) as [dd|] eqn:Dn; [|exact Iw]. apply dir_named_in in Dn. apply Cd. exact Dn.
  - unfold do_cat. destruct (first_unreadable w _); [exact Iw|]. pose proof (snug_read own x W (se_read a ++ [c]) (tl (name :: rest)) w Am Iw) as R. fold (env_at x a c) in R. fold e in R. destruct (read_all e w _). exact R.
  - unfold do_xxd. destruct (denotes w _) as [g|] eqn:Dg; [|exact Iw]. apply denotes_file in Dg. destruct (f_get g) as [k|] eqn:Gg; [|exact Iw].
    destruct (Gt g k [] Dg Gg) as (_ & _ & _ & _ & P & _). exact P.
  - unfold do_echo. destruct (tl (name :: rest)) as [|text [|op [|n [|? ?]]]]; try exact Iw. destruct (beq op _); [|exact Iw].
    destruct (denotes w n) as [g|] eqn:Dg; [|exact Iw]. apply denotes_file in Dg. destruct (f_set g) as [k|] eqn:Gs; [|exact Iw].
    unfold do_calls. destruct (St g k (name :: rest) (decode text) Dg Gs) as (_ & _ & P). exact P.
  - unfold do_calls. destruct (Ex f k (name :: rest) De Fx) as (_ & P). exact P.
Qed.

Lemma snug_walk : forall own x W cs a, snug own x W -> W (se_world a) -> W (se_world (snd (sess_run x a cs))).
Proof.
  intros own x W cs. induction cs as [|c cs IH]; intros a Am Iw; [exact Iw|]. pose proof (snug_world own x W a c Am Iw) as I1. cbn [sess_run].
  destruct (sess_step x a c) as [evs a1]. cbn [snd] in I1. specialize (IH a1 Am I1). destruct (sess_run x a1 cs). exact IH.
Qed.

Lemma no_tabs_fit : forall x a cs, (In TAB cs -> cfg_autocomp (d_cfg (x_desc x)) = false) -> tabs_fit x a cs.
Proof. intros x a cs N Au p q ->. rewrite N in Au; [discriminate|]. apply in_or_app. right. left. reflexivity. Qed.

Lemma sess_run_cons : forall x a c cs, snd (sess_run x a (c :: cs)) = snd (sess_run x (snd (sess_step x a c)) cs).
Proof. intros x a c cs. cbn [sess_run]. destruct (sess_step x a c) as [e1 a1]. cbn [snd]. destruct (sess_run x a1 cs). reflexivity. Qed.

Lemma tabs_fit_app : forall x a p q, tabs_fit x a (p ++ q) -> tabs_fit x a p.
Proof. intros x a p q T Au p1 q1 ->. apply (T Au p1 (q1 ++ q)). rewrite <- app_assoc. reflexivity. Qed.

Lemma tabs_run : forall own x W cs a s, snug own x W -> W (se_world a) -> shows own x a s -> tabs_fit x a cs -> run_limits own x a cs.
Proof.
  intros own x W cs. induction cs as [|c cs IH]; intros a s Am Iw Sh Nt; [exact I|].
  assert (L : step_limits own x a c) by (apply (snug_step own x W a s c Am Iw Sh); intros Au ->; exact (Nt Au [] cs eq_refl)).
  split; [exact L|]. destruct (step_proof own x a s c Sh L) as (s1 & _ & Sh1 & _).
  apply (IH _ s1 Am (snug_world own x W a c Am Iw) Sh1). intros Au p q ->. pose proof (Nt Au (c :: p) q eq_refl) as N. rewrite sess_run_cons in N. exact N.
Qed.

Lemma snug_run : forall own x W cs a s, snug own x W -> W (se_world a) -> shows own x a s -> (In TAB cs -> cfg_autocomp (d_cfg (x_desc x)) = false) ->
  run_limits own x a cs.
Proof. intros own x W cs a s Am Iw Sh Nt. apply (tabs_run own x W cs a s Am Iw Sh). apply no_tabs_fit. exact Nt. Qed.

(** ** A TAB for which there is no room *)
Lemma drive_app : forall a q l1 l2 s, drive a q (l1 ++ l2) s = ('(q1, s1) <- drive a q l1 s ;; drive a q1 l2 s1).
Proof.
  intros a q l1. revert q. induction l1 as [|[r w] l1 IH]; intros q l2 s; [reflexivity|]. cbn [app drive]. destruct (ush_service _ s) as [[b s1]|]; [|reflexivity]. cbn [bind]. apply IH.
Qed.

Lemma esteps_drive : forall a os s s' q, esteps a os s s' -> exists l, drive a (somes os ++ q) l s = Ok (q, s').
Proof.
  intros a os s s' q H. induction H as [s|o os s s1 s2 H1 H2 (l & IH)]; [exists []; reflexivity|].
  destruct o as [c|]; destruct H1 as (P & b & Sv).
  - exists ((true, true) :: l). cbn [drive somes flat_map app hd_error tl]. unfold tick in Sv. rewrite Sv. cbn [bind]. rewrite P. exact IH.
  - exists ((false, true) :: l). cbn [drive somes flat_map app]. unfold tick in Sv. rewrite Sv. cbn [bind]. destruct (o_state s); exact IH.
Qed.

Lemma stuck_drive : forall f er q s, Complete.stuck (f (ins (lg s))) er s -> exists l, drive (fun l => f (ins l)) q l s = Err er.
Proof.
  intros f er q s H. remember (f (ins (lg s))) as e eqn:E. induction H as [s N H|s b s1 N H1 H2 IH].
  - exists [(false, true)]. cbn [drive]. unfold tick in H. rewrite <- E, H. reflexivity.
  - destruct IH as (l & IH). { rewrite E. f_equal. symmetry. apply service_ins in H1; auto. }
    exists ((false, true) :: l). cbn [drive]. unfold tick in H1. rewrite <- E, H1. cbn [bind]. destruct (o_state s); exact IH.
Qed.

Lemma tab_unsafe : forall own x W p q a s, snug own x W -> W (se_world a) -> shows own x a s -> tabs_fit x a p ->
  let b := snd (sess_run x a p) in let cs := candidates (se_world b) (here (se_world b)) (last_word (se_line b)) in
  cfg_autocomp (d_cfg (x_desc x)) = true -> tab_ready b -> ~ tab_short x b ->
  before_word (se_line b) <> [] \/ length (tried (last_word (se_line b)) cs) < d_insize (x_desc x) \/ length cs < 2 ->
  exists l, drive (app_of x) (p ++ TAB :: q) l s = Err EOob.
Proof.
  intros own x W p q a s Am Iw Sh Tf b cs Au (T1 & T2 & T3) Nf Sd. pose proof (tabs_run own x W p a s Am Iw Sh Tf) as Li.
  destruct (C41_proof own x p a s Sh Li) as (s1 & F & Sh1 & _). fold b in Sh1. pose proof Sh1 as (D & K & Wn & Hr & Ed & B & _).
  assert (At : at_tab own (se_world b) (here (se_world b)) (se_esc b) (se_line b) s1).
  { split; [exact K|]. split; [apply here_cwd, Wn|]. split; [exact Ed|]. split; [exact B|]. split; [exact T3|]. split; [exact T1|]. rewrite D. exact Au. }
  destruct (C30_overflow_proof (x_app x (ins (lg s1) ++ [TAB])) _ _ _ _ _ _ At) as (P & bb & s2 & Sv & Sk).
  { fold cs. rewrite D. exact Sd. }
  { rewrite D. exact Nf. }
  apply fed_by_esteps in F as (os & F1 & F2 & _). destruct (esteps_drive _ _ _ _ (TAB :: q) F1) as (l1 & D1). rewrite F2 in D1.
  pose proof Sv as Sp. apply service_poll in Sp; auto. cbn [tick io_rd] in Sp. destruct Sp as [_ Sp].
  destruct (stuck_drive (x_app x) EOob q s2) as (l2 & D2). { rewrite Sp, ins_app. exact Sk. }
  exists (l1 ++ (true, true) :: l2). rewrite drive_app, D1. cbn [bind drive hd_error tl].
  unfold tick in Sv. rewrite (poll_env _ (app_of x (lg s1))) in Sv by exact P. rewrite Sv. cbn [bind]. rewrite P. exact D2.
Qed.

(** A run that has read [p] and more has been where [p] leads to. *)
Lemma esteps_through : forall a os1 s s1, esteps a os1 s s1 -> polling s1 -> forall os s' c q, esteps a os s s' -> somes os = somes os1 ++ c :: q ->
  exists rest, esteps a rest s1 s' /\ somes rest = c :: q.
Proof.
  intros a os1 s s1 H. induction H as [s|o os1 s s1 s2 H1 H2 IH]; intros P os s' c q Hs E; [exists os; auto|].
  inversion Hs as [|o' os' ? s1' ? H1' H2']; subst; [destruct (somes (o :: os1)); discriminate E|].
  destruct o as [c1|], o' as [c2|]; destruct H1 as (N & b & Sv), H1' as (N' & b' & Sv').
  - cbn [somes flat_map app] in E. injection E as <- E. assert (s1' = s1) by congruence. subst s1'. eapply IH; eauto.
  - contradiction.
  - contradiction.
  - cbn [somes flat_map app] in E. assert (s1' = s1) by congruence. subst s1'. eapply IH; eauto.
Qed.
Lemma esteps_rest : forall a os s s', esteps a os s s' -> polling s' -> exists s1, quiet_by a s s1.
Proof.
  intros a os s s' H. induction H as [s|o os s s1 s2 H1 H2 IH]; intros P; [exists s; constructor; exact P|].
  destruct o as [c|]; destruct H1 as (N & b & Sv); [exists s; constructor; exact N|]. destruct (IH P) as (s3 & Q). exists s3. econstructor; eauto.
Qed.
Lemma quiet_fixed : forall f s s', quiet_by (fun l => f (ins l)) s s' -> quiet (f (ins (lg s))) s s'.
Proof.
  intros f s s' Q. induction Q as [s P|s b s1 s2 N E Q IH]; [constructor; exact P|]. eapply quiet_step; [exact N|exact E|].
  replace (ins (lg s)) with (ins (lg s1)); [exact IH|]. apply service_ins in E; auto.
Qed.

Lemma tab_never : forall own x W p q a s l q' s', snug own x W -> W (se_world a) -> shows own x a s -> tabs_fit x a p ->
  let b := snd (sess_run x a p) in cfg_autocomp (d_cfg (x_desc x)) = true -> tab_ready b -> ~ tab_short x b ->
  drive (app_of x) (p ++ TAB :: q) l s = Ok (q', s') -> polling s' -> length q < length q'.
Proof.
  intros own x W p q a s l q' s' Am Iw Sh Tf b Au (T1 & T2 & T3) Nf Dr P'. pose proof (tabs_run own x W p a s Am Iw Sh Tf) as Li.
  destruct (C41_proof own x p a s Sh Li) as (s1 & F & Sh1 & _). fold b in Sh1. pose proof Sh1 as (D & K & Wn & Hr & Ed & B & _).
  assert (At : at_tab own (se_world b) (here (se_world b)) (se_esc b) (se_line b) s1).
  { split; [exact K|]. split; [apply here_cwd, Wn|]. split; [exact Ed|]. split; [exact B|]. split; [exact T3|]. split; [exact T1|]. rewrite D. exact Au. }
  destruct (Nat.lt_ge_cases (length q) (length q')) as [Lq|Lq]; [exact Lq|exfalso].
  apply drive_esteps in Dr as (os & E & Eq). apply fed_by_esteps in F as (os1 & F1 & F2 & F3).
  assert (Es : exists q1, somes os = p ++ TAB :: q1).
  { clear - Eq Lq. revert Eq. generalize (somes os). intros u Eq. assert (Hu : length (p ++ [TAB]) <= length u).
    { apply (f_equal (@length _)) in Eq. rewrite !app_length in *. cbn [length] in *. lia. }
    exists (skipn (length (p ++ [TAB])) u). replace (p ++ TAB :: q) with ((p ++ [TAB]) ++ q) in Eq by (rewrite <- app_assoc; reflexivity).
    replace (p ++ TAB :: skipn (length (p ++ [TAB])) u) with ((p ++ [TAB]) ++ skipn (length (p ++ [TAB])) u) by (rewrite <- app_assoc; reflexivity).
    revert Eq Hu. generalize (p ++ [TAB]). clear. intros v Eq Hu. rewrite <- (firstn_skipn (length v) u) at 1. f_equal.
    apply (f_equal (firstn (length v))) in Eq. rewrite !firstn_app, firstn_all, Nat.sub_diag in Eq. replace (length v - length u) with 0 in Eq by lia. cbn [firstn] in Eq. rewrite !app_nil_r in Eq. congruence. }
  destruct Es as (q1 & Es). rewrite <- F2 in Es. destruct (esteps_through _ _ _ _ F1 F3 _ _ _ _ E Es) as (rest & R1 & R2).
  inversion R1 as [|o os' ? s2 ? H1 H2]; subst; [discriminate R2|]. destruct o as [c|]; destruct H1 as (N & bb & Sv); [|contradiction].
  cbn [somes flat_map app] in R2. injection R2 as -> _. destruct (esteps_rest _ _ _ _ H2 P') as (s3 & Q).
  pose proof Sv as Sp. apply service_poll in Sp; auto. cbn [tick io_rd] in Sp. destruct Sp as [_ Sp].
  apply (quiet_fixed (x_app x)) in Q. rewrite Sp, ins_app in Q.
  assert (Fd : fed (x_app x (ins (lg s1) ++ [TAB])) [TAB] s1 s3).
  { econstructor; [exact N| |exact Q|constructor; destruct (quiet_esteps _ _ _ Q) as (_ & _ & _ & Pq); exact Pq].
    unfold tick in *. rewrite (poll_env _ (app_of x (lg s1))) by exact N. exact Sv. }
  apply Nf. pose proof (proj1 (C30_exact_proof (x_app x (ins (lg s1) ++ [TAB])) _ _ _ _ _ _ At) (ex_intro _ _ Fd)) as R. rewrite D in R. exact R.
Qed.

Lemma ample_snug : forall own x W, ample own x W -> snug own x W.
Proof.
  intros own x W Am w Iw. destruct (Am w Iw) as (A1 & A2 & A3 & A4). split; [exact A1|]. split; [|split; [|exact A4]].
  - intros dd I. specialize (A2 dd I). cbv beta in *. pose proof (show_slashed_length (de_path dd)). lia.
  - cbv beta in *. pose proof (show_slashed_length (here w)). lia.
Qed.

Lemma ample_walk : forall own x W cs a, ample own x W -> W (se_world a) -> W (se_world (snd (sess_run x a cs))).
Proof. intros own x W cs a Am. apply (snug_walk own x W cs a (ample_snug own x W Am)). Qed.

Lemma ample_run : forall own x W cs a s, ample own x W -> W (se_world a) -> shows own x a s -> (In TAB cs -> cfg_autocomp (d_cfg (x_desc x)) = false) ->
  run_limits own x a cs.
Proof. intros own x W cs a s Am. apply (snug_run own x W cs a s (ample_snug own x W Am)). Qed.

(** ** What setters are handed *)
Lemma not_out : forall cb n t l, ~ In (EvSet cb n t) (map EvOut l).
Proof. intros cb n t l I. apply in_map_iff in I as (c & E & _). discriminate E. Qed.

Lemma read_no_set : forall e ns w cb n t, ~ In (EvSet cb n t) (fst (read_all e w ns)).
Proof.
  intros e ns. induction ns as [|m ns IH]; intros w cb n t I; [exact I|]. cbn [read_all] in I. destruct (denotes w m) as [f|]; [|exact I]. destruct (f_get f) as [k|]; [|exact I].
  specialize (IH (after_get e w k f) cb n t). destruct (read_all e _ ns) as [evs w']. cbn [fst] in *. destruct I as [I|I]; [discriminate I|].
  apply in_app_or in I as [I|I]; [exact (not_out _ _ _ _ I)|exact (IH I)].
Qed.

Lemma exec_set : forall d e w c x f ws cb n t, In (EvSet cb n t) (fst (fst (do_exec d e w c x f ws))) ->
  x = XEcho /\ exists text op name, tl ws = [text; op; name] /\ beq op (lit ">") = true /\ t = decode text.
Proof.
  intros d e w c x f ws cb n t I. unfold do_exec in I. destruct (accepts x (length ws)); [|destruct I]. destruct x as [| | | | | | |k].
  - destruct I.
  - unfold do_ls in I. cbn [fst prints_only] in I. destruct I.
  - unfold do_cd in I. destruct (nth 1 ws []); [destruct I|]. destruct (dir_named _ _); destruct I.
  - destruct I.
  - exfalso. unfold do_cat in I. destruct (first_unreadable w (tl ws)); [destruct I|]. pose proof (read_no_set e (tl ws) w cb n t) as R. destruct (read_all e w (tl ws)). exact (R I).
  - exfalso. unfold do_xxd in I. destruct (denotes w _) as [g|]; [|destruct I]. destruct (f_get g); [|destruct I]. destruct I as [I|[]]. discriminate I.
  - split; [reflexivity|]. unfold do_echo in I. destruct (tl ws) as [|text [|op [|name [|? ?]]]]; try destruct I. exists text, op, name. destruct (beq op (lit ">")); [|destruct I].
    split; [reflexivity|]. split; [reflexivity|]. destruct (denotes w name) as [g|]; [|destruct I]. destruct (f_set g) as [k|]; [|destruct I]. unfold do_calls in I. destruct I as [I|[]]. congruence.
  - unfold do_calls in I. destruct I.
Qed.

Lemma step_set : forall own x a s c cb n t, shows own x a s -> step_limits own x a c -> In (EvSet cb n t) (fst (sess_step x a c)) ->
  10 + length t <= d_insize (x_desc x).
Proof.
  intros own x a s c cb n t Sh (Li & _) I. unfold sess_step in I. destruct (ends_line a c) eqn:El.
  2:{ exfalso. destruct (completes x c); [destruct (complete _ _ _)|]; exact (not_out _ _ _ _ I). }
  specialize (Li eq_refl). destruct (react _ _ _ _ _) as [[evs o] w'] eqn:Er. cbn [fst] in I.
  apply in_app_or in I as [I|I]; [destruct (not_out _ _ _ _ I)|]. apply in_app_or in I as [I|I]; [|destruct (not_out _ _ _ _ I)].
  unfold react in Er. destruct (line_argv x a) as [|name rest] eqn:Ea; [injection Er as <- _ _; destruct I|].
  unfold line_limits in Li. set (w := after_hook _ _ _ _) in *. destruct Li as (_ & (St1 & St2 & _) & _).
  assert (Hk : ~ In (EvSet cb n t) (hook_events (x_desc x) (name :: rest))) by (unfold hook_events; destruct (d_exec (x_desc x)); cbn; intuition discriminate).
  destruct (denotes w name) as [f|] eqn:De; [|injection Er as <- _ _; contradiction].
  destruct (f_exec f) as [xc|] eqn:Fx; [|injection Er as <- _ _; contradiction].
  destruct (do_exec _ _ _ _ _ _ _) as [[ev2 t2] w2] eqn:Dx. injection Er as <- _ _.
  apply in_app_or in I as [I|[I|I]]; [contradiction|discriminate I|].
  destruct (exec_set (x_desc x) (env_at x a c) w c xc f (name :: rest) cb n t) as (-> & text & op & nm & Et & Eo & ->); [rewrite Dx; exact I|].
  cbn [tl] in Et. subst rest. apply beq_true in Eo. subst op.
  assert (Nm : name = lit "echo").
  { unfold denotes, find_file in De. destruct (file_named name _) as [g|] eqn:Fn.
    - injection De as ->. apply file_named_in in Fn as (Ig & Eg). specialize (St1 f XEcho Ig Fx). cbn in St1. subst f. symmetry. exact Eg.
    - exfalso. destruct (resolve_text (here w) name) as [|p0 p]; [discriminate|]. destruct (dir_at _ _) as [dd|] eqn:Da; [|discriminate].
      apply file_named_in in De as (Ig & _). apply dir_at_some in Da as (Id & _). destruct (St2 dd f XEcho Id Ig Fx) as (k & E). discriminate E. }
  subst name. destruct Sh as (D & _ & _ & _ & (_ & _ & _ & r & Hb) & (B1 & _) & _). rewrite D in *.
  assert (Ll : length (se_line a) < d_insize (x_desc x)) by (rewrite <- B1, Hb, app_length; cbn [length]; lia).
  pose proof (decode_length_le text) as Dl. unfold line_argv, kept_line in Ea. destruct (Nat.ltb_spec (S (length (se_line a))) (d_insize (x_desc x))) as [L|L].
  - pose proof (argv_room (se_line a)) as R. rewrite Ea in R. unfold packed in R. cbn [flat_map] in R. rewrite !app_length in R. cbn [length lit list_ascii_of_string] in R. lia.
  - destruct (argv_nul (tl (se_line a))) as (ws & E). rewrite E in Ea. discriminate Ea.
Qed.

Lemma C24_size_proof : forall own x cs a s cb n t, shows own x a s -> run_limits own x a cs -> In (EvSet cb n t) (fst (sess_run x a cs)) ->
  10 + length t <= d_insize (x_desc x).
Proof.
  intros own x cs. induction cs as [|c cs IH]; intros a s cb n t Sh Li I; [destruct I|]. destruct Li as (L1 & L2).
  destruct (step_proof own x a s c Sh L1) as (s1 & _ & Sh1 & _). pose proof (step_set own x a s c cb n t Sh L1) as S. cbn [sess_run] in I.
  destruct (sess_step x a c) as [evs a1]. cbn [fst snd] in *. specialize (IH a1 s1 cb n t Sh1 L2). destruct (sess_run x a1 cs) as [evs2 a2]. cbn [fst] in *.
  destruct I as [I|I]; [discriminate I|]. apply in_app_or in I as [I|I]; [exact (S I)|exact (IH I)].
Qed.

(** ** From initialisation on *)
Lemma start_proof : forall e own s w cwd, knows own s w -> w_cwd w = Some cwd -> pending s greeting -> o_wnext s = S_RESET_PROMPT -> bufs_ok s ->
  exists s', quiet e s s' /\ editing 0 [] s' /\ core s' = core s /\ bufs_ok s' /\ lg s' = lg s ++ map EvOut (greeting ++ prompt (o_desc s) (show cwd)).
Proof.
  intros e own s w cwd K Wc P Nx B. pose proof (cwd_show _ _ _ _ K Wc) as W.
  pose proof (works_pending e greeting s (cwd_cur _ _ W) P) as Wk. rewrite Nx in Wk.
  destruct (quiet_reset_prompt e (set_state S_RESET_PROMPT (delivered s greeting)) (show cwd) eq_refl W B) as (s' & Q & Ed & C & B' & Lg).
  exists s'. split; [apply (works_quiet _ _ _ Wk); exact Q|]. split; [exact Ed|]. split; [exact C|]. split; [exact B'|].
  rewrite Lg, map_app, app_assoc. reflexivity.
Qed.

Lemma boot_again : forall d d0 b ib0 ob0 h l ib ob own os f, 2 <= d_insize d -> 4 <= d_outsize d -> length ib = d_insize d -> length ob = d_outsize d ->
  (cfg_commands (d_cfg d) = true -> buildin_commands (d_cfg d) <> []) -> In b own -> childless own h ->
  let w0 := mkWorld [] (if cfg_commands (d_cfg d) then [(b, buildin_commands (d_cfg d))] else []) None in
  let w := snd (spec_ops os w0) in
  all_allowed (d_pathmax d) own os w0 -> forall cwd, w_cwd w = Some cwd ->
  exists s0 s1 s2, ush_init d ib ob (st_zero d0 b ib0 ob0 h l) = Ok s0 /\ do_ops os s0 = Ok (fst (spec_ops os w0), s1) /\ quiet_by (app_of (mkSetting d f)) s1 s2 /\
    shows own (mkSetting d f) (mkSess w (ins l) 0 []) s2 /\ lg s2 = l ++ map EvOut (greeting ++ prompt d (show cwd)).
Proof.
  intros d d0 b ib0 ob0 h l ib ob own os f I1 O1 Li Lo Bc Ib Hz w0 w Al cwd Wc.
  destruct (init_proof d d0 b ib0 ob0 h l ib ob own) as (s0 & E0 & K0 & D0 & Ei & Eo & El & _ & P0 & N0 & _); auto; [lia|].
  fold w0 in K0. rewrite <- D0 in Al. destruct (C15_history_proof own os s0 w0 K0 Al) as (s1 & E1 & K1 & (T1 & _)).
  fold w in K1.
  assert (F : o_desc s1 = d /\ inb s1 = ib /\ outb s1 = ob /\ lg s1 = l /\ o_wnext s1 = S_RESET_PROMPT /\ pending s1 greeting).
  { rewrite T1. split; [exact D0|]. split; [exact Ei|]. split; [exact Eo|]. split; [exact El|]. split; [exact N0|]. exact P0. }
  destruct F as (F1 & F2 & F3 & F4 & F5 & F6).
  assert (B1 : bufs_ok s1) by (unfold bufs_ok; rewrite F1, F2, F3; auto).
  destruct (start_proof (f (ins l)) own s1 w cwd K1 Wc F6 F5 B1) as (s2 & Q & Ed & C & B2 & Lg).
  exists s0, s1, s2. split; [exact E0|]. split; [exact E1|]. split; [apply (quiet_on_input f); rewrite F4; exact Q|]. pose proof (quiet_reads _ _ _ Q) as Rd. unfold Sched.reads in Rd. rewrite F1, F4 in Lg. rewrite F4 in Rd. split; [|exact Lg].
  split; [rewrite (core_desc _ _ C); exact F1|]. split; [|split; [cbn [se_world]; rewrite Wc; discriminate|split; [cbn [se_read]; rewrite Rd, app_nil_r; reflexivity|split; [exact Ed|split; [exact B2|split; [cbn; lia|split; intros []]]]]]].
  apply (knows_core own s1 s2); [exact C|exact K1].
Qed.
Lemma boot_proof : forall d d0 b ib0 ob0 h l ib ob own os f, 2 <= d_insize d -> 4 <= d_outsize d -> length ib = d_insize d -> length ob = d_outsize d ->
  (cfg_commands (d_cfg d) = true -> buildin_commands (d_cfg d) <> []) -> In b own -> (forall i, In i own -> nth_error h i = Some node_zero) ->
  let w0 := mkWorld [] (if cfg_commands (d_cfg d) then [(b, buildin_commands (d_cfg d))] else []) None in
  let w := snd (spec_ops os w0) in
  all_allowed (d_pathmax d) own os w0 -> forall cwd, w_cwd w = Some cwd ->
  exists s0 s1 s2, ush_init d ib ob (st_zero d0 b ib0 ob0 h l) = Ok s0 /\ do_ops os s0 = Ok (fst (spec_ops os w0), s1) /\ quiet_by (app_of (mkSetting d f)) s1 s2 /\
    shows own (mkSetting d f) (mkSess w (ins l) 0 []) s2 /\ lg s2 = l ++ map EvOut (greeting ++ prompt d (show cwd)).
Proof. intros. eapply boot_again; eauto. apply blank_childless; auto. Qed.

Lemma run_limits_cat : forall own x p q a, run_limits own x a p -> run_limits own x (snd (sess_run x a p)) q -> run_limits own x a (p ++ q).
Proof.
  intros own x p q. induction p as [|c p IH]; intros a H G; [exact G|]. destruct H as (H1 & H2). split; [exact H1|]. apply IH; [exact H2|].
  cbn [sess_run] in G. destruct (sess_step x a c) as [evs a1]. cbn [snd] in *. destruct (sess_run x a1 p) as [evs2 a2]. exact G.
Qed.

(** ** Calls of the application between two bytes *)
Lemma C49_call_proof : forall own x a s o, shows own x a s -> allowed (d_pathmax (x_desc x)) own (se_world a) o ->
  let w' := snd (spec_op o (se_world a)) in w_cwd w' <> None ->
  exists s', do_op o s = Ok (fst (spec_op o (se_world a)), s') /\ shows own x (mkSess w' (se_read a) (se_esc a) (se_line a)) s' /\ lg s' = lg s.
Proof.
  intros own x a s o (D & K & Wn & Hr & Ed & B & Le & Ef) Al w' Wn'. rewrite <- D in Al. destruct (op_step own o s (se_world a) K Al) as (s' & E & K' & (T & _)).
  exists s'. split; [exact E|]. rewrite T. split; [|reflexivity].
  split; [exact D|]. split; [rewrite <- T; exact K'|]. split; [exact Wn'|]. split; [exact Hr|]. split; [exact Ed|]. split; [exact B|]. split; [exact Le|exact Ef].
Qed.

(** ** Printing while polling *)
Lemma shows_calm_call : forall own o s w s1 st1, knows own s w -> allowed (d_pathmax (o_desc s)) own w o -> do_op o s = Ok (st1, s1) -> calm s -> calm s1.
Proof.
  intros own o s w s1 st1 K Al E C. destruct (op_step own o s w K Al) as (s' & E' & _ & (T & _)). rewrite E in E'. injection E' as _ <-. rewrite T. exact C.
Qed.

Lemma reset_quiet : forall own e s w, knows own s w -> w_cwd w <> None -> bufs_ok s -> 
  exists s', quiet e (ush_reset s) s' /\ editing 0 [] s' /\ bufs_ok s' /\ knows own s' (mkWorld (w_fs w) (w_groups w) (Some [])) /\ o_desc s' = o_desc s /\
    lg s' = lg s ++ map EvOut (greeting ++ prompt (o_desc s) (show [])).
Proof.
  intros own e s w K Wn B. pose proof K as ((O & St & Ch) & Gr & Dj & Us & Ow & Cu). destruct (w_cwd w) as [cwd|]; [|congruence]. destruct Cu as (d & Dd & _).
  destruct (dir_at [] (w_fs w)) as [r|] eqn:Dr; [|rewrite (no_root_empty _ O Dr) in Dd; discriminate].
  assert (Rt : o_root s = Some (de_node r)). { unfold node_at in Ch. rewrite Dr in Ch. cbn [option_map] in Ch. apply Ch. }
  pose proof Dr as Dr'. apply dir_at_some in Dr' as (Ir & Pr). destruct (St r Ir) as (nd & Hn & P & _).
  destruct (C32_proof e s (de_node r) nd (show [])) as (s' & Q & Ed & C & B' & L); [exact Rt|unfold getn, rd; rewrite Hn; reflexivity|rewrite <- Pr; exact P|exact B|].
  exists s'. split; [exact Q|]. split; [exact Ed|]. split; [exact B'|]. split; [|split; [exact (core_desc _ _ C)|exact L]].
  apply (knows_core own (set_cur (o_root s) s) s'); [exact C|]. split; [exact (conj O (conj St Ch))|]. split; [exact Gr|]. split; [exact Dj|]. split; [exact Us|]. split; [exact Ow|].
  exists r. split; [exact Dr|]. exact Rt.
Qed.

Lemma turn_quiet : forall own x a s t, shows own x a s -> settled s -> turn_limits own x a t -> turn_calls t <> [] ->
  exists s1 s2, do_actions [] (turn_calls t) s = Ok s1 /\ calm s1 /\ quiet_by (app_of x) s1 s2 /\ shows own x (snd (take_turn x a t)) s2 /\ lg s2 = lg s ++ fst (take_turn x a t).
Proof.
  intros own x a s t Sh Se Li Nt. pose proof Sh as (D & K & Wn & Hr & Ed & B & Le & Ef).
  assert (Fin : forall s1 s2 w tx, aloof s1 -> ins (lg s1) = ins (lg s) -> quiet (x_app x (ins (lg s1))) s1 s2 -> editing 0 [] s2 -> bufs_ok s2 -> knows own s2 w -> w_cwd w <> None -> o_desc s2 = o_desc s ->
     lg s2 = lg s ++ map EvOut (tx ++ prompt (o_desc s) (show (here w))) ->
     calm s1 /\ quiet_by (app_of x) s1 s2 /\ shows own x (snd (finishes x a w tx)) s2 /\ lg s2 = lg s ++ fst (finishes x a w tx)).
  { intros s1 s2 w tx Al I1 Q Ed2 B2 K2 Wn2 D2 L2. split; [apply calm_aloof; exact Al|]. split; [apply (quiet_on_input (x_app x)); exact Q|].
    unfold finishes. cbn [fst snd]. rewrite <- D. split; [|exact L2]. split; [cbn; congruence|]. cbn [se_world se_read se_esc se_line].
    split; [exact K2|]. split; [exact Wn2|]. split; [|split; [exact Ed2|split; [exact B2|split; [lia|split; intros []]]]].
    pose proof (quiet_reads _ _ _ Q) as Rd. unfold Sched.reads in Rd. rewrite Rd, app_nil_r in *. congruence. }
  assert (Lg1 : forall l s1, do_actions [] l s = Ok s1 -> lg s1 = lg s) by (intros l s1 E; eapply do_actions_lg; exact E).
  destruct (w_cwd (se_world a)) as [cwd|] eqn:Wc; [|congruence]. pose proof (cwd_show _ _ _ _ K Wc) as W.
  assert (Hh : here (se_world a) = cwd) by (unfold here; rewrite Wc; reflexivity).
  destruct t as [cs|o|l|u|]; cbn [turn_calls] in Nt; try congruence; cbn [turn_calls take_turn turn_limits] in *.
  - destruct Li as (L1 & L2 & L3). rewrite <- D in L3.
    destruct (says_quiet (x_app x (ins (lg s))) s l (show cwd) (proj1 Ed) Se W B L1 L2 L3) as (s1 & s2 & E & Al & Q & Ed2 & B2 & K2 & Lg2).
    exists s1, s2. split; [exact E|]. rewrite <- D. apply Fin; auto.
    + rewrite (Lg1 _ _ E). reflexivity.
    + rewrite (Lg1 _ _ E). exact Q.
    + eapply knows_core; eauto.
    + congruence.
    + exact (core_desc _ _ K2).
    + rewrite Hh. exact Lg2.
  - destruct Li as (L1 & L2). rewrite <- D in L2.
    destruct (flushes_quiet (x_app x (ins (lg s))) s u (show cwd) W B L1 L2) as (s1 & s2 & E & Al & Q & Ed2 & B2 & K2 & Lg2).
    exists s1, s2. split; [exact E|]. apply Fin; auto.
    + rewrite (Lg1 _ _ E). reflexivity.
    + rewrite (Lg1 _ _ E). exact Q.
    + eapply knows_core; eauto.
    + congruence.
    + exact (core_desc _ _ K2).
    + rewrite Hh. exact Lg2.
  - destruct (reset_quiet own (x_app x (ins (lg s))) s (se_world a) K ltac:(congruence) B) as (s2 & Q & Ed2 & B2 & K2 & D2 & Lg2).
    exists (ush_reset s), s2. split; [reflexivity|]. apply Fin; auto.
    + apply aloof_write; reflexivity.
    + discriminate.
Qed.

(** However the bytes arrive. *)
Lemma C49_turns_proof : forall own x ts a s s', well_behaved x -> shows own x a s -> settled s -> turns_limits own x a ts -> acted x ts s s' ->
  shows own x (snd (take_turns x a ts)) s' /\ settled s' /\ lg s' = lg s ++ fst (take_turns x a ts).
Proof.
  intros own x ts a s s' Wb Sh Se Li H. revert a Sh Se Li. induction H as [s|cs l s s1 r s' Dr P H IH|o s st1 s1 r s' E H IH|t l s s1 s2 r s' Nt E Dr P H IH|t cs l s s1 s2 r s' Nt E Dr P H IH]; intros a Sh Se Li.
  - cbn [take_turns fst snd]. rewrite app_nil_r. auto.
  - destruct Li as (L1 & L2). cbn [turn_limits take_turn] in L1, L2.
    destruct (schedule_proof own x cs a s s l [] s1 (quiet_by_here _ _ (shows_polling _ _ _ _ Sh)) Sh L1 Dr) as (p & s2 & Ep & Q & Sh2 & Lg2).
    rewrite app_nil_r in Ep. subst p. rewrite (polling_quiet _ _ _ P Q) in Sh2, Lg2.
    assert (Se2 : settled s1) by (apply calm_settled; [exact P|]; eapply drive_calm; [exact Wb| |exact Dr]; apply settled_calm; [exact (shows_polling _ _ _ _ Sh)|exact Se]).
    destruct (IH _ Sh2 Se2 L2) as (Sh3 & Se3 & Lg3).
    cbn [take_turns take_turn]. destruct (sess_run x a cs) as [evs a1]. cbn [fst snd] in *. destruct (take_turns x a1 r) as [evs2 a2]. cbn [fst snd] in *.
    split; [exact Sh3|]. split; [exact Se3|]. rewrite Lg3, Lg2, <- app_assoc. reflexivity.
  - destruct Li as ((L1 & L1') & L2). destruct (C49_call_proof own x a s o Sh L1 L1') as (s2 & E2 & Sh2 & Lg2). 
    assert (Se2 : settled s1). { apply calm_settled; [rewrite E in E2; injection E2 as _ ->; exact (shows_polling _ _ _ _ Sh2)|]. pose proof Sh as (D & K & _). rewrite <- D in L1.
      eapply shows_calm_call; [exact K|exact L1|exact E|]. apply settled_calm; [exact (shows_polling _ _ _ _ Sh)|exact Se]. }
    rewrite E in E2. injection E2 as _ ->.
    destruct (IH _ Sh2 Se2 L2) as (Sh3 & Se3 & Lg3). cbn [take_turns take_turn]. destruct (take_turns x _ r) as [evs2 a2]. cbn [fst snd app] in *.
    split; [exact Sh3|]. split; [exact Se3|]. rewrite Lg3, Lg2. reflexivity.
  - destruct Li as (L1 & L2). destruct (turn_quiet own x a s t Sh Se L1 Nt) as (s3 & s4 & E3 & Cm & Q & Sh4 & Lg4). rewrite E in E3. injection E3 as <-.
    destruct (schedule_proof own x [] _ s1 s4 l [] s2 Q Sh4 Logic.I Dr) as (p & s5 & Ep & Q5 & Sh5 & Lg5). symmetry in Ep. apply app_eq_nil in Ep as (-> & _).
    rewrite (polling_quiet _ _ _ P Q5) in Sh5, Lg5. cbn [sess_run fst snd] in Sh5, Lg5. rewrite app_nil_r in Lg5.
    assert (Se2 : settled s2) by (apply calm_settled; [exact P|]; eapply drive_calm; [exact Wb|exact Cm|exact Dr]).
    destruct (IH _ Sh5 Se2 L2) as (Sh6 & Se6 & Lg6). cbn [take_turns]. destruct (take_turn x a t) as [evs a1]. cbn [fst snd] in *. destruct (take_turns x a1 r) as [evs2 a2]. cbn [fst snd] in *.
    split; [exact Sh6|]. split; [exact Se6|]. rewrite Lg6, Lg5, Lg4, <- app_assoc. reflexivity.
  - destruct Li as (L1 & L2 & L3). destruct (turn_quiet own x a s t Sh Se L1 Nt) as (s3 & s4 & E3 & Cm & Q & Sh4 & Lg4). rewrite E in E3. injection E3 as <-.
    cbn [turn_limits] in L2. change (take_turn x (snd (take_turn x a t)) (Types cs)) with (sess_run x (snd (take_turn x a t)) cs) in L3.
    destruct (schedule_proof own x cs _ s1 s4 l [] s2 Q Sh4 L2 Dr) as (p & s5 & Ep & Q5 & Sh5 & Lg5). rewrite app_nil_r in Ep. subst p.
    rewrite (polling_quiet _ _ _ P Q5) in Sh5, Lg5.
    assert (Se2 : settled s2) by (apply calm_settled; [exact P|]; eapply drive_calm; [exact Wb|exact Cm|exact Dr]).
    destruct (IH _ Sh5 Se2 L3) as (Sh6 & Se6 & Lg6). cbn [take_turns]. destruct (take_turn x a t) as [evs a1]. cbn [fst snd take_turn] in *.
    destruct (sess_run x a1 cs) as [evs1 a3]. cbn [fst snd] in *. destruct (take_turns x a3 r) as [evs2 a2]. cbn [fst snd] in *.
    split; [exact Sh6|]. split; [exact Se6|]. rewrite Lg6, Lg5, Lg4, <- !app_assoc. reflexivity.
Qed.

Lemma both_ready_all : forall n, both_ready (repeat (true, true) n) = n.
Proof. intros n. unfold both_ready. induction n as [|n IH]; [reflexivity|]. cbn [repeat filter length fst snd andb]. f_equal. exact IH. Qed.

Lemma C49_exists_proof : forall own x ts a s, well_behaved x -> shows own x a s -> settled s -> turns_limits own x a ts -> exists s', acted x ts s s'.
Proof.
  intros own x ts. induction ts as [|t ts IH]; intros a s Wb Sh Se Li; [exists s; constructor|]. destruct Li as (L1 & L2).
  assert (Step : forall s1, acted x [t] s s1 -> (forall s', acted x ts s1 s' -> acted x (t :: ts) s s') -> exists s', acted x (t :: ts) s s').
  { intros s1 A F. destruct (C49_turns_proof own x [t] a s s1 Wb Sh Se (conj L1 Logic.I) A) as (Sh1 & Se1 & _). cbn [take_turns] in Sh1.
    destruct (take_turn x a t) as [evs a1]. cbn [snd] in *. destruct (IH a1 s1 Wb Sh1 Se1 L2) as (s' & T). exists s'. apply F, T. }
  assert (Pr : turn_calls t <> [] -> exists s', acted x (t :: ts) s s').
  { intros Nt. destruct (turn_quiet own x a s t Sh Se L1 Nt) as (s1 & s2 & E & _ & Q & Sh2 & _).
    destruct (schedule_done own x [] _ s1 s2 Q Sh2 Logic.I) as (_ & n & s3 & B & Sh3 & _).
    assert (Dr : drive (app_of x) [] (repeat (true, true) n) s1 = Ok ([], s3)) by (apply B; rewrite both_ready_all; lia). pose proof (shows_polling _ _ _ _ Sh3) as P.
    apply (Step s3); [eapply acted_prints; eauto; constructor|]. intros s' T. eapply acted_prints; eauto. }
  destruct t as [cs|o|l|u|]; try (apply Pr; discriminate).
  - destruct (schedule_done own x cs a s s (quiet_by_here _ _ (shows_polling _ _ _ _ Sh)) Sh L1) as (_ & n & s1 & B & Sh1 & _).
    assert (Dr : drive (app_of x) cs (repeat (true, true) n) s = Ok ([], s1)) by (apply B; rewrite both_ready_all; lia). pose proof (shows_polling _ _ _ _ Sh1) as P.
    apply (Step s1); [eapply acted_types; eauto; constructor|]. intros s' T. eapply acted_types; eauto.
  - destruct L1 as (L1 & L1'). destruct (C49_call_proof own x a s o Sh L1 L1') as (s1 & E & Sh1 & _).
    apply (Step s1); [eapply acted_calls; eauto; constructor|]. intros s' T. eapply acted_calls; eauto.
  - apply Pr. apply L1.
Qed.

Lemma turns_types : forall own x W cs r a s, ample own x W -> W (se_world a) -> shows own x a s -> (In TAB cs -> cfg_autocomp (d_cfg (x_desc x)) = false) ->
  (forall s1, W (se_world (snd (sess_run x a cs))) -> shows own x (snd (sess_run x a cs)) s1 -> turns_limits own x (snd (sess_run x a cs)) r) -> turns_limits own x a (Types cs :: r).
Proof.
  intros own x W cs r a s Am Iw Sh Nt H. pose proof (ample_run own x W cs a s Am Iw Sh Nt) as L. split; [exact L|].
  destruct (C41_proof own x cs a s Sh L) as (s1 & _ & Sh1 & _). apply (H s1); [apply (ample_walk own x W cs a Am Iw)|exact Sh1].
Qed.
Lemma turns_calls : forall own x o r a s, shows own x a s -> allowed (d_pathmax (x_desc x)) own (se_world a) o -> w_cwd (snd (spec_op o (se_world a))) <> None ->
  (forall s1, shows own x (snd (take_turn x a (Calls o))) s1 -> turns_limits own x (snd (take_turn x a (Calls o))) r) -> turns_limits own x a (Calls o :: r).
Proof. intros own x o r a s Sh Al Wn H. split; [split; [exact Al|exact Wn]|]. destruct (C49_call_proof own x a s o Sh Al Wn) as (s1 & _ & Sh1 & _). apply (H s1). exact Sh1. Qed.
