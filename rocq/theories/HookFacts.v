(** * HookFacts: the application-wide exec hook, and the callbacks that print after it. *)
From Coq Require Import Arith.
From Verif Require Import Shell BaseFacts Sched SchedFacts Macro Editor EditFacts Words Line LineFacts SchedProofs LineProofs Spec Tree Cmds CmdFacts PrintfFacts.

(** ** What printing leaves alone *)
Lemma printf_argc : forall x s s', ush_printf x s = Ok s' -> o_argc s' = o_argc s /\ ((forall off, o_wbuf s <> Some (WIn off)) -> forall off, o_wbuf s' <> Some (WIn off)).
Proof.
  intros x s s'. unfold ush_printf.
  destruct (match o_wbuf s with Some WOut => _ | _ => _ end) as [s1|] eqn:E1; [|discriminate]. cbn [bind].
  assert (A1 : o_argc s1 = o_argc s /\ ((forall off, o_wbuf s <> Some (WIn off)) -> forall off, o_wbuf s1 <> Some (WIn off))).
  { assert (Fr : (b <- wr (outb s) 0 NUL ;; ush_write_pointer WOut S_RESET_PROMPT (set_outb b s)) = Ok s1 -> o_argc s1 = o_argc s /\ forall off, o_wbuf s1 <> Some (WIn off)).
    { destruct (wr (outb s) 0 NUL) as [b|]; [|discriminate]. cbn [bind]. unfold ush_write_pointer. destruct (wptr_strlen WOut (set_outb b s)) as [n|]; [|discriminate]. cbn [bind].
      intros H. injection H as <-. split; [reflexivity|discriminate]. }
    destruct (o_wbuf s) as [[off| |u]|] eqn:Wb; try (destruct (Fr E1) as (F1 & F2); split; [exact F1|intros _; exact F2]).
    injection E1 as <-. split; [reflexivity|]. intros _ off. cbn [set_wnext set_state o_wbuf]. rewrite Wb. discriminate. }
  clear E1. destruct (c_strlen (outb s1) 0) as [n|]; [|discriminate]. cbn [bind].
  destruct (c_vsnprintf _ _ _ _) as [b|]; [|discriminate]. cbn [bind]. destruct (c_strlen b n) as [m|]; [|discriminate]. cbn [bind].
  set (s2 := set_wsize _ _). assert (A2 : o_argc s2 = o_argc s /\ ((forall off, o_wbuf s <> Some (WIn off)) -> forall off, o_wbuf s2 <> Some (WIn off))) by exact A1. clearbody s2.
  destruct (match x with FmtErr _ => true | FmtOk t => m <? length t end); [|intros H; injection H as <-; exact A2].
  destruct (c_strlen (outb s2) 0) as [k|]; [|discriminate]. cbn [bind]. destruct (_ <=? _).
  - destruct (c_strcpy _ _ _) as [b'|]; [|discriminate]. cbn [bind]. destruct (c_strlen b' k) as [j|]; [|discriminate]. cbn [bind]. intros H. injection H as <-. exact A2.
  - destruct (_ <? _); [discriminate|]. destruct (c_strcpy _ _ _) as [b'|]; [|discriminate]. cbn [bind]. intros H. injection H as <-. exact A2.
Qed.

Lemma calls_argc : forall args ws l s s', Forall (printing_call ws) l -> do_actions args l s = Ok s' -> o_argc s' = o_argc s.
Proof.
  intros args ws l. induction l as [|a l IH]; intros s s' F E; [cbn [do_actions] in E; injection E as <-; reflexivity|]. inversion F as [|? ? Fa Fl]; subst.
  cbn [do_actions] in E. destruct (do_action args a s) as [s1|] eqn:E1; [|discriminate]. cbn [bind] in E. rewrite (IH _ _ Fl E).
  destruct a; cbn [printing_call] in Fa; try contradiction; cbn [do_action] in E1; try (injection E1 as <-; reflexivity).
  - destruct (nth_error args i) as [off|]; [|destruct (i =? length args); discriminate]. unfold ush_print, ush_write_pointer in E1. destruct (wptr_strlen _ _); [|discriminate]. cbn [bind] in E1. injection E1 as <-. reflexivity.
  - apply (printf_argc _ _ _ E1).
Qed.

Lemma calls_no_in : forall args l s s', Forall (printing_call []) l -> do_actions args l s = Ok s' -> (forall off, o_wbuf s <> Some (WIn off)) -> forall off, o_wbuf s' <> Some (WIn off).
Proof.
  intros args l. induction l as [|a l IH]; intros s s' F E N; [cbn [do_actions] in E; injection E as <-; exact N|]. inversion F as [|? ? Fa Fl]; subst.
  cbn [do_actions] in E. destruct (do_action args a s) as [s1|] eqn:E1; [|discriminate]. cbn [bind] in E. apply (IH _ _ Fl E).
  destruct a; cbn [printing_call] in Fa; try contradiction; cbn [do_action] in E1; try (injection E1 as <-; cbn; discriminate).
  - cbn [length] in Fa. lia.
  - apply (printf_argc _ _ _ E1). exact N.
Qed.

Lemma spoken_args : forall d ws ws' l buf t, Forall (printing_call []) l -> spoken d ws buf t l = spoken d ws' buf t l.
Proof.
  intros d ws ws' l. induction l as [|a l IH]; intros buf t F; [reflexivity|]. inversion F as [|? ? Fa Fl]; subst.
  destruct a; cbn [printing_call] in Fa; try contradiction; cbn [spoken tree_call]; try (rewrite IH by exact Fl; reflexivity).
  - cbn [length] in Fa. lia.
  - destruct x; [|contradiction]. destruct buf as [(full & p)|]; apply IH; exact Fl.
Qed.

Lemma printing_proper : forall ws l, Forall (printing_call ws) l -> Forall (proper_call ws) l.
Proof. intros ws l. apply Forall_impl. intros a P. destruct a; cbn in *; try contradiction; exact P. Qed.
Lemma printing_both : forall ws l, Forall (printing_call ws) l -> Forall (proper_call []) l -> Forall (printing_call []) l.
Proof.
  intros ws l F G. induction F as [|a l Fa Fl IH]; [constructor|]. inversion G as [|? ? Ga Gl]; subst. constructor; [|exact (IH Gl)].
  destruct a; cbn [printing_call] in Fa; try contradiction; exact Ga.
Qed.

(** ** The state in which the file of a line is looked up *)

(** The hook has printed [hk]: what is going to be printed by it, and by further calls. *)
Definition voice (c : byte) (ws : list bytes) (hk : list action) (s : st) : Prop :=
  exists buf t, speaks s s buf t /\ length (buf_text buf) <= 2 + length (formatted hk) /\
    (forall r, said (o_desc s) c ws (hk ++ r) = spoken (o_desc s) ws buf t r) /\
    (Forall (proper_call []) hk -> forall off, o_wbuf s <> Some (WIn off)).

Definition set_to_run (e : env) (ws : list bytes) (c : byte) (s s2 : st) (args : list nat) : Prop :=
  core s2 = core s /\ bufs_ok s2 /\ voice c ws (hook_calls e (o_desc s) ws) s2 /\
  o_argc s2 = length ws /\ (exists r, inb s2 = packed ws ++ r) /\
  ush_parse_get_args s2 = Ok args /\ arg_values (inb s2) args = Ok ws /\ length args = length ws /\
  lg s2 = lg s ++ EvIn c :: map EvOut (eol_echo c) ++ hook_events (o_desc s) ws.

(** The file of a line. *)
Definition run_file (e : env) (args : list nat) (ws : list bytes) (s : st) : res st :=
  r <- ush_file_find_by_name (hd [] ws) s ;;
  match r with
  | None => Ok (ush_print_status ST_COMMAND_SYNTAX_ERROR s)
  | Some f => match f_exec f with None => Ok (ush_print_status ST_FILE_NOT_EXECUTABLE s) | Some cb => call_exec e cb f args ws s end
  end.

Lemma speaks_self : forall s0 s buf t, speaks s0 s buf t -> speaks s s buf t.
Proof. intros s0 s buf t (_ & _ & _ & _ & H). split; [reflexivity|]. split; [reflexivity|]. split; [reflexivity|]. split; [reflexivity|exact H]. Qed.

Lemma hooked_line_took : forall e l ws s c cw, entered l ws s -> cwd_is s cw -> c = CR \/ c = LF -> ws <> [] -> hook_prints e (o_desc s) ws ->
  exists s2 args, set_to_run e ws c s s2 args /\
    (forall s', fed e [c] s s' <-> exists s3, run_file e args ws s2 = Ok s3 /\ quiet e s3 s') /\
    (forall s3, run_file e args ws s2 = Ok s3 -> took e c s s3).
Proof.
  intros e l ws s c cw T W Hc Ne (Hp & Rm). destruct (entered_line_took e l ws s c cw T W Hc) as (s1 & args & R & F & Tk).
  destruct R as (K & B & Wr & St & Ac & Pk & Pa & Av & La & L). pose proof (core_desc _ _ K) as D.
  pose proof (wrote_speaks c s1 Hc B St Wr) as Sp. apply eol_length in Hc as Le.
  assert (Nw : forall off, o_wbuf s1 <> Some (WIn off)) by (intros off; destruct Wr as (-> & _); discriminate).
  assert (Hook : exists s2 buf, match d_exec (o_desc s1) with None => Ok s1 | Some cb => do_actions args (e_exec e cb None ws) (emit (EvExec (XUser cb) None ws) s1) end = Ok s2 /\
    speaks s2 s2 buf (said (o_desc s) c ws (hook_calls e (o_desc s) ws)) /\ length (buf_text buf) <= 2 + length (formatted (hook_calls e (o_desc s) ws)) /\
    (forall r, said (o_desc s) c ws (hook_calls e (o_desc s) ws ++ r) = spoken (o_desc s) ws buf (said (o_desc s) c ws (hook_calls e (o_desc s) ws)) r) /\
    (Forall (proper_call []) (hook_calls e (o_desc s) ws) -> forall off, o_wbuf s2 <> Some (WIn off)) /\
    core s2 = core s /\ inb s2 = inb s1 /\ length (outb s2) = length (outb s1) /\ o_argc s2 = o_argc s1 /\
    lg s2 = lg s1 ++ hook_events (o_desc s) ws).
  { rewrite D. unfold hook_calls, hook_events in *. destruct (d_exec (o_desc s)) as [h|].
    - set (s1' := emit (EvExec (XUser h) None ws) s1). assert (Sp' : speaks s1' s1' (Some (eol_echo c, length (eol_echo c))) []) by exact (wrote_speaks c s1' Hc B St Wr).
      destruct (calls_speak args ws (e_exec e h None ws) s1' s1' _ _ Sp' B Av Hp) as (s2 & buf & E & S2 & Lb & Sr).
      { cbn [buf_text]. change (o_desc s1') with (o_desc s1). rewrite D. unfold room_for in Rm. lia. }
      cbn [buf_text] in Lb. change (o_desc s1') with (o_desc s1) in *. rewrite D in *.
      exists s2, buf. split; [exact E|]. split; [exact (speaks_self _ _ _ _ S2)|]. split; [lia|]. split; [exact Sr|].
      split; [intros Fn; exact (calls_no_in _ _ _ _ (printing_both _ _ Hp Fn) E Nw)|]. destruct S2 as (K2 & I2 & O2 & L2 & _).
      split; [rewrite K2; exact K|]. split; [exact I2|]. split; [exact O2|]. split; [exact (calls_argc _ _ _ _ _ Hp E)|]. exact L2.
    - exists s1, (Some (eol_echo c, length (eol_echo c))). split; [reflexivity|]. split; [exact Sp|]. split; [cbn [buf_text formatted flat_map length]; lia|]. split; [reflexivity|].
      split; [intros _; exact Nw|]. split; [exact K|]. split; [reflexivity|]. split; [reflexivity|]. split; [reflexivity|]. rewrite app_nil_r. reflexivity. }
  destruct Hook as (s2 & buf & E & S2 & Lb & Sr & Nw2 & K2 & I2 & O2 & A2 & L2). exists s2, args. split.
  - split; [exact K2|]. split; [unfold bufs_ok in *; rewrite (core_desc _ _ K2), I2, O2, <- D; exact B|].
    split; [exists buf; eexists; rewrite (core_desc _ _ K2); split; [exact S2|]; split; [exact Lb|]; split; [exact Sr|exact Nw2]|].
    split; [rewrite A2; exact Ac|]. rewrite I2. split; [exact Pk|]. split; [unfold ush_parse_get_args in *; rewrite A2, I2; exact Pa|].
    split; [exact Av|]. split; [exact La|]. rewrite L2, L, <- app_assoc. reflexivity.
  - assert (Ra : run_argv e args ws s1 = run_file e args ws s2) by (destruct ws as [|name rest]; [congruence|]; cbn [run_argv]; rewrite E; cbn [bind]; reflexivity).
    rewrite Ra in *. split; [exact F|exact Tk].
Qed.
Lemma hooked_line : forall e l ws s c cw, entered l ws s -> cwd_is s cw -> c = CR \/ c = LF -> ws <> [] -> hook_prints e (o_desc s) ws ->
  exists s2 args, set_to_run e ws c s s2 args /\
    forall s', fed e [c] s s' <-> exists s3, run_file e args ws s2 = Ok s3 /\ quiet e s3 s'.
Proof.
  intros e l ws s c cw T W Hc Ne X. destruct (hooked_line_took e l ws s c cw T W Hc Ne X) as (s2 & args & R & F & _). exists s2, args. split; [exact R|exact F].
Qed.

(** The hook has been called; [s] is the shell before the line with the tree as it is now.
    When the shell is done with the line, [G] holds. *)
Definition poised (e : env) (G : st -> Prop) (c : byte) (ws : list bytes) (s : st) : Prop :=
  ws <> [] -> exists s2 args, set_to_run e ws c s s2 args /\ forall s3 s', run_file e args ws s2 = Ok s3 -> quiet e s3 s' -> G s'.
Definition asked_at (e : env) (own : list nat) (w : world) (cwd : dirpath) (G : st -> Prop) (c : byte) (ws : list bytes) (f : file) (s : st) : Prop :=
  knows own s w /\ w_cwd w = Some cwd /\ Forall no_nul ws /\ poised e G c ws s /\
  file_named (hd [] ws) (flat_map snd (w_groups w)) = Some f.
Definition called_at (e : env) (own : list nat) (w : world) (cwd : dirpath) (G : st -> Prop) (c : byte) (ws : list bytes) (f : file) (s : st) : Prop :=
  knows own s w /\ w_cwd w = Some cwd /\ Forall no_nul ws /\ poised e G c ws s /\
  findable s w [hd [] ws] /\ denotes w (hd [] ws) = Some f.
Definition answered_at (G : st -> Prop) (c : byte) (s : st) (evs : list event) (s' : st) : Prop :=
  G s' /\ editing 0 [] s' /\ bufs_ok s' /\ lg s' = lg s ++ EvIn c :: map EvOut (eol_echo c) ++ evs.
Definition does_at (G : st -> Prop) (c : byte) (s : st) (x : exec_cb) (f : file) (ws : list bytes) (evs : list event) (t : bytes) (cwd : dirpath) (s' : st) : Prop :=
  answered_at G c s (hook_events (o_desc s) ws ++ EvExec x (Some (f_name f)) ws :: evs ++ map EvOut (t ++ prompt (o_desc s) (show cwd))) s'.

Lemma line_poised : forall e l ws s c cw, entered l ws s -> cwd_is s cw -> c = CR \/ c = LF -> hook_prints e (o_desc s) ws -> poised e (fed e [c] s) c ws s.
Proof.
  intros e l ws s c cw T W Hc X Ne. destruct (hooked_line e l ws s c cw T W Hc Ne X) as (s2 & args & R & F). exists s2, args. split; [exact R|].
  intros s3 s' E Q. apply F. eauto.
Qed.

(** In a callback called after the hook. *)
Lemma said_quiet : forall e args ws ws' hk l c s cw, arg_values (inb s) args = Ok ws' -> Forall (printing_call ws') l -> ws' = ws \/ ws' = [] -> room_for (o_desc s) (hk ++ l) ->
  cwd_is s cw -> bufs_ok s -> voice c ws hk s ->
  exists s1 s', do_actions args l s = Ok s1 /\ quiet e s1 s' /\ editing 0 [] s' /\ bufs_ok s' /\ core s' = core s /\
    lg s' = lg s ++ map EvOut (said (o_desc s) c ws (hk ++ l) ++ prompt (o_desc s) cw).
Proof.
  intros e args ws ws' hk l c s cw Av F Hw Rm W B (buf & t & H & Lb & Sr & _).
  destruct (calls_speak args ws' l s s _ _ H B Av F) as (s1 & buf' & E & H1 & _).
  { unfold room_for in Rm. unfold formatted in *. rewrite flat_map_app, app_length in Rm. lia. }
  replace (spoken (o_desc s) ws' buf t l) with (spoken (o_desc s) ws buf t l) in H1 by (destruct Hw; subst ws'; [reflexivity|apply spoken_args; exact F]). rewrite <- Sr in H1.
  destruct (speaks_quiet e s s1 buf' _ cw H1 W B) as (s' & Q & Ed & B' & K' & L'). exists s1, s'.
  split; [exact E|]. split; [exact Q|]. split; [exact Ed|]. split; [exact B'|]. split; [exact K'|exact L'].
Qed.

Lemma voice_emit : forall c ws hk x s, voice c ws hk s -> voice c ws hk (emit x s).
Proof.
  intros c ws hk x s (buf & t & (_ & _ & _ & _ & H) & R). exists buf, t. split; [|exact R].
  split; [reflexivity|]. split; [reflexivity|]. split; [reflexivity|]. split; [reflexivity|exact H].
Qed.

(** The arguments have been overwritten: only texts of its own are going to be printed. *)
Lemma voice_inb : forall c ws hk b s, voice c ws hk s -> Forall (proper_call []) hk -> voice c ws hk (set_inb b s).
Proof.
  intros c ws hk b s (buf & t & (_ & _ & _ & _ & Hb & Hp) & Lb & Sr & Nw) F. specialize (Nw F).
  assert (Pn : forall u, pending s u -> pending (set_inb b s) u).
  { intros u (P1 & P2 & P3). split; [exact P1|]. split; [exact P2|]. intros j x N. specialize (P3 j x N). unfold wbuf_rd in *. cbn [set_inb o_wbuf o_wpos outb] in *.
    destruct (o_wbuf s) as [[off| |v]|]; try exact P3. exfalso. exact (Nw off eq_refl). }
  exists buf, t. split; [|split; [exact Lb|split; [|intros _; exact Nw]]].
  - split; [reflexivity|]. split; [reflexivity|]. split; [reflexivity|]. split; [reflexivity|]. split; [exact Hb|].
    destruct Hp as [Hp|[(Hp & Hn)|(t0 & E0 & Hp & Hn)]]; [left; exact Hp|right; left; auto|right; right; exists t0; auto].
  - exact Sr.
Qed.
