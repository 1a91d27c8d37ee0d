(** * CmdProofs: the built-in commands, from the end of line to the prompt. *)
From Coq Require Import Arith.
From Verif Require Import Shell BaseFacts LogFacts Sched ServiceFacts SchedFacts Macro Editor EditFacts Words ParseFacts PromptFacts PhaseFacts Line LineFacts SchedProofs LineProofs Spec PathFacts CollapseFacts DecodeFacts Tree TreeFacts TreeOps TreeFind TreeProofs Cmds CmdFacts PrintfFacts HookFacts.

Lemma cwd_show : forall own s w cwd, knows own s w -> w_cwd w = Some cwd -> cwd_is s (show cwd).
Proof.
  intros own s w cwd K W. pose proof K as ((O & St & _) & _ & _ & _ & _ & Cu). rewrite W in Cu. destruct Cu as (d & D & C).
  apply dir_at_some in D as (Id & <-). destruct (St d Id) as (nd & Hn & P & _). exists nd. rewrite C. cbn [getp]. unfold getn, rd. rewrite Hn. auto.
Qed.

Lemma knows_core : forall own s s' w, core s' = core s -> knows own s w -> knows own s' w.
Proof. intros own s s' w K. unfold core in K. injection K as K1 K2 K3 K4 K5 K6. apply knows_ext; auto. Qed.

Lemma find_group : forall own s w name f, knows own s w -> file_named name (flat_map snd (w_groups w)) = Some f -> ush_file_find_by_name name s = Ok (Some f).
Proof. intros own s w name f (_ & G & _) F. unfold ush_file_find_by_name. rewrite (find_cmds_eq _ _ _ _ G), F. reflexivity. Qed.

Lemma find_denotes : forall own s w cwd n, knows own s w -> w_cwd w = Some cwd -> no_nul n -> names_ok (d_pathmax (o_desc s)) (w_fs w) ->
  file_named n (flat_map snd (w_groups w)) <> None \/ length (full_text (here w) n) < d_pathmax (o_desc s) ->
  ush_file_find_by_name n s = Ok (denotes w n).
Proof. intros own s w cwd n K Wc N Nm Fi. apply (find_file_ok own); auto. congruence. Qed.

Lemma asked_line : forall e own w cwd l ws f s c, asked e own w cwd l ws f s -> c = CR \/ c = LF -> asked_at e own w cwd (fed e [c] s) c ws f s.
Proof.
  intros e own w cwd l ws f s c (K & Wc & T & X & Fn) Hc. split; [exact K|]. split; [exact Wc|]. split; [exact (entered_no_nul _ _ _ T)|].
  split; [exact (line_poised e l ws s c _ T (cwd_show _ _ _ _ K Wc) Hc X)|exact Fn].
Qed.
Lemma called_line : forall e own w cwd l ws f s c, called e own w cwd l ws f s -> c = CR \/ c = LF -> called_at e own w cwd (fed e [c] s) c ws f s.
Proof.
  intros e own w cwd l ws f s c (K & Wc & T & X & Fn) Hc. split; [exact K|]. split; [exact Wc|]. split; [exact (entered_no_nul _ _ _ T)|].
  split; [exact (line_poised e l ws s c _ T (cwd_show _ _ _ _ K Wc) Hc X)|exact Fn].
Qed.

(** From the end of line to the exec callback of a file. *)
Lemma run_line : forall e own w cwd G ws f s c cb evs (P : st -> Prop), knows own s w -> w_cwd w = Some cwd -> Forall no_nul ws -> poised e G c ws s ->
  ush_file_find_by_name (hd [] ws) s = Ok (Some f) -> f_exec f = Some cb -> ws <> [] ->
  (forall s2 args, set_to_run e ws c s s2 args -> knows own s2 w -> cwd_is s2 (show cwd) -> Forall no_nul ws ->
     let s2' := emit (EvExec cb (Some (f_name f)) ws) s2 in
     exists s3 s', call_exec e cb f args ws s2 = Ok s3 /\ quiet e s3 s' /\ editing 0 [] s' /\ bufs_ok s' /\ P s' /\ lg s' = lg s2' ++ evs) ->
  exists s', answered_at G c s (hook_events (o_desc s) ws ++ EvExec cb (Some (f_name f)) ws :: evs) s' /\ P s'.
Proof.
  intros e own w cwd G ws f s c cb evs P K Wc Nn X Fn Fx Ne H.
  pose proof (cwd_show _ _ _ _ K Wc) as W. destruct (X Ne) as (s2 & args & R & F).
  pose proof R as (Kc & B & _ & _ & _ & _ & _ & _ & L).
  destruct (H s2 args R (knows_core _ _ _ _ Kc K) (core_cwd _ _ _ Kc W) Nn) as (s3 & s' & E & Q & Ed & B' & HP & L').
  exists s'. split; [|exact HP]. split; [|split; [exact Ed|split; [exact B'|]]].
  - apply (F s3); [|exact Q]. unfold run_file.
    rewrite (find_core (hd [] ws) s s2 Kc), Fn. cbn [bind]. rewrite Fx. exact E.
  - rewrite L'. cbn [emit set_lg lg]. rewrite L. rewrite <- ?app_assoc. cbn [app]. rewrite <- ?app_assoc. reflexivity.
Qed.

Lemma run_cmd : forall e own w cwd G ws f s c cb evs (P : st -> Prop), asked_at e own w cwd G c ws f s -> c = CR \/ c = LF -> f_exec f = Some cb -> ws <> [] ->
  (forall s2 args, set_to_run e ws c s s2 args -> knows own s2 w -> cwd_is s2 (show cwd) -> Forall no_nul ws ->
     let s2' := emit (EvExec cb (Some (f_name f)) ws) s2 in
     exists s3 s', call_exec e cb f args ws s2 = Ok s3 /\ quiet e s3 s' /\ editing 0 [] s' /\ bufs_ok s' /\ P s' /\ lg s' = lg s2' ++ evs) ->
  exists s', answered_at G c s (hook_events (o_desc s) ws ++ EvExec cb (Some (f_name f)) ws :: evs) s' /\ P s'.
Proof. intros e own w cwd G ws f s c cb evs P (K & Wc & T & X & Fn) _ Fx Ne H. apply (run_line e own w cwd G); auto. exact (find_group own s w _ f K Fn). Qed.

(** A command that prints a message and a new line. *)
Lemma print_cmd : forall e p t s s3 cw, cwd_is s cw -> bufs_ok s -> wptr_str p s = Ok t -> ush_write_pointer p S_RESET s = Ok s3 ->
  exists s', quiet e s3 s' /\ editing 0 [] s' /\ bufs_ok s' /\ core s' = core s /\ lg s' = lg s ++ map EvOut ((t ++ CRLF) ++ prompt (o_desc s) cw).
Proof.
  intros e p t s s3 cw W B P E. destruct (print_nl e p t s s3 cw W B P E) as (s' & Q & Ed & K & B' & L). exists s'. rewrite <- app_assoc. auto.
Qed.

(** A command that ends in the prompt state. *)
Lemma prompt_cmd : forall e s s1 evs cw, emits e s evs s1 -> o_state s1 = S_RESET_PROMPT -> cwd_is s cw -> bufs_ok s ->
  exists s', quiet e s s' /\ editing 0 [] s' /\ bufs_ok s' /\ core s' = core s /\ lg s' = lg s ++ evs ++ map EvOut (prompt (o_desc s) cw).
Proof.
  intros e s s1 evs cw (Wk & K & L) St W B.
  destruct (quiet_reset_prompt e s1 cw St (core_cwd _ _ _ (proj1 K) W) (kept_bufs _ _ K B)) as (s' & Q & Ed & K' & B' & L').
  exists s'. split; [apply (works_quiet _ _ _ Wk); exact Q|]. split; [exact Ed|]. split; [exact B'|]. split; [rewrite K'; apply K|].
  rewrite L', L, (kept_desc _ _ K), <- app_assoc. reflexivity.
Qed.

Lemma started : forall f p s, f_proc f = Some p -> o_cur s <> None -> bufs_ok s -> at_ p S_PROCESS_START (cnt s) (ush_process_start f s).
Proof. intros f p s F C B. split; [split; [exact C|exists f; split; [reflexivity|exact F]]|]. split; [reflexivity|]. split; [reflexivity|exact B]. Qed.

Lemma emit_bufs : forall x s, bufs_ok s -> bufs_ok (emit x s).
Proof. intros x s B. exact B. Qed.

Lemma emit_out : forall (t : bytes) p, map EvOut t ++ map EvOut p = [] ++ map EvOut (t ++ p).
Proof. intros. rewrite map_app. reflexivity. Qed.

(** ** C23 help *)
Lemma C23_list_at : forall e own w cwd Go n s c, asked_at e own w cwd Go c [n] cmd_help s -> c = CR \/ c = LF ->
  Forall (listable (o_desc s)) (flat_map snd (w_groups w)) ->
  exists s', does_at Go c s XHelp cmd_help [n] [] (help_text (d_cfg (o_desc s)) (flat_map snd (w_groups w))) cwd s' /\ core s' = core s.
Proof.
  intros e own w cwd Go n s c A Hc F. apply (run_cmd e own w cwd Go [n] cmd_help s c XHelp); auto; [discriminate|].
  intros s2 args R K W _ s2'. pose proof R as (Kc & B & _). pose proof K as (_ & (Nd & Ch & Gf) & _).
  set (s3 := ush_process_start cmd_help (set_pitem 0 (set_pidx 0 (set_pnode (o_cmds s2) s2')))).
  assert (A3 : at_ PHelp S_PROCESS_START (o_cmds s2, o_pchild s2, 0, 0, o_pdata s2, o_pdsize s2) s3).
  { apply (started cmd_help PHelp (set_pitem 0 (set_pidx 0 (set_pnode (o_cmds s2) s2')))); [reflexivity|exact (cwd_cur _ _ W)|exact B]. }
  destruct (help_groups e _ _ _ (w_groups w) _ s3 A3) as (s4 & Em & St).
  - exact Ch.
  - exact Gf.
  - change (o_desc s3) with (o_desc s2). rewrite (core_desc _ _ Kc). exact F.
  - destruct (prompt_cmd e s3 s4 _ (show cwd) Em St) as (s' & Q & Ed & B' & K' & L').
    + exact W.
    + exact B.
    + exists s3, s'. split; [reflexivity|]. split; [exact Q|]. split; [exact Ed|]. split; [exact B'|]. split.
      * rewrite K'. exact Kc.
      * rewrite L'. change (lg s3) with (lg s2'). change (o_desc s3) with (o_desc s2). rewrite (core_desc _ _ Kc), emit_out. reflexivity.
Qed.

(** Message of a command. *)
Lemma status_cmd : forall e x s cw, cwd_is s cw -> bufs_ok s ->
  exists s', quiet e (ush_print_status x s) s' /\ editing 0 [] s' /\ bufs_ok s' /\ core s' = core s /\
    lg s' = lg s ++ [] ++ map EvOut ((message s x ++ CRLF) ++ prompt (o_desc s) cw).
Proof.
  intros e x s cw W B. destruct (print_status_quiet e x s cw W B) as (s' & Q & Ed & K & B' & L). exists s'. rewrite L. unfold then_prompt. rewrite <- app_assoc. auto.
Qed.

(** The result of a callback that prints a status. *)
Lemma status_result : forall e own w cwd Go ws f s c cb x, asked_at e own w cwd Go c ws f s -> c = CR \/ c = LF -> f_exec f = Some cb -> ws <> [] ->
  (forall s2 args, set_to_run e ws c s s2 args -> knows own s2 w -> cwd_is s2 (show cwd) -> Forall no_nul ws ->
     exists s3, call_exec e cb f args ws s2 = Ok (ush_print_status x s3) /\ core s3 = core s2 /\ bufs_ok s3 /\ lg s3 = lg s2 ++ [EvExec cb (Some (f_name f)) ws]) ->
  exists s', does_at Go c s cb f ws [] (message s x ++ CRLF) cwd s' /\ core s' = core s.
Proof.
  intros e own w cwd Go ws f s c cb x A Hc Fx Ne H. apply (run_cmd e own w cwd Go ws f s c cb); auto.
  intros s2 args R K W N s2'. destruct (H s2 args R K W N) as (s3 & E & K3 & B3 & L3). pose proof R as (Kc & _).
  destruct (status_cmd e x s3 (show cwd) (core_cwd _ _ _ K3 W) B3) as (s' & Q & Ed & B' & K' & L').
  exists (ush_print_status x s3), s'. split; [exact E|]. split; [exact Q|]. split; [exact Ed|]. split; [exact B'|]. split; [congruence|].
  rewrite L', L3. unfold message. rewrite (core_desc _ _ K3), (core_desc _ _ Kc). reflexivity.
Qed.

Lemma C23_file_at : forall e own w cwd Go n name s c, asked_at e own w cwd Go c [n; name] cmd_help s -> c = CR \/ c = LF -> findable s w [name] ->
  exists s', does_at Go c s XHelp cmd_help [n; name] []
    (match denotes w name with
     | None => message s ST_FILE_NOT_FOUND ++ CRLF
     | Some g => match f_help g with None => message s ST_FILE_NO_HELP ++ CRLF | Some t => t end
     end) cwd s' /\ core s' = core s.
Proof.
  intros e own w cwd Go n name s c A Hc (Nm & Fi). inversion Fi as [|? ? F1 _]; subst. pose proof A as (_ & Wc & _).
  assert (Find : forall s2, core s2 = core s -> knows own s2 w -> Forall no_nul [n; name] -> ush_file_find_by_name name s2 = Ok (denotes w name)).
  { intros s2 Kc K N. inversion N as [|? ? _ N2]; subst. inversion N2; subst. apply (find_denotes own s2 w cwd); auto; rewrite (core_desc _ _ Kc); auto. }
  destruct (denotes w name) as [g|] eqn:D; [destruct (f_help g) as [t|] eqn:G|].
  - apply (run_cmd e own w cwd Go [n; name] cmd_help s c XHelp); auto; [discriminate|].
    intros s2 args R K W N s2'. pose proof R as (Kc & B & _).
    set (s3 := write_str t S_RESET_PROMPT s2').
    assert (Em : emits e s3 [] s3) by apply emits_refl.
    destruct (quiet_reset_prompt e (after_write (WStr t) t S_RESET_PROMPT s2') (show cwd) eq_refl W B) as (s' & Q & Ed & K' & B' & L').
    exists s3, s'. split; [|split; [|split; [exact Ed|split; [exact B'|split]]]].
    + cbn [call_exec help_callback]. rewrite (find_core name s2 (emit (EvExec XHelp (Some (f_name cmd_help)) [n; name]) s2) eq_refl), (Find s2 Kc K N). cbn [bind]. rewrite G. reflexivity.
    + apply quiet_write_str; [exact (cwd_cur _ _ W)|exact Q].
    + rewrite K'. exact Kc.
    + rewrite L'. change (lg (after_write (WStr t) t S_RESET_PROMPT s2')) with (lg s2' ++ map EvOut t).
      change (o_desc (after_write (WStr t) t S_RESET_PROMPT s2')) with (o_desc s2). rewrite (core_desc _ _ Kc), <- app_assoc, emit_out. reflexivity.
  - apply (status_result e own w cwd Go [n; name] cmd_help s c XHelp); auto; [discriminate|].
    intros s2 args (Kc & B & _) K W N. exists (emit (EvExec XHelp (Some (f_name cmd_help)) [n; name]) s2). split; [|split; [reflexivity|split; [exact B|reflexivity]]].
    cbn [call_exec help_callback]. rewrite (find_core name s2 (emit _ s2) eq_refl), (Find s2 Kc K N). cbn [bind]. rewrite G. reflexivity.
  - apply (status_result e own w cwd Go [n; name] cmd_help s c XHelp); auto; [discriminate|].
    intros s2 args (Kc & B & _) K W N. exists (emit (EvExec XHelp (Some (f_name cmd_help)) [n; name]) s2). split; [|split; [reflexivity|split; [exact B|reflexivity]]].
    cbn [call_exec help_callback]. rewrite (find_core name s2 (emit _ s2) eq_refl), (Find s2 Kc K N). reflexivity.
Qed.

(** ** C22 ls *)
Lemma ls_start : forall e own w cwd s s2' (d : dirent), knows own s2' w -> cwd_is s2' (show cwd) -> bufs_ok s2' -> core s2' = core s -> In d (w_fs w) ->
  Forall (listable (o_desc s)) (de_files d) -> 6 < d_outsize (o_desc s) \/ de_files d = [] ->
  exists s', quiet e (ush_process_start cmd_ls (set_pnode (Some (de_node d)) s2')) s' /\ editing 0 [] s' /\ bufs_ok s' /\ core s' = core s /\
    lg s' = lg s2' ++ [] ++ map EvOut (ls_dir (d_cfg (o_desc s)) d (w_fs w) ++ prompt (o_desc s) (show cwd)).
Proof.
  intros e own w cwd s s2' d K W B Kc Id F L6. set (s3 := ush_process_start cmd_ls (set_pnode (Some (de_node d)) s2')).
  assert (A3 : at_ PLs S_PROCESS_START (Some (de_node d), o_pchild s2', o_pitem s2', o_pidx s2', o_pdata s2', o_pdsize s2') s3).
  { apply (started cmd_ls PLs (set_pnode (Some (de_node d)) s2')); [reflexivity|exact (cwd_cur _ _ W)|exact B]. }
  assert (D3 : o_desc s3 = o_desc s) by exact (core_desc _ _ Kc).
  destruct (ls_run e s3 (o_root s2') (w_fs w) d _ _ _ _ _ A3) as (s4 & Em & St); [apply K|exact Id|rewrite D3; exact F|rewrite D3; exact L6|].
  destruct (prompt_cmd e s3 s4 _ (show cwd) Em St W B) as (s' & Q & Ed & B' & K' & L').
  exists s'. split; [exact Q|]. split; [exact Ed|]. split; [exact B'|]. split; [rewrite K'; exact Kc|].
  rewrite L', D3, emit_out. reflexivity.
Qed.

Lemma C22_here_at : forall e own w cwd Go n s c d, asked_at e own w cwd Go c [n] cmd_ls s -> c = CR \/ c = LF -> dir_at cwd (w_fs w) = Some d ->
  Forall (listable (o_desc s)) (de_files d) -> 6 < d_outsize (o_desc s) \/ de_files d = [] ->
  exists s', does_at Go c s XLs cmd_ls [n] [] (ls_dir (d_cfg (o_desc s)) d (w_fs w)) cwd s' /\ core s' = core s.
Proof.
  intros e own w cwd Go n s c d A Hc Dd F L6. pose proof A as (_ & Wc & _). apply (run_cmd e own w cwd Go [n] cmd_ls s c XLs); auto; [discriminate|].
  intros s2 args R K W _ s2'. pose proof R as (Kc & B & _). pose proof K as (_ & _ & _ & _ & _ & Cu). rewrite Wc in Cu. destruct Cu as (d' & D' & Cu).
  assert (d' = d) by congruence. subst d'. apply dir_at_some in Dd as (Id & _).
  destruct (ls_start e own w cwd s s2' d K W B Kc Id F L6) as (s' & Q & Ed & B' & K' & L').
  exists (ush_process_start cmd_ls (set_pnode (Some (de_node d)) s2')), s'. split; [|split; [exact Q|split; [exact Ed|split; [exact B'|split; [exact K'|exact L']]]]].
  cbn [call_exec ls_callback]. rewrite <- Cu; reflexivity.
Qed.

Lemma C22_path_at : forall e own w cwd Go n path s c, asked_at e own w cwd Go c [n; path] cmd_ls s -> c = CR \/ c = LF ->
  length (full_text cwd path) < d_pathmax (o_desc s) ->
  match dir_named (show (resolve_text cwd path)) (w_fs w) with
  | Some d => Forall (listable (o_desc s)) (de_files d) -> 6 < d_outsize (o_desc s) \/ de_files d = [] ->
      exists s', does_at Go c s XLs cmd_ls [n; path] [] (ls_dir (d_cfg (o_desc s)) d (w_fs w)) cwd s' /\ core s' = core s
  | None =>
      exists s', does_at Go c s XLs cmd_ls [n; path] [] (message s ST_NODE_NOT_FOUND ++ CRLF) cwd s' /\ core s' = core s
  end.
Proof.
  intros e own w cwd Go n path s c A Hc Lp. pose proof A as (K0 & Wc & _).
  assert (Hw : here w = cwd) by (unfold here; rewrite Wc; reflexivity).
  assert (Find : forall s2, core s2 = core s -> knows own s2 w -> Forall no_nul [n; path] ->
     forall s2', core s2' = core s2 -> (abs <- abs_path_str (d_pathmax (o_desc s2')) (hp s2') (o_cur s2') path ;;
      ush_node_get_by_path (d_pathmax (o_desc s2')) (hp s2') (o_root s2') abs) = Ok (option_map de_node (dir_named (show (resolve_text cwd path)) (w_fs w)))).
  { intros s2 Kc K N s2' K2. inversion N as [|? ? _ N2]; subst. inversion N2 as [|? ? N3 _]; subst.
    assert (K' : knows own s2' w) by (eapply knows_core; eauto). assert (D' : o_desc s2' = o_desc s) by (rewrite (core_desc _ _ K2); apply core_desc; exact Kc).
    destruct (abs_path_world own s2' w path K' N3) as (P & _ & Kh); [intros X; congruence|]. rewrite P by (rewrite D'; exact Lp). cbn [bind].
    apply (get_by_path_text (hp s2') (o_root s2') (w_fs w)); [apply K'| |].
    - apply resolve_text_no_nul; auto.
    - rewrite D'. pose proof (resolve_text_length (here w) path). lia. }
  destruct (dir_named (show (resolve_text cwd path)) (w_fs w)) as [d|] eqn:Dn; cbn [option_map] in Find.
  - intros F L6. apply (run_cmd e own w cwd Go [n; path] cmd_ls s c XLs); auto; [discriminate|].
    intros s2 args R K W N s2'. pose proof R as (Kc & B & _). assert (Id : In d (w_fs w)).
    { destruct K as ((Ok_ & _) & _). eapply dir_named_some; eauto. }
    destruct (ls_start e own w cwd s s2' d K W B Kc Id F L6) as (s' & Q & Ed & B' & K' & L').
    exists (ush_process_start cmd_ls (set_pnode (Some (de_node d)) s2')), s'. split; [|split; [exact Q|split; [exact Ed|split; [exact B'|split; [exact K'|exact L']]]]].
    pose proof (Find s2 Kc K N s2' eq_refl) as E. cbn [call_exec ls_callback]. fold s2'. destruct (abs_path_str _ _ _ _); cbn [bind] in *; [|discriminate].
    rewrite E. reflexivity.
  - apply (status_result e own w cwd Go [n; path] cmd_ls s c XLs); auto; [discriminate|].
    intros s2 args (Kc & B & _) K W N. exists (set_pnode None (emit (EvExec XLs (Some (f_name cmd_ls)) [n; path]) s2)). split; [|split; [reflexivity|split; [exact B|reflexivity]]].
    set (s2' := emit (EvExec XLs (Some (f_name cmd_ls)) [n; path]) s2).
    pose proof (Find s2 Kc K N s2' eq_refl) as E. cbn [call_exec ls_callback]. fold s2'. destruct (abs_path_str _ _ _ _); cbn [bind] in *; [|discriminate].
    rewrite E. reflexivity.
Qed.

(** ** C19 cat *)
Lemma cat_check_ok : forall names s find, Forall (has_getter find) names -> (forall n, In n names -> ush_file_find_by_name n s = Ok (find n)) -> cat_check names s = Ok None.
Proof.
  intros names s find H. induction H as [|n r (f & cb & F & G) H IH]; intros Fi; [reflexivity|]. cbn [cat_check]. rewrite (Fi n (or_introl eq_refl)), F. cbn [bind]. rewrite G.
  apply IH. intros m I. apply Fi. right; exact I.
Qed.
Lemma cat_check_bad : forall pre bad post s find x, Forall (has_getter find) pre -> (forall n, In n (pre ++ bad :: post) -> ush_file_find_by_name n s = Ok (find n)) ->
  match find bad with None => x = ST_FILE_NOT_FOUND | Some f => f_get f = None /\ x = ST_FILE_NOT_READABLE end -> cat_check (pre ++ bad :: post) s = Ok (Some x).
Proof.
  intros pre bad post s find x H. induction H as [|n r (f & cb & F & G) H IH]; intros Fi X; cbn [app cat_check].
  - rewrite (Fi bad (or_introl eq_refl)). cbn [bind]. destruct (find bad) as [f|]; [destruct X as (-> & ->)|subst x]; reflexivity.
  - rewrite (Fi n (or_introl eq_refl)), F. cbn [bind]. rewrite G. apply IH; auto. intros m I. apply Fi. right; exact I.
Qed.

Lemma reads_getters : forall e find names evs, reads e find names evs -> Forall (has_getter find) names.
Proof. intros e find names evs R. induction R; constructor; auto. exists f, cb. auto. Qed.

Lemma names_found : forall own s w cwd n names, knows own s w -> w_cwd w = Some cwd -> findable s w names -> Forall no_nul names -> In n names ->
  forall s2, core s2 = core s -> ush_file_find_by_name n s2 = Ok (denotes w n).
Proof.
  intros own s w cwd n names K Wc (Nm & Fi) N I s2 Kc. rewrite (find_core n s s2 Kc). rewrite Forall_forall in Fi, N. apply (find_denotes own s w cwd); auto.
Qed.

Lemma C19_at : forall e own w cwd Go n names s c evs, asked_at e own w cwd Go c (n :: names) cmd_cat s -> c = CR \/ c = LF -> names <> [] -> findable s w names ->
  reads e (denotes w) names evs ->
  exists s', does_at Go c s XCat cmd_cat (n :: names) evs [] cwd s' /\ core s' = core s.
Proof.
  intros e own w cwd Go n names s c evs A Hc Ne Fi R. pose proof A as (K0 & Wc & _).
  apply (run_cmd e own w cwd Go (n :: names) cmd_cat s c XCat); auto; [discriminate|].
  intros s2 args Rr K W N s2'. pose proof Rr as (Kc & B & _ & Ac & _ & Pa & Av & _). inversion N as [|? ? _ N2]; subst.
  set (s3 := ush_process_start cmd_cat s2').
  assert (A3 : at_ PCat S_PROCESS_START (cnt s2') s3) by (apply (started cmd_cat PCat s2'); [reflexivity|exact (cwd_cur _ _ W)|exact B]).
  assert (Fs : forall m, In m names -> forall s5, core s5 = core s2 -> ush_file_find_by_name m s5 = Ok (denotes w m)).
  { intros m I s5 K5. apply (names_found own s w cwd m names); auto. congruence. }
  destruct (cat_run e (denotes w) args n names s3 _ _ _ _ _ _ evs R (fun m I => Fs m I s3 eq_refl) A3 Ac Pa Av) as (s4 & Em & St).
  destruct (prompt_cmd e s3 s4 _ (show cwd) Em St W B) as (s' & Q & Ed & B' & K' & L').
  exists s3, s'. split; [|split; [exact Q|split; [exact Ed|split; [exact B'|split; [rewrite K'; exact Kc|]]]]].
  - cbn [call_exec]. unfold cat_callback. destruct names as [|m names]; [congruence|]. cbn [length Nat.ltb Nat.leb tl].
    fold s2'. rewrite (cat_check_ok (m :: names) s2' (denotes w)); [reflexivity|eapply reads_getters; eauto|]. intros k I. apply Fs; auto.
  - rewrite L'. change (lg s3) with (lg s2'). change (o_desc s3) with (o_desc s2). rewrite (core_desc _ _ Kc). reflexivity.
Qed.

Lemma C19_bad_at : forall e own w cwd Go n pre bad post s c x, asked_at e own w cwd Go c (n :: pre ++ bad :: post) cmd_cat s -> c = CR \/ c = LF ->
  findable s w (pre ++ bad :: post) -> Forall (has_getter (denotes w)) pre ->
  match denotes w bad with None => x = ST_FILE_NOT_FOUND | Some f => f_get f = None /\ x = ST_FILE_NOT_READABLE end ->
  exists s', does_at Go c s XCat cmd_cat (n :: pre ++ bad :: post) [] (message s x ++ CRLF) cwd s' /\ core s' = core s.
Proof.
  intros e own w cwd Go n pre bad post s c x A Hc Fi G X. pose proof A as (K0 & Wc & _).
  apply (status_result e own w cwd Go (n :: pre ++ bad :: post) cmd_cat s c XCat); auto; [discriminate|].
  intros s2 args (Kc & B & _) K W N. exists (emit (EvExec XCat (Some (f_name cmd_cat)) (n :: pre ++ bad :: post)) s2). split; [|split; [reflexivity|split; [exact B|reflexivity]]].
  cbn [call_exec]. unfold cat_callback. replace (length (n :: pre ++ bad :: post) <? 2) with false by (symmetry; apply Nat.ltb_ge; cbn [length]; rewrite app_length; cbn [length]; lia).
  inversion N as [|? ? _ N2]; subst. cbn [tl]. rewrite (cat_check_bad pre bad post _ (denotes w) x G); [reflexivity| |exact X].
  intros m I. apply (names_found own s w cwd m (pre ++ bad :: post)); auto.
Qed.

(** ** C20 xxd *)
Lemma C20_at : forall e own w cwd Go n name s c g cb d, asked_at e own w cwd Go c [n; name] cmd_xxd s -> c = CR \/ c = LF -> findable s w [name] ->
  denotes w name = Some g -> f_get g = Some cb -> gives_or_none e cb g d -> dumpable (o_desc s) d ->
  exists s', does_at Go c s XXxd cmd_xxd [n; name] [EvGet cb (f_name g)] (xxd_dump (cfg_cols (d_cfg (o_desc s))) d) cwd s' /\ core s' = core s.
Proof.
  intros e own w cwd Go n name s c g cb d A Hc Fi Dn Gg (p & Eg & Ep) Du. pose proof A as (K0 & Wc & _).
  apply (run_cmd e own w cwd Go [n; name] cmd_xxd s c XXxd); auto; [discriminate|].
  intros s2 args Rr K W N s2'. pose proof Rr as (Kc & B & _). inversion N as [|? ? _ N2]; subst.
  set (D := match p with GUnset => o_pdata s2 | GNull => None | GData m => Some m end).
  assert (Cv : covers D d) by (destruct Ep as [->|(extra & ->)]; [left; reflexivity|right; exists extra; reflexivity]).
  set (s2g := set_pdsize (length d) (set_pdata D (emit (EvGet cb (f_name g)) s2'))).
  set (s3 := ush_process_start cmd_xxd s2g).
  assert (A3 : at_ PXxd S_PROCESS_START (o_pnode s2, o_pchild s2, o_pitem s2, o_pidx s2, D, length d) s3).
  { apply (started cmd_xxd PXxd s2g); [reflexivity|exact (cwd_cur _ _ W)|exact B]. }
  destruct (xxd_run e s3 d D _ _ _ _ Cv A3) as (s4 & Em & St).
  { change (o_desc s3) with (o_desc s2). rewrite (core_desc _ _ Kc). exact Du. }
  destruct (prompt_cmd e s3 s4 _ (show cwd) Em St W B) as (s' & Q & Ed & B' & K' & L').
  exists s3, s'. split; [|split; [exact Q|split; [exact Ed|split; [exact B'|split; [rewrite K'; exact Kc|]]]]].
  - cbn [call_exec xxd_callback]. fold s2'. rewrite (names_found own s w cwd name [name] K0 Wc Fi N2 (or_introl eq_refl) s2' Kc). cbn [bind]. rewrite Dn. cbn [bind]. rewrite Gg.
    unfold call_get. rewrite Eg. cbn [g_calls do_actions bind]. unfold s3, s2g, D. destruct p; reflexivity.
  - rewrite L'. change (lg s3) with (lg s2' ++ [EvGet cb (f_name g)]). change (o_desc s3) with (o_desc s2). rewrite (core_desc _ _ Kc), <- !app_assoc, map_app. reflexivity.
Qed.

Lemma C20_bad_at : forall e own w cwd Go n name s c x, asked_at e own w cwd Go c [n; name] cmd_xxd s -> c = CR \/ c = LF -> findable s w [name] ->
  match denotes w name with None => x = ST_FILE_NOT_FOUND | Some f => f_get f = None /\ x = ST_FILE_NOT_READABLE end ->
  exists s', does_at Go c s XXxd cmd_xxd [n; name] [] (message s x ++ CRLF) cwd s' /\ core s' = core s.
Proof.
  intros e own w cwd Go n name s c x A Hc Fi X. pose proof A as (K0 & Wc & _).
  apply (status_result e own w cwd Go [n; name] cmd_xxd s c XXxd); auto; [discriminate|].
  intros s2 args (Kc & B & _) K W N. set (s2' := emit (EvExec XXxd (Some (f_name cmd_xxd)) [n; name]) s2).
  exists s2'. split; [|split; [reflexivity|split; [exact B|reflexivity]]]. inversion N as [|? ? _ N2]; subst.
  cbn [call_exec xxd_callback]. fold s2'. rewrite (names_found own s w cwd name [name] K0 Wc Fi N2 (or_introl eq_refl) s2' Kc). cbn [bind].
  destruct (denotes w name) as [f|]; [destruct X as (-> & ->)|subst x]; reflexivity.
Qed.

(** ** C46: callbacks of the application *)
Lemma C46_at : forall e own w cwd Go ws f s c k, called_at e own w cwd Go c ws f s -> c = CR \/ c = LF -> ws <> [] -> f_exec f = Some (XUser k) ->
  Forall (printing_call ws) (e_exec e k (Some (f_name f)) ws) -> room_for (o_desc s) (hook_calls e (o_desc s) ws ++ e_exec e k (Some (f_name f)) ws) ->
  exists s', does_at Go c s (XUser k) f ws [] (said (o_desc s) c ws (hook_calls e (o_desc s) ws ++ e_exec e k (Some (f_name f)) ws)) cwd s' /\ core s' = core s.
Proof.
  intros e own w cwd Go ws f s c k (K & Wc & T & X & (Nm & Fi) & Dn) Hc Ne Fx Pc Rm. set (acts := e_exec e k (Some (f_name f)) ws) in *.
  pose proof T as Nn. assert (Nh : no_nul (hd [] ws)) by (destruct Nn; [intros []|assumption]).
  apply (run_line e own w cwd Go ws f s c (XUser k)); auto.
  { rewrite <- Dn. inversion Fi; subst. apply (find_denotes own s w cwd); auto. }
  intros s2 args (Kc & B & Vo & Ac & _ & Pa & Av & _) K2 W N s2'. set (hk := hook_calls e (o_desc s) ws) in *. rewrite <- (core_desc _ _ Kc) in Rm.
  destruct (said_quiet e args ws ws hk acts c s2' (show cwd) Av Pc (or_introl eq_refl) Rm W B (voice_emit _ _ _ _ _ Vo)) as (s3 & s' & E & Q & Ed & B' & K' & L').
  exists s3, s'. split; [exact E|]. split; [exact Q|]. split; [exact Ed|]. split; [exact B'|]. split; [rewrite K'; exact Kc|].
  rewrite L'. change (o_desc s2') with (o_desc s2). rewrite (core_desc _ _ Kc). reflexivity.
Qed.

(** ** C24, C25 echo *)
Lemma echo_decoded : forall b off t, c_str b off = Ok t ->
  exists a r, b = a ++ t ++ NUL :: r /\ length a = off /\ no_nul t /\ c_strlen b off = Ok (length t) /\
    ush_utils_decode_ascii b off off (length t) = Ok (a ++ decode t ++ skipn (length (decode t)) t ++ NUL :: r, length (decode t)).
Proof.
  intros b off t H. pose proof H as H'. apply c_str_inv in H' as (N & a & r & E & L). exists a, r. split; [exact E|]. split; [exact L|]. split; [exact N|].
  split; [unfold c_strlen; rewrite H; reflexivity|]. subst b off. rewrite (decode_in_place a t r (length t) N).
  pose proof (decode_length_le t). rewrite firstn_all2 by lia. reflexivity.
Qed.

Lemma until_nul_c_str : forall t r, c_str0 (t ++ NUL :: r) = Ok (until_nul t).
Proof.
  induction t as [|c t IH]; intros r; cbn [app c_str0 until_nul]; [reflexivity|]. destruct (ceq c NUL) eqn:E; [reflexivity|]. rewrite IH. reflexivity.
Qed.

Lemma C24_at : forall e own w cwd Go n text name s c g cb, asked_at e own w cwd Go c [n; text; lit ">"; name] cmd_echo s -> c = CR \/ c = LF -> findable s w [name] ->
  denotes w name = Some g -> f_set g = Some cb ->
  let calls := hook_calls e (o_desc s) [n; text; lit ">"; name] ++ e_set e cb (f_name g) (decode text) in
  Forall (printing_call []) calls -> room_for (o_desc s) calls ->
  exists s', does_at Go c s XEcho cmd_echo [n; text; lit ">"; name] [EvSet cb (f_name g) (decode text)]
    (said (o_desc s) c [] calls) cwd s' /\ core s' = core s.
Proof.
  intros e own w cwd Go n text name s c g cb A Hc Fi Dn Gs calls Fc Rm. pose proof Fc as Fh. apply Forall_app in Fh as (Fh & Fp).
  set (hk := hook_calls e (o_desc s) [n; text; lit ">"; name]) in *. pose proof A as (K0 & Wc & _).
  apply (run_cmd e own w cwd Go [n; text; lit ">"; name] cmd_echo s c XEcho); auto; [discriminate|].
  intros s2 args Rr K W N s2'. pose proof Rr as (Kc & B & Vo & _ & _ & _ & Av & _).
  assert (Nn : Forall no_nul [name]) by (inversion N as [|? ? _ N2]; subst; inversion N2 as [|? ? _ N3]; subst; inversion N3; subst; auto).
  destruct (arg_values_nth _ _ _ 1 text Av eq_refl) as (off & Ra & Cs).
  destruct (echo_decoded _ _ _ Cs) as (a & r & Eb & La & Nt & Sl & De).
  set (b' := a ++ decode text ++ skipn (length (decode text)) text ++ NUL :: r) in *.
  assert (Lb : length b' = length (inb s2)).
  { rewrite Eb. unfold b'. rewrite !app_length, skipn_length. cbn [length]. pose proof (decode_length_le text). lia. }
  assert (Dd : firstn (length (decode text)) (skipn off b') = decode text).
  { unfold b'. rewrite <- La, skipn_app, skipn_all, Nat.sub_diag. cbn [app skipn]. rewrite firstn_app, Nat.sub_diag, firstn_all. cbn [firstn]. apply app_nil_r. }
  set (s2s := emit (EvSet cb (f_name g) (decode text)) (set_inb b' s2')).
  rewrite <- (core_desc _ _ Kc) in Rm.
  destruct (said_quiet e [] [n; text; lit ">"; name] [] hk (e_set e cb (f_name g) (decode text)) c s2s (show cwd) eq_refl Fp (or_intror eq_refl) Rm W) as (s3 & s' & E & Q & Ed & B' & K' & L').
  { destruct B as (B1 & B2). split; [|exact B2]. change (inb s2s) with b'. rewrite Lb. exact B1. }
  { apply voice_emit, voice_inb; [apply voice_emit; exact Vo|exact (printing_proper _ _ Fh)]. }
  exists s3, s'. split; [|split; [exact Q|split; [exact Ed|split; [exact B'|split; [rewrite K'; exact Kc|]]]]].
  - cbn [call_exec echo_callback]. fold s2'. change (beq (lit ">") (lit ">")) with true. cbn [negb].
    rewrite (names_found own s w cwd name [name] K0 Wc Fi Nn (or_introl eq_refl) s2' Kc). cbn [bind]. rewrite Dn. cbn [bind]. rewrite Gs, Ra. cbn [bind].
    change (inb s2') with (inb s2). rewrite Sl. cbn [bind]. rewrite De. cbn [bind]. rewrite Dd. exact E.
  - rewrite L'. change (lg s2s) with (lg s2' ++ [EvSet cb (f_name g) (decode text)]). change (o_desc s2s) with (o_desc s2).
    rewrite (core_desc _ _ Kc), <- !app_assoc. unfold said. rewrite (spoken_args _ [] [n; text; lit ">"; name] calls _ _ Fc). reflexivity.
Qed.

Lemma C24_bad_at : forall e own w cwd Go n text op name s c x, asked_at e own w cwd Go c [n; text; op; name] cmd_echo s -> c = CR \/ c = LF -> findable s w [name] ->
  (op <> lit ">" /\ x = ST_COMMAND_WRONG_ARGUMENTS \/
   op = lit ">" /\ match denotes w name with None => x = ST_FILE_NOT_FOUND | Some f => f_set f = None /\ x = ST_FILE_NOT_WRITABLE end) ->
  exists s', does_at Go c s XEcho cmd_echo [n; text; op; name] [] (message s x ++ CRLF) cwd s' /\ core s' = core s.
Proof.
  intros e own w cwd Go n text op name s c x A Hc Fi X. pose proof A as (K0 & Wc & _).
  apply (status_result e own w cwd Go [n; text; op; name] cmd_echo s c XEcho); auto; [discriminate|].
  intros s2 args (Kc & B & _) K W N. set (s2' := emit (EvExec XEcho (Some (f_name cmd_echo)) [n; text; op; name]) s2).
  exists s2'. split; [|split; [reflexivity|split; [exact B|reflexivity]]].
  assert (Nn : Forall no_nul [name]) by (inversion N as [|? ? _ N2]; subst; inversion N2 as [|? ? _ N3]; subst; inversion N3; subst; auto).
  cbn [call_exec echo_callback]. fold s2'. destruct X as [(Ho & ->)|(-> & X)].
  - destruct (beq op (lit ">")) eqn:E; [apply beq_true in E; congruence|]. reflexivity.
  - change (beq (lit ">") (lit ">")) with true. cbn [negb]. rewrite (names_found own s w cwd name [name] K0 Wc Fi Nn (or_introl eq_refl) s2' Kc). cbn [bind].
    destruct (denotes w name) as [f|]; [destruct X as (-> & ->)|subst x]; reflexivity.
Qed.

Lemma C25_at : forall e own w cwd Go n text s c, asked_at e own w cwd Go c [n; text] cmd_echo s -> c = CR \/ c = LF ->
  exists s', does_at Go c s XEcho cmd_echo [n; text] [] (until_nul (decode text ++ skipn (length (decode text)) text) ++ CRLF) cwd s' /\ core s' = core s.
Proof.
  intros e own w cwd Go n text s c A Hc. pose proof A as (K0 & Wc & _).
  apply (run_cmd e own w cwd Go [n; text] cmd_echo s c XEcho); auto; [discriminate|].
  intros s2 args Rr K W N s2'. pose proof Rr as (Kc & B & _ & _ & _ & _ & Av & _).
  destruct (arg_values_nth _ _ _ 1 text Av eq_refl) as (off & Ra & Cs).
  destruct (echo_decoded _ _ _ Cs) as (a & r & Eb & La & Nt & Sl & De).
  set (b' := a ++ decode text ++ skipn (length (decode text)) text ++ NUL :: r) in *.
  assert (Lb : length b' = length (inb s2)).
  { rewrite Eb. unfold b'. rewrite !app_length, skipn_length. cbn [length]. pose proof (decode_length_le text). lia. }
  set (u := until_nul (decode text ++ skipn (length (decode text)) text)).
  set (s2s := set_inb b' s2').
  assert (P : wptr_str (WIn off) s2s = Ok u).
  { cbn [wptr_str]. change (inb s2s) with b'. unfold c_str, b'. rewrite <- La, skipn_app, skipn_all, Nat.sub_diag. cbn [app skipn]. rewrite app_assoc. apply until_nul_c_str. }
  assert (Bs : bufs_ok s2s). { destruct B as (B1 & B2). split; [|exact B2]. change (inb s2s) with b'. rewrite Lb. exact B1. }
  destruct (print_cmd e (WIn off) u s2s _ (show cwd) W Bs P (wp_eq _ _ _ _ P)) as (s' & Q & Ed & B' & K' & L').
  exists (ush_write_pointer_bin (WIn off) (length u) S_RESET s2s), s'. split; [|split; [exact Q|split; [exact Ed|split; [exact B'|split; [rewrite K'; exact Kc|]]]]].
  - cbn [call_exec echo_callback]. fold s2'. rewrite Ra. cbn [bind].
    change (inb s2') with (inb s2). rewrite Sl. cbn [bind]. rewrite De. cbn [bind]. apply (wp_eq _ _ s2s _ P).
  - rewrite L'. change (o_desc s2s) with (o_desc s2). rewrite (core_desc _ _ Kc). reflexivity.
Qed.

Lemma C25_plain_at : forall e own w cwd Go n text s c, asked_at e own w cwd Go c [n; text] cmd_echo s -> c = CR \/ c = LF -> ~ In BSL text ->
  exists s', does_at Go c s XEcho cmd_echo [n; text] [] (text ++ CRLF) cwd s' /\ core s' = core s.
Proof.
  intros e own w cwd Go n text s c A Hc Nb. destruct (C25_at e own w cwd Go n text s c A Hc) as (s' & D & K). exists s'. split; [|exact K].
  rewrite (decode_plain _ Nb), skipn_all, app_nil_r in D.
  replace (until_nul text) with text in D; [exact D|].
  assert (Nt : no_nul text). { destruct A as (_ & _ & T & _). pose proof T as F. inversion F as [|? ? _ F2]; subst. inversion F2; auto. }
  clear - Nt. induction text as [|c t IH]; [reflexivity|]. cbn [until_nul]. rewrite ceq_neq by (intros ->; apply Nt; left; auto). rewrite <- IH; [reflexivity|]. intros I; apply Nt; right; auto.
Qed.

Lemma C25_alone_at : forall e own w cwd Go n s c, asked_at e own w cwd Go c [n] cmd_echo s -> c = CR \/ c = LF ->
  exists s', does_at Go c s XEcho cmd_echo [n] [] CRLF cwd s' /\ core s' = core s.
Proof.
  intros e own w cwd Go n s c A Hc. apply (run_cmd e own w cwd Go [n] cmd_echo s c XEcho); auto; [discriminate|].
  intros s2 args Rr K W N s2'. pose proof Rr as (Kc & B & _).
  destruct (quiet_reset e (set_state S_RESET s2') (show cwd) eq_refl W B) as (s' & Q & Ed & K' & B' & L').
  exists (set_state S_RESET s2'), s'. split; [reflexivity|]. split; [exact Q|]. split; [exact Ed|]. split; [exact B'|]. split; [rewrite K'; exact Kc|].
  rewrite L'. change (o_desc (set_state S_RESET s2')) with (o_desc s2). rewrite (core_desc _ _ Kc). reflexivity.
Qed.

(** ** C44 cd and pwd *)
Lemma C44_pwd_at : forall e own w cwd Go n s c, asked_at e own w cwd Go c [n] cmd_pwd s -> c = CR \/ c = LF ->
  exists s', does_at Go c s XPwd cmd_pwd [n] [] (show cwd ++ CRLF) cwd s' /\ core s' = core s.
Proof.
  intros e own w cwd Go n s c A Hc. apply (run_cmd e own w cwd Go [n] cmd_pwd s c XPwd); auto; [discriminate|].
  intros s2 args Rr K W N s2'. pose proof Rr as (Kc & B & _). pose proof W as (nd & Gn & Pn).
  destruct (print_cmd e (WStr (show cwd)) (show cwd) s2' _ (show cwd) W B eq_refl eq_refl) as (s' & Q & Ed & B' & K' & L').
  exists (ush_write_pointer_bin (WStr (show cwd)) (length (show cwd)) S_RESET s2'), s'. split; [|split; [exact Q|split; [exact Ed|split; [exact B'|split; [rewrite K'; exact Kc|]]]]].
  - cbn [call_exec pwd_callback]. change (hp (emit _ s2)) with (hp s2). change (o_cur (emit _ s2)) with (o_cur s2). rewrite Gn. cbn [bind]. unfold path_of. rewrite Pn. reflexivity.
  - rewrite L'. change (o_desc s2') with (o_desc s2). rewrite (core_desc _ _ Kc). reflexivity.
Qed.

Lemma C44_cd_at : forall e own w cwd Go n path s c, asked_at e own w cwd Go c [n; path] cmd_cd s -> c = CR \/ c = LF ->
  length (full_text cwd path) < d_pathmax (o_desc s) ->
  match (match path with [] => None | _ => dir_named (show (resolve_text cwd path)) (w_fs w) end) with
  | Some d => exists s', does_at Go c s XCd cmd_cd [n; path] [] (said (o_desc s) c [n; path] (hook_calls e (o_desc s) [n; path])) (de_path d) s' /\ core s' = core (set_cur (Some (de_node d)) s) /\
       knows own s' (mkWorld (w_fs w) (w_groups w) (Some (de_path d)))
  | None => exists s', does_at Go c s XCd cmd_cd [n; path] [] (message s ST_NODE_NOT_FOUND ++ CRLF) cwd s' /\ core s' = core s
  end.
Proof.
  intros e own w cwd Go n path s c A Hc Lp. pose proof A as (K0 & Wc & _).
  assert (Hw : here w = cwd) by (unfold here; rewrite Wc; reflexivity).
  assert (Step : forall s2, core s2 = core s -> knows own s2 w -> Forall no_nul [n; path] -> _) by
    (intros s2 Kc K N; refine (C16_proof own s2 w path K _ _ _); [inversion N as [|? ? _ N2]; subst; inversion N2; auto|rewrite Hw, (core_desc _ _ Kc); exact Lp|congruence]).
  rewrite Hw in Step.
  destruct (match path with [] => None | _ => dir_named (show (resolve_text cwd path)) (w_fs w) end) as [d|].
  - apply (run_cmd e own w cwd Go [n; path] cmd_cd s c XCd (map EvOut (said (o_desc s) c [n; path] (hook_calls e (o_desc s) [n; path]) ++ prompt (o_desc s) (show (de_path d)))) (fun s' => core s' = core (set_cur (Some (de_node d)) s) /\ knows own s' (mkWorld (w_fs w) (w_groups w) (Some (de_path d))))); auto; [discriminate|].
    intros s2 args Rr K W N s2'. pose proof Rr as (Kc & B & (buf & t & Sp & _ & Sr & _) & _). specialize (Sr []). rewrite app_nil_r in Sr. cbn [spoken] in Sr.
    destruct (Step s2' Kc K N) as (x & s3 & E & -> & Es & K3).
    assert (W3 : cwd_is s3 (show (de_path d))) by (eapply cwd_show; [exact K3|reflexivity]).
    assert (B3 : bufs_ok s3) by (subst s3; exact B). assert (Sp3 : speaks s3 s3 buf t).
    { subst s3. destruct Sp as (_ & _ & _ & _ & Sp). split; [reflexivity|]. split; [reflexivity|]. split; [reflexivity|]. split; [reflexivity|exact Sp]. }
    destruct (speaks_quiet e s3 s3 buf t (show (de_path d)) Sp3 W3 B3) as (s' & Q & Ed & B' & K' & L').
    exists s3, s'. split; [cbn [call_exec cd_callback]; fold s2'; rewrite E; reflexivity|]. split; [exact Q|]. split; [exact Ed|]. split; [exact B'|].
    assert (D3 : o_desc s3 = o_desc s) by (subst s3; exact (core_desc _ _ Kc)).
    split.
    + split; [|eapply knows_core; eauto]. rewrite K', Es. unfold core in *. cbn. injection Kc as H1 H2 H3 H4 H5 H6. cbn in *. congruence.
    + rewrite (core_desc _ _ Kc) in Sr. rewrite L', D3, Es, Sr. reflexivity.
  - apply (status_result e own w cwd Go [n; path] cmd_cd s c XCd); auto; [discriminate|].
    intros s2 args (Kc & B & _) K W N. set (s2' := emit (EvExec XCd (Some (f_name cmd_cd)) [n; path]) s2).
    destruct (Step s2' Kc K N) as (x & s3 & E & -> & ->). exists s2'. split; [|split; [reflexivity|split; [exact B|reflexivity]]].
    cbn [call_exec cd_callback]. fold s2'. rewrite E. reflexivity.
Qed.

(** ** C45 *)
Lemma C45_at : forall e own w cwd Go ws f s c x, asked_at e own w cwd Go c ws f s -> c = CR \/ c = LF -> f_exec f = Some x -> ws <> [] -> accepts x (length ws) = false ->
  exists s', does_at Go c s x f ws [] (message s ST_COMMAND_WRONG_ARGUMENTS ++ CRLF) cwd s' /\ core s' = core s.
Proof.
  intros e own w cwd Go ws f s c x A Hc Fx Ne Ac. apply (status_result e own w cwd Go ws f s c x); auto.
  intros s2 args (Kc & B & _) K W N. set (s2' := emit (EvExec x (Some (f_name f)) ws) s2).
  exists s2'. split; [|split; [reflexivity|split; [exact B|reflexivity]]].
  destruct ws as [|a ws]; [congruence|].
  destruct x; try discriminate Ac; cbn [call_exec]; fold s2';
    destruct ws as [|b [|d [|f0 [|g ws]]]]; try discriminate Ac; try reflexivity.
Qed.

(** ** C21: a dump determines the data *)
Lemma hex2_read : forall x, ceq (hexd (N_of_ascii x / 16)) SP = false /\
  ascii_of_N (16 * hex_value (hexd (N_of_ascii x / 16)) + hex_value (hexd (N_of_ascii x mod 16))) = x.
Proof.
  intros x. assert (H : (negb (ceq (hexd (N_of_ascii x / 16)) SP) && ceq (ascii_of_N (16 * hex_value (hexd (N_of_ascii x / 16)) + hex_value (hexd (N_of_ascii x mod 16)))) x)%bool = true).
  { apply (for_all_bytes (fun x => negb (ceq (hexd (N_of_ascii x / 16)) SP) && ceq (ascii_of_N (16 * hex_value (hexd (N_of_ascii x / 16)) + hex_value (hexd (N_of_ascii x mod 16)))) x)%bool). vm_compute. reflexivity. }
  apply andb_prop in H as (H1 & H2). split; [destruct (ceq _ SP); [discriminate|reflexivity]|apply ceq_true; exact H2].
Qed.

Lemma read_blanks : forall n T, read_columns n (blanks (3 * n) ++ T) = ([], T).
Proof.
  induction n as [|n IH]; intros T; [reflexivity|]. replace (3 * S n) with (S (S (S (3 * n)))) by lia. unfold blanks. cbn [repeat app read_columns]. fold (blanks (3 * n)).
  rewrite IH. rewrite ceq_refl. reflexivity.
Qed.
Lemma read_row : forall row n T, length row <= n ->
  read_columns n (flat_map (fun x => hex2 x ++ lit " ") row ++ blanks (3 * (n - length row)) ++ T) = (row, T).
Proof.
  induction row as [|x row IH]; intros n T L; cbn [length flat_map app] in *.
  - rewrite Nat.sub_0_r. apply read_blanks.
  - destruct n as [|n]; [lia|]. replace (S n - S (length row)) with (n - length row) by lia. rewrite <- app_assoc.
    specialize (IH n T ltac:(lia)). set (R := flat_map _ row ++ blanks _ ++ T) in *.
    change ((hex2 x ++ lit " ") ++ R) with (hexd (N_of_ascii x / 16) :: hexd (N_of_ascii x mod 16) :: SP :: R). cbn [read_columns]. rewrite IH.
    destruct (hex2_read x) as (-> & ->). reflexivity.
Qed.

Lemma after_colon_skip : forall a T, ~ In ":"%char a -> after_colon (a ++ ":"%char :: T) = T.
Proof.
  induction a as [|c a IH]; intros T N; cbn [app after_colon]; [rewrite ceq_refl; reflexivity|].
  rewrite ceq_neq by (intros ->; apply N; left; auto). apply IH. intros I. apply N. right. exact I.
Qed.
Lemma hexd_not_colon : forall n, hexd n <> ":"%char.
Proof.
  intros n. unfold hexd. intros E. destruct (nth_in_or_default (N.to_nat n) (lit "0123456789ABCDEF") "0"%char) as [I|D]; [|rewrite D in E; discriminate].
  rewrite E in I. revert I. vm_compute. intuition discriminate.
Qed.
Lemma digits_no_colon : forall k n, ~ In ":"%char (hex_digits k n).
Proof.
  induction k as [|k IH]; intros n I; cbn [hex_digits] in I; [exact I|]. apply in_app_or in I as [I|[I|[]]]; [exact (IH _ I)|exact (hexd_not_colon _ I)].
Qed.

Lemma undump_line : forall f cols off row T, length row <= cols -> undump (S f) cols (xxd_line cols off row ++ T) = row ++ undump f cols T.
Proof.
  intros f cols off row T L. unfold xxd_line. rewrite <- !app_assoc. change (lit ": ") with [":"%char; SP]. cbn [app].
  destruct (address off ++ ":"%char :: _) as [|z zs] eqn:E; [apply app_eq_nil in E as (_ & E); discriminate|].
  cbn [undump]. rewrite <- E. rewrite after_colon_skip by apply digits_no_colon. cbn [tl].
  rewrite read_row by exact L. f_equal. f_equal. change (lit " ") with [SP]. cbn [app Nat.add skipn].
  rewrite skipn_app, map_length. rewrite skipn_all2 by (rewrite map_length; lia). cbn [app].
  rewrite skipn_app. unfold blanks at 2. rewrite repeat_length. rewrite skipn_all2 by (unfold blanks; rewrite repeat_length; lia). cbn [app].
  replace (cols + 2 - length row - (cols - length row)) with 2 by lia. reflexivity.
Qed.

Lemma undump_lines : forall cols d m k f, m <= f ->
  undump f cols (flat_map (fun k => xxd_line cols (k * cols) (firstn cols (skipn (k * cols) d))) (seq k m)) =
  flat_map (fun k => firstn cols (skipn (k * cols) d)) (seq k m).
Proof.
  intros cols d m. induction m as [|m IH]; intros k f Lf; cbn [seq flat_map]; [destruct f; reflexivity|].
  destruct f as [|f]; [lia|]. rewrite undump_line by apply firstn_le_length. rewrite IH by lia. reflexivity.
Qed.

Lemma rows_data : forall cols (d : bytes) m k, flat_map (fun k => firstn cols (skipn (k * cols) d)) (seq k m) = firstn (m * cols) (skipn (k * cols) d).
Proof.
  intros cols d m. induction m as [|m IH]; intros k; cbn [seq flat_map]; [reflexivity|]. rewrite IH.
  replace (S m * cols) with (cols + m * cols) by lia. replace (S k * cols) with (k * cols + cols) by lia. rewrite <- skipn_add.
  generalize (skipn (k * cols) d). intros t. rewrite <- (firstn_skipn cols t) at 3. rewrite firstn_app, firstn_firstn.
  rewrite Nat.min_r by lia. f_equal. rewrite firstn_length. destruct (le_lt_dec cols (length t)).
  - rewrite Nat.min_l by lia. replace (cols + m * cols - cols) with (m * cols) by lia. reflexivity.
  - rewrite (skipn_all2 t) by lia. rewrite !firstn_nil. reflexivity.
Qed.

Lemma rows_enough : forall cols n, 0 < cols -> n <= rows cols n * cols.
Proof.
  intros cols n C. unfold rows. assert (n <= (n + cols - 1) / cols * cols).
  { pose proof (Nat.div_mod (n + cols - 1) cols ltac:(lia)). pose proof (Nat.mod_upper_bound (n + cols - 1) cols ltac:(lia)). nia. }
  nia.
Qed.

Lemma dump_length : forall cols d l, length l <= length (flat_map (fun k => xxd_line cols (k * cols) (firstn cols (skipn (k * cols) d))) l).
Proof.
  intros cols d l. induction l as [|k l IH]; cbn [flat_map length]; [lia|]. rewrite app_length. unfold xxd_line at 1. rewrite !app_length.
  unfold crlf. cbn [length lit]. change (length (list_ascii_of_string ": ")) with 2. lia.
Qed.

Lemma C21_proof : forall cols d, 0 < cols -> undump (length (xxd_dump cols d)) cols (xxd_dump cols d) = d.
Proof.
  intros cols d C. unfold xxd_dump at 2. rewrite undump_lines.
  - rewrite rows_data. cbn [Nat.mul skipn]. apply firstn_all2. apply rows_enough. exact C.
  - unfold xxd_dump. pose proof (dump_length cols d (seq 0 (rows cols (length d)))) as H. rewrite seq_length in H. exact H.
Qed.

Lemma C21_injective_proof : forall cols a b, 0 < cols -> xxd_dump cols a = xxd_dump cols b -> a = b.
Proof. intros cols a b C E. rewrite <- (C21_proof cols a C), <- (C21_proof cols b C), E. reflexivity. Qed.

(** ** When the hook only prints *)
Lemma C23_list_proof : forall e own w cwd l n s c, asked e own w cwd l [n] cmd_help s -> c = CR \/ c = LF ->
  Forall (listable (o_desc s)) (flat_map snd (w_groups w)) ->
  exists s', does e c s XHelp cmd_help [n] [] (help_text (d_cfg (o_desc s)) (flat_map snd (w_groups w))) cwd s' /\ core s' = core s.
Proof. intros e own w cwd l n s c A Hc. exact (C23_list_at e own w cwd (fed e [c] s) n s c (asked_line _ _ _ _ _ _ _ _ _ A Hc) Hc). Qed.
Lemma C23_file_proof : forall e own w cwd l n name s c, asked e own w cwd l [n; name] cmd_help s -> c = CR \/ c = LF -> findable s w [name] ->
  exists s', does e c s XHelp cmd_help [n; name] []
    (match denotes w name with
     | None => message s ST_FILE_NOT_FOUND ++ CRLF
     | Some g => match f_help g with None => message s ST_FILE_NO_HELP ++ CRLF | Some t => t end
     end) cwd s' /\ core s' = core s.
Proof. intros e own w cwd l n name s c A Hc. exact (C23_file_at e own w cwd (fed e [c] s) n name s c (asked_line _ _ _ _ _ _ _ _ _ A Hc) Hc). Qed.
Lemma C22_here_proof : forall e own w cwd l n s c d, asked e own w cwd l [n] cmd_ls s -> c = CR \/ c = LF -> dir_at cwd (w_fs w) = Some d ->
  Forall (listable (o_desc s)) (de_files d) -> 6 < d_outsize (o_desc s) \/ de_files d = [] ->
  exists s', does e c s XLs cmd_ls [n] [] (ls_dir (d_cfg (o_desc s)) d (w_fs w)) cwd s' /\ core s' = core s.
Proof. intros e own w cwd l n s c d A Hc. exact (C22_here_at e own w cwd (fed e [c] s) n s c d (asked_line _ _ _ _ _ _ _ _ _ A Hc) Hc). Qed.
Lemma C22_path_proof : forall e own w cwd l n path s c, asked e own w cwd l [n; path] cmd_ls s -> c = CR \/ c = LF ->
  length (full_text cwd path) < d_pathmax (o_desc s) ->
  match dir_named (show (resolve_text cwd path)) (w_fs w) with
  | Some d => Forall (listable (o_desc s)) (de_files d) -> 6 < d_outsize (o_desc s) \/ de_files d = [] ->
      exists s', does e c s XLs cmd_ls [n; path] [] (ls_dir (d_cfg (o_desc s)) d (w_fs w)) cwd s' /\ core s' = core s
  | None =>
      exists s', does e c s XLs cmd_ls [n; path] [] (message s ST_NODE_NOT_FOUND ++ CRLF) cwd s' /\ core s' = core s
  end.
Proof. intros e own w cwd l n path s c A Hc. exact (C22_path_at e own w cwd (fed e [c] s) n path s c (asked_line _ _ _ _ _ _ _ _ _ A Hc) Hc). Qed.
Lemma C19_proof : forall e own w cwd l n names s c evs, asked e own w cwd l (n :: names) cmd_cat s -> c = CR \/ c = LF -> names <> [] -> findable s w names ->
  reads e (denotes w) names evs ->
  exists s', does e c s XCat cmd_cat (n :: names) evs [] cwd s' /\ core s' = core s.
Proof. intros e own w cwd l n names s c evs A Hc. exact (C19_at e own w cwd (fed e [c] s) n names s c evs (asked_line _ _ _ _ _ _ _ _ _ A Hc) Hc). Qed.
Lemma C19_bad_proof : forall e own w cwd l n pre bad post s c x, asked e own w cwd l (n :: pre ++ bad :: post) cmd_cat s -> c = CR \/ c = LF ->
  findable s w (pre ++ bad :: post) -> Forall (has_getter (denotes w)) pre ->
  match denotes w bad with None => x = ST_FILE_NOT_FOUND | Some f => f_get f = None /\ x = ST_FILE_NOT_READABLE end ->
  exists s', does e c s XCat cmd_cat (n :: pre ++ bad :: post) [] (message s x ++ CRLF) cwd s' /\ core s' = core s.
Proof. intros e own w cwd l n pre bad post s c x A Hc. exact (C19_bad_at e own w cwd (fed e [c] s) n pre bad post s c x (asked_line _ _ _ _ _ _ _ _ _ A Hc) Hc). Qed.
Lemma C20_proof : forall e own w cwd l n name s c g cb d, asked e own w cwd l [n; name] cmd_xxd s -> c = CR \/ c = LF -> findable s w [name] ->
  denotes w name = Some g -> f_get g = Some cb -> gives_or_none e cb g d -> dumpable (o_desc s) d ->
  exists s', does e c s XXxd cmd_xxd [n; name] [EvGet cb (f_name g)] (xxd_dump (cfg_cols (d_cfg (o_desc s))) d) cwd s' /\ core s' = core s.
Proof. intros e own w cwd l n name s c g cb d A Hc. exact (C20_at e own w cwd (fed e [c] s) n name s c g cb d (asked_line _ _ _ _ _ _ _ _ _ A Hc) Hc). Qed.
Lemma C20_bad_proof : forall e own w cwd l n name s c x, asked e own w cwd l [n; name] cmd_xxd s -> c = CR \/ c = LF -> findable s w [name] ->
  match denotes w name with None => x = ST_FILE_NOT_FOUND | Some f => f_get f = None /\ x = ST_FILE_NOT_READABLE end ->
  exists s', does e c s XXxd cmd_xxd [n; name] [] (message s x ++ CRLF) cwd s' /\ core s' = core s.
Proof. intros e own w cwd l n name s c x A Hc. exact (C20_bad_at e own w cwd (fed e [c] s) n name s c x (asked_line _ _ _ _ _ _ _ _ _ A Hc) Hc). Qed.
Lemma C46_proof : forall e own w cwd l ws f s c k, called e own w cwd l ws f s -> c = CR \/ c = LF -> ws <> [] -> f_exec f = Some (XUser k) ->
  Forall (printing_call ws) (e_exec e k (Some (f_name f)) ws) -> room_for (o_desc s) (hook_calls e (o_desc s) ws ++ e_exec e k (Some (f_name f)) ws) ->
  exists s', does e c s (XUser k) f ws [] (said (o_desc s) c ws (hook_calls e (o_desc s) ws ++ e_exec e k (Some (f_name f)) ws)) cwd s' /\ core s' = core s.
Proof. intros e own w cwd l ws f s c k A Hc. exact (C46_at e own w cwd (fed e [c] s) ws f s c k (called_line _ _ _ _ _ _ _ _ _ A Hc) Hc). Qed.
Lemma C24_proof : forall e own w cwd l n text name s c g cb, asked e own w cwd l [n; text; lit ">"; name] cmd_echo s -> c = CR \/ c = LF -> findable s w [name] ->
  denotes w name = Some g -> f_set g = Some cb ->
  let calls := hook_calls e (o_desc s) [n; text; lit ">"; name] ++ e_set e cb (f_name g) (decode text) in
  Forall (printing_call []) calls -> room_for (o_desc s) calls ->
  exists s', does e c s XEcho cmd_echo [n; text; lit ">"; name] [EvSet cb (f_name g) (decode text)]
    (said (o_desc s) c [] calls) cwd s' /\ core s' = core s.
Proof. intros e own w cwd l n text name s c g cb A Hc. exact (C24_at e own w cwd (fed e [c] s) n text name s c g cb (asked_line _ _ _ _ _ _ _ _ _ A Hc) Hc). Qed.
Lemma C24_bad_proof : forall e own w cwd l n text op name s c x, asked e own w cwd l [n; text; op; name] cmd_echo s -> c = CR \/ c = LF -> findable s w [name] ->
  (op <> lit ">" /\ x = ST_COMMAND_WRONG_ARGUMENTS \/
   op = lit ">" /\ match denotes w name with None => x = ST_FILE_NOT_FOUND | Some f => f_set f = None /\ x = ST_FILE_NOT_WRITABLE end) ->
  exists s', does e c s XEcho cmd_echo [n; text; op; name] [] (message s x ++ CRLF) cwd s' /\ core s' = core s.
Proof. intros e own w cwd l n text op name s c x A Hc. exact (C24_bad_at e own w cwd (fed e [c] s) n text op name s c x (asked_line _ _ _ _ _ _ _ _ _ A Hc) Hc). Qed.
Lemma C25_proof : forall e own w cwd l n text s c, asked e own w cwd l [n; text] cmd_echo s -> c = CR \/ c = LF ->
  exists s', does e c s XEcho cmd_echo [n; text] [] (until_nul (decode text ++ skipn (length (decode text)) text) ++ CRLF) cwd s' /\ core s' = core s.
Proof. intros e own w cwd l n text s c A Hc. exact (C25_at e own w cwd (fed e [c] s) n text s c (asked_line _ _ _ _ _ _ _ _ _ A Hc) Hc). Qed.
Lemma C25_plain_proof : forall e own w cwd l n text s c, asked e own w cwd l [n; text] cmd_echo s -> c = CR \/ c = LF -> ~ In BSL text ->
  exists s', does e c s XEcho cmd_echo [n; text] [] (text ++ CRLF) cwd s' /\ core s' = core s.
Proof. intros e own w cwd l n text s c A Hc. exact (C25_plain_at e own w cwd (fed e [c] s) n text s c (asked_line _ _ _ _ _ _ _ _ _ A Hc) Hc). Qed.
Lemma C25_alone_proof : forall e own w cwd l n s c, asked e own w cwd l [n] cmd_echo s -> c = CR \/ c = LF ->
  exists s', does e c s XEcho cmd_echo [n] [] CRLF cwd s' /\ core s' = core s.
Proof. intros e own w cwd l n s c A Hc. exact (C25_alone_at e own w cwd (fed e [c] s) n s c (asked_line _ _ _ _ _ _ _ _ _ A Hc) Hc). Qed.
Lemma C44_pwd_proof : forall e own w cwd l n s c, asked e own w cwd l [n] cmd_pwd s -> c = CR \/ c = LF ->
  exists s', does e c s XPwd cmd_pwd [n] [] (show cwd ++ CRLF) cwd s' /\ core s' = core s.
Proof. intros e own w cwd l n s c A Hc. exact (C44_pwd_at e own w cwd (fed e [c] s) n s c (asked_line _ _ _ _ _ _ _ _ _ A Hc) Hc). Qed.
Lemma C44_cd_proof : forall e own w cwd l n path s c, asked e own w cwd l [n; path] cmd_cd s -> c = CR \/ c = LF ->
  length (full_text cwd path) < d_pathmax (o_desc s) ->
  match (match path with [] => None | _ => dir_named (show (resolve_text cwd path)) (w_fs w) end) with
  | Some d => exists s', does e c s XCd cmd_cd [n; path] [] (said (o_desc s) c [n; path] (hook_calls e (o_desc s) [n; path])) (de_path d) s' /\ core s' = core (set_cur (Some (de_node d)) s) /\
       knows own s' (mkWorld (w_fs w) (w_groups w) (Some (de_path d)))
  | None => exists s', does e c s XCd cmd_cd [n; path] [] (message s ST_NODE_NOT_FOUND ++ CRLF) cwd s' /\ core s' = core s
  end.
Proof. intros e own w cwd l n path s c A Hc. exact (C44_cd_at e own w cwd (fed e [c] s) n path s c (asked_line _ _ _ _ _ _ _ _ _ A Hc) Hc). Qed.
Lemma C45_proof : forall e own w cwd l ws f s c x, asked e own w cwd l ws f s -> c = CR \/ c = LF -> f_exec f = Some x -> ws <> [] -> accepts x (length ws) = false ->
  exists s', does e c s x f ws [] (message s ST_COMMAND_WRONG_ARGUMENTS ++ CRLF) cwd s' /\ core s' = core s.
Proof. intros e own w cwd l ws f s c x A Hc. exact (C45_at e own w cwd (fed e [c] s) ws f s c x (asked_line _ _ _ _ _ _ _ _ _ A Hc) Hc). Qed.
