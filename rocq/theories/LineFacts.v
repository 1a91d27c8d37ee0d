(** * LineFacts: argument vectors and the dispatch of a line (C03, C04, C38). *)
From Verif Require Import Shell BaseFacts LogFacts Sched ServiceFacts SchedFacts Macro Editor EditFacts Words ParseFacts PromptFacts PhaseFacts Line.

(** ** Argument vectors *)

Lemma split_nul_nonempty : forall w, split_nul w <> [].
Proof. induction w as [|c w IH]; cbn [split_nul]; [discriminate|]. destruct (ceq c NUL); [discriminate|]. destruct (split_nul w); discriminate. Qed.

Lemma split_nul_no_nul : forall w, Forall no_nul (split_nul w).
Proof.
  induction w as [|c w IH]; cbn [split_nul]; [constructor; [apply no_nul_nil|constructor]|].
  destruct (ceq c NUL) eqn:E; [constructor; auto using no_nul_nil|].
  apply ceq_false in E. destruct (split_nul w) as [|h t].
  - constructor; [|constructor]. apply no_nul_cons. auto using no_nul_nil.
  - inversion IH; subst. constructor; auto. apply no_nul_cons. auto.
Qed.

Lemma split_nul_packed : forall w, packed (split_nul w) = w ++ [NUL].
Proof.
  induction w as [|c w IH]; cbn [split_nul]; [reflexivity|]. destruct (ceq c NUL) eqn:E.
  - apply ceq_true in E. subst. cbn [packed flat_map app]. fold (packed (split_nul w)). rewrite IH. reflexivity.
  - pose proof (split_nul_nonempty w). destruct (split_nul w) as [|h t]; [congruence|].
    cbn [packed flat_map app] in *. rewrite IH. reflexivity.
Qed.

Lemma split_nul_id : forall w, no_nul w -> split_nul w = [w].
Proof.
  induction w as [|c w IH]; intros H; [reflexivity|]. apply no_nul_cons in H as (H1 & H2).
  cbn [split_nul]. rewrite (ceq_neq _ _ H1), (IH H2). reflexivity.
Qed.

Lemma packed_split : forall ws, packed (flat_map split_nul ws) = packed ws.
Proof.
  induction ws as [|w ws IH]; [reflexivity|]. cbn [flat_map]. rewrite packed_app, IH, split_nul_packed. reflexivity.
Qed.

Lemma split_length : forall ws, length ws <= length (flat_map split_nul ws).
Proof.
  induction ws as [|w ws IH]; [reflexivity|]. cbn [flat_map length]. rewrite app_length.
  pose proof (split_nul_nonempty w). destruct (split_nul w); [congruence|]. cbn [length]. lia.
Qed.

Lemma splits_no_nul : forall ws, Forall no_nul (flat_map split_nul ws).
Proof. induction ws as [|w ws IH]; [constructor|]. cbn [flat_map]. apply Forall_app. split; auto using split_nul_no_nul. Qed.

Lemma args_at : forall n ps pre r, Forall no_nul ps -> n <= length ps ->
  exists args, args_loop n (pre ++ packed ps ++ r) (length pre) = Ok args /\
    arg_values (pre ++ packed ps ++ r) args = Ok (firstn n ps) /\ length args = n.
Proof.
  induction n as [|n IH]; intros ps pre r F L; [exists []; auto|].
  destruct ps as [|p ps]; [cbn in L; lia|]. inversion F as [|? ? Fp Fs]; subst. cbn [length] in L.
  assert (E : pre ++ packed (p :: ps) ++ r = pre ++ p ++ NUL :: (packed ps ++ r)).
  { cbn [packed flat_map]. rewrite <- !app_assoc. reflexivity. }
  destruct (IH ps (pre ++ p ++ [NUL]) r Fs ltac:(lia)) as (args & A & V & N).
  assert (E2 : (pre ++ p ++ [NUL]) ++ packed ps ++ r = pre ++ p ++ NUL :: (packed ps ++ r)) by (rewrite <- !app_assoc; reflexivity).
  rewrite E2 in A, V. rewrite !app_length in A. cbn [length] in A. rewrite E.
  exists (length pre :: args). cbn [args_loop arg_values].
  rewrite c_strlen_app by auto. cbn [bind].
  replace (length pre + length p + 1) with (length pre + (length p + 1)) by lia. rewrite A. cbn [bind].
  split; [reflexivity|]. rewrite c_str_app by auto. cbn [bind]. rewrite V. cbn [bind firstn length]. rewrite N. auto.
Qed.

Definition argv_of_words (ws : list bytes) : list bytes := firstn (length ws) (flat_map split_nul ws).

Lemma argv_words_no_nul : forall ws, Forall no_nul ws -> argv_of_words ws = ws.
Proof.
  intros ws F. unfold argv_of_words. replace (flat_map split_nul ws) with ws; [apply firstn_all|].
  induction F as [|w ws Fw F IH]; [reflexivity|]. cbn [flat_map]. rewrite split_nul_id, <- IH by auto. reflexivity.
Qed.

Lemma argv_words_length : forall ws, length (argv_of_words ws) = length ws.
Proof. intros ws. unfold argv_of_words. rewrite firstn_length. pose proof (split_length ws). lia. Qed.

Lemma argv_words_no_nuls : forall ws, Forall no_nul (argv_of_words ws).
Proof.
  intros ws. unfold argv_of_words. pose proof (splits_no_nul ws) as F. revert F. generalize (flat_map split_nul ws).
  induction (length ws) as [|n IH]; intros l F; [constructor|]. destruct l as [|x l]; [constructor|].
  inversion F; subst. cbn [firstn]. constructor; auto.
Qed.

(** The words of a NUL-free line are NUL-free. *)
Lemma lex_no_nul : forall l q, no_nul l -> Forall (fun i => match i with Chr c => c <> NUL | _ => True end) (lex q l).
Proof.
  assert (G : forall n l q, length l <= n -> no_nul l -> Forall (fun i => match i with Chr c => c <> NUL | _ => True end) (lex q l)).
  { induction n as [|n IH]; intros l q L H; [destruct l; [constructor|cbn in L; lia]|].
    destruct l as [|c l]; [constructor|]. apply no_nul_cons in H as (H1 & H2). cbn [length] in L. cbn [lex].
    destruct (ceq c BSL).
    - destruct l as [|d l]; [repeat constructor|]. apply no_nul_cons in H2 as (H2 & H3). cbn [length] in L.
      apply Forall_app. split; [destruct (ceq d "x"%char); repeat constructor; auto; discriminate|]. apply IH; auto. lia.
    - destruct (ceq c DQ); [constructor; auto; apply IH; auto; lia|].
      destruct (ceq c SP && negb q); constructor; auto; apply IH; auto; lia. }
  intros l q. apply (G (length l)). lia.
Qed.

Lemma group_no_nul : forall its w, Forall (fun i => match i with Chr c => c <> NUL | _ => True end) its ->
  (forall t, w = Some t -> no_nul t) -> Forall no_nul (group w its).
Proof.
  induction its as [|i its IH]; intros w F W.
  - destruct w; cbn; constructor; auto.
  - inversion F as [|? ? Fi Fs]; subst.
    assert (NW : no_nul (word_so_far w)) by (destruct w; cbn; auto using no_nul_nil).
    destruct i as [c| |]; cbn [group].
    + apply IH; auto. intros t X. injection X as <-. apply no_nul_app. split; auto. apply no_nul_cons. auto using no_nul_nil.
    + apply IH; auto. intros t X. injection X as <-. auto.
    + apply Forall_app. split; [destruct w; constructor; auto|]. apply IH; auto. discriminate.
Qed.

Lemma words_no_nul : forall l, no_nul l -> Forall no_nul (words l).
Proof. intros l H. apply group_no_nul; [apply lex_no_nul; auto|discriminate]. Qed.

Lemma argv_no_nul : forall l, no_nul l -> argv_of l = words l.
Proof. intros l H. apply argv_words_no_nul, words_no_nul, H. Qed.

(** ** Dispatch *)

Lemma dispatch_args : forall ws t s s2, dispatch ws t s s2 ->
  exists args, ush_parse_get_args s2 = Ok args /\ arg_values (inb s2) args = Ok (argv_of_words ws) /\ length args = length ws.
Proof.
  intros ws t s s2 (_ & A & _ & _ & _ & r & E). unfold ush_parse_get_args. rewrite A, E.
  destruct (args_at (length ws) (flat_map split_nul ws) [] r (splits_no_nul ws) (split_length ws)) as (args & G & V & N).
  cbn [app length] in *. rewrite packed_split in *. exists args. auto.
Qed.

Lemma find_core : forall name s s', core s' = core s -> ush_file_find_by_name name s' = ush_file_find_by_name name s.
Proof.
  intros name s s' K. unfold core in K. injection K as K1 K2 K3 K4 K5 K6. unfold ush_file_find_by_name.
  rewrite K1, K2, K3, K4, K6. reflexivity.
Qed.

(** What [ush_parse_finish] does with the argument vector. *)
Definition run_argv (e : env) (args : list nat) (argv : list bytes) (s : st) : res st :=
  match argv with
  | [] => Ok s
  | name :: _ =>
      s <- (match d_exec (o_desc s) with
            | None => Ok s
            | Some cb =>
                do_actions args (e_exec e cb None argv) (emit (EvExec (XUser cb) None argv) s)
            end) ;;
      r <- ush_file_find_by_name name s ;;
      match r with
      | None => Ok (ush_print_status ST_COMMAND_SYNTAX_ERROR s)
      | Some f =>
          match f_exec f with
          | None => Ok (ush_print_status ST_FILE_NOT_EXECUTABLE s)
          | Some cb => call_exec e cb f args argv s
          end
      end
  end.

Lemma finish_argv : forall e ws t s s2, dispatch ws t s s2 ->
  exists args, ush_parse_get_args s2 = Ok args /\ arg_values (inb s2) args = Ok (argv_of_words ws) /\ length args = length ws /\
    ush_parse_finish e s2 = run_argv e args (argv_of_words ws) s2.
Proof.
  intros e ws t s s2 D. destruct (dispatch_args _ _ _ _ D) as (args & A & V & N).
  exists args. split; [exact A|]. split; [exact V|]. split; [exact N|].
  unfold ush_parse_finish. rewrite A. cbn [bind]. rewrite V. reflexivity.
Qed.

(** Feeding an end of line. *)
Lemma fed_line_took : forall e l s c, editing 0 l s -> o_cur s <> None -> bufs_ok s ->
  c = CR \/ c = LF -> eol_free l ->
  let argv := argv_of (kept_line (d_insize (o_desc s)) l) in
  exists s2 args,
    dispatch (words (kept_line (d_insize (o_desc s)) l)) (eol_echo c) s s2 /\
    lg s2 = lg s ++ EvIn c :: map EvOut (eol_echo c) /\
    ush_parse_get_args s2 = Ok args /\ arg_values (inb s2) args = Ok argv /\ length args = length argv /\
    (forall s', fed e [c] s s' <-> exists s3, run_argv e args argv s2 = Ok s3 /\ quiet e s3 s') /\
    (forall s3, run_argv e args argv s2 = Ok s3 -> took e c s s3).
Proof.
  intros e l s c Ed C B Hc EF argv.
  destruct (enter_line e l s c Ed C B Hc EF) as (s1 & s2 & T & N & S & D & L).
  destruct (finish_argv e _ _ _ _ D) as (args & A & V & Ln & F).
  exists s2, args. split; [exact D|]. split; [exact L|]. split; [exact A|]. split; [exact V|].
  split; [unfold argv; rewrite Ln; symmetry; apply argv_words_length|].
  rewrite F in S. split; [|intros s3 R; apply (took_works _ _ _ _ _ T); eapply works_step; [exact N|rewrite S; unfold argv, argv_of in R; unfold argv_of_words; rewrite R; reflexivity|constructor]].
  intros s'. rewrite (took_fed _ _ _ _ T). fold argv in S. split.
  - intros Q. inversion Q as [? P|? b s1' ? N' H1 Q']; subst; [contradiction|].
    unfold argv in H1. unfold argv_of in H1. fold (argv_of_words (words (kept_line (d_insize (o_desc s)) l))) in H1.
    rewrite S in H1. destruct (run_argv _ _ _ _) as [s3|] eqn:R; [|discriminate].
    cbn [bind] in H1. injection H1 as <- <-. exists s3. split; auto.
  - intros (s3 & R & Q). eapply quiet_step; [exact N| |exact Q]. rewrite S. unfold argv, argv_of in R.
    unfold argv_of_words. rewrite R. reflexivity.
Qed.

Lemma fed_line : forall e l s c, editing 0 l s -> o_cur s <> None -> bufs_ok s ->
  c = CR \/ c = LF -> eol_free l ->
  let argv := argv_of (kept_line (d_insize (o_desc s)) l) in
  exists s2 args,
    dispatch (words (kept_line (d_insize (o_desc s)) l)) (eol_echo c) s s2 /\
    lg s2 = lg s ++ EvIn c :: map EvOut (eol_echo c) /\
    ush_parse_get_args s2 = Ok args /\ arg_values (inb s2) args = Ok argv /\ length args = length argv /\
    forall s', fed e [c] s s' <-> exists s3, run_argv e args argv s2 = Ok s3 /\ quiet e s3 s'.
Proof.
  intros e l s c Ed C B Hc EF argv. destruct (fed_line_took e l s c Ed C B Hc EF) as (s2 & args & D & L & A & V & N & F & _).
  exists s2, args. split; [exact D|]. split; [exact L|]. split; [exact A|]. split; [exact V|]. split; [exact N|exact F].
Qed.

Lemma log_prefix_quiet : forall e s s', quiet e s s' -> exists evs, lg s' = lg s ++ evs /\ Forall ev_noin evs.
Proof.
  intros e s s' Q. induction Q as [s P|s b s1 s2 N H Q (m & L & F)].
  - exists []. rewrite app_nil_r. auto.
  - apply service_noin in H as (m1 & L1 & F1); auto. exists (m1 ++ m). rewrite L, L1, app_assoc. split; auto. apply Forall_app; auto.
Qed.

Lemma logs_any : forall s s' P, logs P s s' -> exists m, lg s' = lg s ++ m.
Proof. intros s s' P (m & L & _). eauto. Qed.

(** ** Every argument list can be typed *)
Lemma group_chars : forall w l acc, group (Some acc) (map Chr w ++ l) = group (Some (acc ++ w)) l.
Proof.
  induction w as [|c w IH]; intros l acc; cbn [map app group]; [rewrite app_nil_r; reflexivity|].
  cbn [word_so_far]. rewrite IH, <- app_assoc. reflexivity.
Qed.


Lemma lex_quoted : forall w l, lex true (flat_map quote_char w ++ DQ :: l) = map Chr w ++ Mark :: lex false l.
Proof.
  induction w as [|c w IH]; intros l; cbn [flat_map app map]; [reflexivity|].
  unfold quote_char. destruct (ceq c BSL) eqn:E1; cbn [orb app].
  - apply ceq_true in E1. subst c. cbn [lex]. rewrite ceq_refl.
    change (ceq BSL "x"%char) with false. cbn [app]. rewrite IH. reflexivity.
  - destruct (ceq c DQ) eqn:E2; cbn [app lex].
    + apply ceq_true in E2. subst c. rewrite ceq_refl. change (ceq DQ "x"%char) with false. cbn [app]. rewrite IH. reflexivity.
    + rewrite E1, E2, Bool.andb_false_r, IH. reflexivity.
Qed.

Lemma lex_quote : forall w l, lex false (quote w ++ l) = Mark :: map Chr w ++ Mark :: lex false l.
Proof.
  intros w l. unfold quote. cbn [app lex]. change (ceq DQ BSL) with false. rewrite ceq_refl. cbn [negb].
  f_equal. rewrite <- app_assoc. cbn [app]. apply lex_quoted.
Qed.

Lemma words_command_line : forall ws, words (command_line ws) = ws.
Proof.
  unfold words. induction ws as [|w ws IH]; [reflexivity|].
  destruct ws as [|w2 ws].
  - cbn [command_line]. rewrite <- (app_nil_r (quote w)), lex_quote. cbn [group word_so_far].
    rewrite group_chars. cbn [group lex word_so_far flush_word app]. reflexivity.
  - change (command_line (w :: w2 :: ws)) with (quote w ++ [SP] ++ command_line (w2 :: ws)).
    rewrite lex_quote. cbn [group word_so_far]. rewrite group_chars. cbn [app group word_so_far lex].
    change (ceq SP BSL) with false. change (ceq SP DQ) with false. rewrite ceq_refl. cbn [negb andb group flush_word app].
    rewrite IH. reflexivity.
Qed.

(** The packed words never need more room than the line and its end. *)
Lemma group_room : forall its w, length (packed (group w its)) <=
  length its + match w with Some t => S (length t) | None => 1 end.
Proof.
  induction its as [|i its IH]; intros w.
  - destruct w; cbn [group flush_word packed flat_map length]; rewrite ?app_length; cbn [length]; lia.
  - destruct i as [c| |]; cbn [group length].
    + specialize (IH (Some (word_so_far w ++ [c]))). cbv beta iota in IH. rewrite app_length in IH.
      cbn [length] in IH. destruct w; cbn [word_so_far length] in *; lia.
    + specialize (IH (Some (word_so_far w))). destruct w; cbn [word_so_far length] in *; lia.
    + rewrite packed_app, app_length. specialize (IH None). cbv beta iota in IH.
      destruct w as [t|]; cbn [flush_word]; [|change (length (packed [])) with 0; lia].
      assert (E : length (packed [t]) = S (length t)) by (cbn [packed flat_map]; rewrite !app_length; cbn [length]; lia).
      lia.
Qed.

Lemma lex_length : forall l q, length (lex q l) <= length l.
Proof.
  assert (G : forall n l q, length l <= n -> length (lex q l) <= length l).
  { induction n as [|n IH]; intros l q L; [destruct l; [cbn; lia|cbn in L; lia]|].
    destruct l as [|c l]; [cbn; lia|]. cbn [length] in L. cbn [lex].
    destruct (ceq c BSL).
    - destruct l as [|d l]; [cbn; lia|]. cbn [length] in L. rewrite app_length.
      specialize (IH l q ltac:(lia)). destruct (ceq d "x"%char); cbn [length]; lia.
    - destruct (ceq c DQ); [specialize (IH l (negb q)); cbn [length]; lia|].
      specialize (IH l q). destruct (ceq c SP && negb q); cbn [length]; lia. }
  intros l q. apply (G (length l)). lia.
Qed.

Lemma words_room : forall l, length (packed (words l)) <= S (length l).
Proof.
  intros l. unfold words. pose proof (group_room (lex false l) None). pose proof (lex_length l false). cbv beta iota in *. lia.
Qed.

(** ** Statements used by the properties *)
Lemma typed_kept : forall l s, typed l s -> kept_line (d_insize (o_desc s)) l = l.
Proof. intros l s (_ & _ & L & _). unfold kept_line. destruct (Nat.ltb_spec (S (length l)) (d_insize (o_desc s))); [reflexivity|lia]. Qed.

Lemma typed_argv : forall l s, typed l s -> argv_of (kept_line (d_insize (o_desc s)) l) = words l.
Proof. intros l s T. rewrite (typed_kept l s T). apply argv_no_nul. apply T. Qed.

(** The state in which the argument vector [ws] of a line is dispatched. *)
Definition ready_to_run (ws : list bytes) (c : byte) (s s2 : st) (args : list nat) : Prop :=
  core s2 = core s /\ bufs_ok s2 /\ wrote s2 (eol_echo c) /\ o_state s2 = S_RESET_PROMPT /\
  o_argc s2 = length ws /\ (exists r, inb s2 = packed ws ++ r) /\
  ush_parse_get_args s2 = Ok args /\ arg_values (inb s2) args = Ok ws /\ length args = length ws /\
  lg s2 = lg s ++ EvIn c :: map EvOut (eol_echo c).

Lemma typed_entered : forall l s, typed l s -> entered l (words l) s.
Proof. intros l s T. pose proof T as (Ed & B & _ & EF & _). split; [exact Ed|]. split; [exact B|]. split; [exact EF|]. exact (typed_argv l s T). Qed.

Lemma entered_no_nul : forall l ws s, entered l ws s -> Forall no_nul ws.
Proof. intros l ws s (_ & _ & _ & <-). apply argv_words_no_nuls. Qed.

Lemma packed_argv : forall ws, exists r, packed ws = packed (argv_of_words ws) ++ r.
Proof.
  intros ws. pose proof (eq_sym (packed_split ws)) as E.
  exists (packed (skipn (length ws) (flat_map split_nul ws))). unfold argv_of_words. rewrite <- packed_app, firstn_skipn. exact E.
Qed.

Lemma entered_line_took : forall e l ws s c cw, entered l ws s -> cwd_is s cw -> c = CR \/ c = LF ->
  exists s2 args, ready_to_run ws c s s2 args /\
    (forall s', fed e [c] s s' <-> exists s3, run_argv e args ws s2 = Ok s3 /\ quiet e s3 s') /\
    (forall s3, run_argv e args ws s2 = Ok s3 -> took e c s s3).
Proof.
  intros e l ws s c cw (Ed & B & EF & Wl) W Hc.
  destruct (fed_line_took e l s c Ed (cwd_cur _ _ W) B Hc EF) as (s2 & args & D & Lg & A & V & N & F).
  rewrite Wl in *. exists s2, args. split; [|exact F]. destruct D as (D1 & D2 & D3 & D4 & D5 & (r & D6)).
  unfold ready_to_run. split; [exact D3|]. split; [exact D4|]. split; [exact D5|]. split; [exact D1|].
  split; [rewrite D2, <- Wl; symmetry; apply argv_words_length|].
  split; [destruct (packed_argv (words (kept_line (d_insize (o_desc s)) l))) as (r2 & P); exists (r2 ++ r); rewrite D6, P, <- app_assoc; unfold argv_of in Wl; unfold argv_of_words; rewrite Wl; reflexivity|].
  split; [exact A|]. split; [exact V|]. split; [exact N|exact Lg].
Qed.
Lemma entered_line : forall e l ws s c cw, entered l ws s -> cwd_is s cw -> c = CR \/ c = LF ->
  exists s2 args, ready_to_run ws c s s2 args /\
    forall s', fed e [c] s s' <-> exists s3, run_argv e args ws s2 = Ok s3 /\ quiet e s3 s'.
Proof.
  intros e l ws s c cw T W Hc. destruct (entered_line_took e l ws s c cw T W Hc) as (s2 & args & R & F & _). exists s2, args. split; [exact R|exact F].
Qed.
