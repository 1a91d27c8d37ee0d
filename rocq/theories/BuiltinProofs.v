(** * BuiltinProofs: proofs of C56. *)
From Coq Require Import Arith Lia.
From Verif Require Import Shell BaseFacts Spec PathFacts Words Sched SchedFacts Editor Line Tree Cmds Complete Session SessionProofs Examples ExampleProofs Builtin PropSession.

Definition bare (d : desc) : world := mkWorld [mkDir [] 1 []] (if cfg_commands (d_cfg d) then [(0, buildin_commands (d_cfg d))] else []) (Some []).
Lemma bare_eq : forall d, world_of d init_calls = bare d.
Proof. intros d. unfold world_of, bare. destruct (cfg_commands (d_cfg d)); reflexivity. Qed.

Lemma bare_in : forall d f, file_of (bare d) f -> cfg_commands (d_cfg d) = true /\ In f (buildin_commands (d_cfg d)).
Proof.
  intros d f [I|(dd & I & J)].
  - unfold bare in I. cbn [w_groups] in I. destruct (cfg_commands (d_cfg d)); [|destruct I]. cbn [flat_map snd app] in I. rewrite app_nil_r in I. auto.
  - cbn in I. destruct I as [<-|[]]. destruct J.
Qed.
Lemma opt_in : forall b f g, In g (opt_cmd b f) -> b = true /\ g = f.
Proof. intros [|] f g I; [destruct I as [<-|[]]; auto|destruct I]. Qed.
Lemma builtin_in : forall c f, In f (buildin_commands c) -> In f [cmd_help; cmd_ls; cmd_cd; cmd_pwd; cmd_cat; cmd_xxd; cmd_echo].
Proof.
  intros c f I. unfold buildin_commands in I. rewrite !in_app_iff in I. cbn [In].
  destruct I as [I|[I|[I|[I|[I|[I|I]]]]]]; apply opt_in in I as (_ & ->); auto 10.
Qed.

Ltac seven J := cbn [In] in J; destruct J as [<-|[<-|[<-|[<-|[<-|[<-|[<-|[]]]]]]]].

Lemma bare_sound : forall d f, roomy d -> sound init_own (mkSetting d f) 2 init_calls 4.
Proof.
  intros d ap (Hi & Hp & Ho & Ha & Hx & Hc). set (x := mkSetting _ _).
  unfold sound. split; [|split; [|split; [|split; [|split; [|split; [|split; [|split; [|split]]]]]]]]; cbn [x x_desc].
  - exact Hi.
  - lia.
  - intros E B. destruct (Hc E) as (r & I & On). clear - I On B. unfold buildin_commands in B.
    repeat match goal with H : _ ++ _ = [] |- _ => apply app_eq_nil in H as (? & H) end.
    repeat match goal with H : opt_cmd ?b _ = [] |- _ => assert (b = false) by (destruct b; [discriminate H|reflexivity]); clear H end.
    unfold rows in I. cbv zeta in I. repeat match goal with H : _ = false |- _ => rewrite H in I; clear H end. rewrite andb_false_r in I.
    cbn [In] in I. destruct I as [<-|[<-|[<-|[<-|[<-|[<-|[<-|[]]]]]]]]; discriminate On.
  - cbn. tauto.
  - intros k I. cbn in I. destruct I as [<-|[<-|[]]]; repeat constructor.
  - split; [|exact I]. split; [constructor|]. split; [cbn; lia|]. split; [cbn; tauto|]. intros [U|U]; cbn in U; [tauto|]. destruct (cfg_commands (d_cfg d)); cbn in U; intuition discriminate.
  - rewrite bare_eq. reflexivity.
  - rewrite bare_eq. split; [reflexivity|]. split; [reflexivity|]. exists (mkDir [] 1 []). split; [cbn; tauto|reflexivity].
  - rewrite bare_eq. apply steady_snug; cbn [x x_desc x_app].
    + split; [|split].
      * intros f cb I E. assert (J : In f (buildin_commands (d_cfg d))) by (apply bare_in; left; exact I). apply builtin_in in J. clear I. seven J; injection E as <-; reflexivity.
      * intros dd f cb I J E. cbn in I. destruct I as [<-|[]]. destruct J.
      * intros dd f I J. cbn in I. destruct I as [<-|[]]. destruct J.
    + intros dd I. cbn in I. destruct I as [<-|[]]. cbn. lia.
    + exact Ho.
    + lia.
    + intros f Fo. apply bare_in in Fo as (_ & Fo). apply builtin_in in Fo. split.
      * unfold name_room. assert (Lc : length (colour (d_cfg d) "[33m") <= 5) by (unfold colour; destruct (cfg_styles (d_cfg d)); cbn; lia).
        assert (Ln : length (f_name f) <= 4) by (seven Fo; cbn; lia). destruct (f_desc f); lia.
      * seven Fo; cbn; clear; intuition discriminate.
    + exact Hx.
    + intros h f k Fo Fg. apply bare_in in Fo as (_ & Fo). apply builtin_in in Fo. seven Fo; discriminate Fg.
    + intros h f k t Fo Fg. apply bare_in in Fo as (_ & Fo). apply builtin_in in Fo. seven Fo; discriminate Fg.
    + intros h f k ws Fo Fg. apply bare_in in Fo as (_ & Fo). apply builtin_in in Fo. seven Fo; discriminate Fg.
  - rewrite bare_eq. apply forallb_forall. intros n I. unfold all_names in I. rewrite !in_app_iff in I. destruct I as [I|[I|I]].
    + apply in_map_iff in I as (f & <- & I). assert (J : In f (buildin_commands (d_cfg d))) by (apply bare_in; left; exact I). apply builtin_in in J. seven J; reflexivity.
    + cbn in I. destruct I.
    + cbn in I. destruct I as [<-|[]]. reflexivity.
Qed.

(** ** The session *)
Lemma sess_run_app : forall x p q a, sess_run x a (p ++ q) =
  (fst (sess_run x a p) ++ fst (sess_run x (snd (sess_run x a p)) q), snd (sess_run x (snd (sess_run x a p)) q)).
Proof.
  intros x p q. induction p as [|c p IH]; intros a; cbn [app sess_run fst snd]; [destruct (sess_run x a q); reflexivity|].
  destruct (sess_step x a c) as (evs, a1). rewrite IH. destruct (sess_run x a1 p) as (e2, a2). cbn [fst snd]. rewrite app_comm_cons, app_assoc. reflexivity.
Qed.

Lemma plain_step : forall x w h l c, plain_key c = true -> c <> NUL -> S (length l) < d_insize (x_desc x) ->
  sess_step x (mkSess w h 0 l) c = ([EvOut c], mkSess w (h ++ [c]) 0 (l ++ [c])).
Proof.
  intros x w h l c P N L. unfold plain_key in P. cbn [existsb] in P. apply negb_true_iff in P. repeat (apply orb_false_iff in P as (? & P)).
  unfold sess_step, ends_line, completes, ed_step, ed_out, erase_key, stored_line, echo_of. cbn [se_world se_read se_esc se_line Nat.eqb andb].
  repeat match goal with H : ceq c _ = false |- _ => rewrite H; clear H end. cbn [orb andb].
  rewrite (ceq_neq c NUL N). destruct (Nat.ltb_spec (S (length l)) (d_insize (x_desc x))); [reflexivity|lia].
Qed.

Lemma plain_run : forall x w t h l, Forall (fun c => plain_key c = true /\ c <> NUL) t -> length l + length t < d_insize (x_desc x) ->
  sess_run x (mkSess w h 0 l) t = (flat_map (fun c => [EvIn c; EvOut c]) t, mkSess w (h ++ t) 0 (l ++ t)).
Proof.
  intros x w t. induction t as [|c t IH]; intros h l F L; [rewrite !app_nil_r; reflexivity|]. inversion F as [|? ? (P & N) Fr]; subst. cbn [length] in L.
  cbn [sess_run]. rewrite plain_step by (auto; lia). rewrite IH by (auto; rewrite app_length; cbn; lia). rewrite <- !app_assoc. reflexivity.
Qed.

Lemma outs_app : forall a b, outs (a ++ b) = outs a ++ outs b.
Proof. intros a b. unfold outs. apply flat_map_app. Qed.
Lemma outs_out : forall t, outs (map EvOut t) = t.
Proof. intros t. induction t as [|c t IH]; [reflexivity|]. cbn. f_equal. exact IH. Qed.
Lemma outs_keys : forall t, outs (flat_map (fun c => [EvIn c; EvOut c]) t) = t.
Proof. intros t. induction t as [|c t IH]; [reflexivity|]. cbn. f_equal. exact IH. Qed.

Lemma line_outs : forall x w t evs u, typeable (x_desc x) t -> react (x_desc x) (x_app x (t ++ [CR])) w CR (argv_of t) = (evs, u, w) -> outs evs = [] ->
  outs (fst (sess_run x (mkSess w [] 0 []) (t ++ [CR]))) = t ++ crlf ++ u ++ prompt (x_desc x) (show (here w)).
Proof.
  intros x w t evs u (F & L) R O. rewrite sess_run_app, plain_run by (auto; cbn; lia). cbn [fst snd app sess_run].
  unfold sess_step, ends_line. cbn [se_esc se_world se_read se_line Nat.eqb ceq]. unfold line_argv, env_at, kept_line. cbn [se_line se_read].
  destruct (Nat.ltb_spec (S (length t)) (d_insize (x_desc x))) as [_|?]; [|lia].
  replace (ceq CR CR) with true by reflexivity. cbn [orb andb]. rewrite R. cbn [app fst]. rewrite app_nil_r.
  rewrite outs_app, outs_keys. f_equal. change (EvIn CR :: ?x) with ([EvIn CR] ++ x). rewrite !outs_app, O, !outs_out. reflexivity.
Qed.

Lemma reply_proof : forall d f t evs u, roomy d -> typeable d t -> react d (f (t ++ [CR])) (bare d) CR (argv_of t) = (evs, u, bare d) -> outs evs = [] ->
  replies (mkSetting d f) t u.
Proof.
  intros d f t evs u R T E O. pose proof (sound_runs _ _ _ _ _ (bare_sound d f R)) as (s & Su & H). cbn [x_desc] in *.
  rewrite bare_eq in H. assert (Te : tabs_early (mkSetting d f) (mkSess (bare d) [] 0 []) 4 (t ++ [CR])).
  { intros p q Eq. exfalso. assert (I : In TAB (t ++ [CR])) by (rewrite Eq; apply in_or_app; right; left; reflexivity). apply in_app_iff in I as [I|[I|[]]]; [|discriminate I].
    destruct T as (F & _). rewrite Forall_forall in F. destruct (F _ I) as (P & _). discriminate P. }
  destruct (H _ Te) as (A & m & B). exists s, m. split; [exact Su|]. intros l L. destruct (B l L) as (s' & Dr & Po). exists s'. split; [exact Dr|]. split; [exact Po|].
  destruct (A l) as (q & s2 & Dr2 & Lg). rewrite Dr in Dr2. injection Dr2 as <- <-. destruct (Lg Po) as (p & Ep & E2). rewrite app_nil_r in Ep. subst p.
  rewrite E2, outs_app, outs_out, <- app_assoc. f_equal. f_equal.
  exact (line_outs (mkSetting d f) (bare d) t evs u T E O).
Qed.

(** ** Lookup *)
Lemma denotes_bare : forall d n, denotes (bare d) n = if cfg_commands (d_cfg d) then file_named n (buildin_commands (d_cfg d)) else None.
Proof.
  intros d n. unfold denotes, find_file, bare. cbn [w_groups w_fs here w_cwd].
  assert (R : match resolve_text [] n with [] => None | p => match dir_at (removelast p) [mkDir [] 1 []] with Some dd => file_named (last p []) (de_files dd) | None => None end end = None).
  { destruct (resolve_text [] n) as [|c p]; [reflexivity|]. cbv zeta. destruct (dir_at (removelast (c :: p)) [mkDir [] 1 []]) as [dd|] eqn:D; rewrite ?D; [|reflexivity]. apply find_some in D as (I & _). destruct I as [<-|[]]. reflexivity. }
  unfold here. cbn [w_cwd]. destruct (cfg_commands (d_cfg d)).
  - cbn [flat_map snd app]. rewrite app_nil_r. destruct (file_named n _); [reflexivity|exact R].
  - cbn [flat_map file_named find]. exact R.
Qed.

Lemma file_named_none : forall n fl, (forall g, In g fl -> f_name g <> n) -> file_named n fl = None.
Proof.
  intros n fl H. unfold file_named. destruct (find _ fl) as [g|] eqn:E; [|reflexivity]. apply find_some in E as (I & E). apply beq_true in E. destruct (H g I E).
Qed.

Lemma C56_only_proof : forall d f t n ws, roomy d -> typeable d t -> argv_of t = n :: ws ->
  (forall r, In r (rows (d_cfg d)) -> r_on r = true -> r_name r <> n) -> replies (mkSetting d f) t (status_text (d_cfg d) ST_COMMAND_SYNTAX_ERROR ++ crlf).
Proof.
  intros d f t n ws R T A N. pose proof R as (_ & _ & _ & _ & Hx & _).
  assert (D : denotes (bare d) n = None).
  { rewrite denotes_bare. destruct (cfg_commands (d_cfg d)) eqn:Cc; [|reflexivity]. apply file_named_none. intros g I. revert N. unfold rows. rewrite Cc. cbn [andb]. intros N.
    unfold buildin_commands in I. rewrite !in_app_iff in I.
    destruct I as [I|[I|[I|[I|[I|[I|I]]]]]]; apply opt_in in I as (On & ->);
      [refine (N _ (or_introl eq_refl) _)|refine (N _ (or_intror (or_introl eq_refl)) _)|refine (N _ (or_intror (or_intror (or_introl eq_refl))) _)|
       refine (N _ (or_intror (or_intror (or_intror (or_introl eq_refl)))) _)|refine (N _ (or_intror (or_intror (or_intror (or_intror (or_introl eq_refl))))) _)|
       refine (N _ (or_intror (or_intror (or_intror (or_intror (or_intror (or_introl eq_refl)))))) _)|refine (N _ (or_intror (or_intror (or_intror (or_intror (or_intror (or_intror (or_introl eq_refl))))))) _)]; exact On. }
  apply (reply_proof d f t [] _ R T); [|reflexivity]. rewrite A. unfold react, hook_events, after_hook, hook_calls. rewrite Hx. cbn [tree_calls flat_map spec_ops snd]. cbn. rewrite D. reflexivity.
Qed.

Lemma opt_map : forall (h : file -> bytes) b g, flat_map h (opt_cmd b g) = if b then h g else [].
Proof. intros h [|] g; [apply app_nil_r|reflexivity]. Qed.
Lemma row_line : forall (h : row -> bytes) r l, concat (map h (filter r_on (r :: l))) = (if r_on r then h r else []) ++ concat (map h (filter r_on l)).
Proof. intros h r l. cbn [filter]. destruct (r_on r); reflexivity. Qed.

Lemma rows_files : forall c r, In r (rows c) -> r_on r = true -> cfg_commands c = true /\ exists g, file_named (r_name r) (buildin_commands c) = Some g /\
  r_name r = f_name g /\ f_help g = Some (r_usage r) /\ exists cb, f_exec g = Some cb /\ 
  forall d e, d_cfg d = c -> d_exec d = None -> do_exec d e (bare d) CR cb g [r_name r] = ([], r_alone r, bare d).
Proof.
  intros c r I On. assert (Cc : cfg_commands c = true) by (cbn in I; destruct I as [<-|[<-|[<-|[<-|[<-|[<-|[<-|[]]]]]]]]; apply andb_true_iff in On as (H & _); exact H).
  split; [exact Cc|]. unfold rows in I. cbv zeta in I. rewrite Cc in I. cbn [andb] in I.
  assert (Hl : forall d, d_cfg d = c -> help_text c (flat_map snd (w_groups (bare d))) = r_alone (hd (mkRow true [] [] [] []) (rows c))).
  { intros d E. unfold bare. rewrite E, Cc. cbn [w_groups flat_map snd app]. rewrite app_nil_r. unfold rows, listing. rewrite Cc. cbn [andb hd r_alone r_on].
    unfold buildin_commands, help_text. rewrite !flat_map_app, !opt_map. rewrite !row_line. cbn [filter map concat r_on r_name r_about]. rewrite app_nil_r.
    repeat (apply f_equal2; [match goal with |- (if ?b then _ else _) = _ => destruct b; [|reflexivity] end; unfold about_line, name_text; cbn [f_desc f_name cmd_help cmd_ls cmd_cd cmd_pwd cmd_cat cmd_xxd cmd_echo]; rewrite <- ?app_assoc; reflexivity|]).
    match goal with |- (if ?b then _ else _) = _ => destruct b; [|reflexivity] end; unfold about_line, name_text; cbn [f_desc f_name cmd_echo]; rewrite <- ?app_assoc; reflexivity. }
  assert (Fn : forall g, In g [cmd_help; cmd_ls; cmd_cd; cmd_pwd; cmd_cat; cmd_xxd; cmd_echo] -> In g (buildin_commands c) -> file_named (f_name g) (buildin_commands c) = Some g).
  { clear. intros g J K. destruct (file_named (f_name g) (buildin_commands c)) as [k|] eqn:E.
    - apply find_some in E as (I & E). apply beq_true in E. apply builtin_in in I. seven J; seven I; try reflexivity; discriminate E.
    - unfold file_named in E. pose proof (find_none _ _ E g K) as X. cbn beta in X. rewrite beq_refl in X. discriminate X. }
  destruct I as [<-|[<-|[<-|[<-|[<-|[<-|[<-|[]]]]]]]]; cbn [r_on] in On;
    [exists cmd_help|exists cmd_ls|exists cmd_cd|exists cmd_pwd|exists cmd_cat|exists cmd_xxd|exists cmd_echo];
    (split; [match goal with |- file_named _ _ = Some ?g => apply (Fn g) end; [cbn; tauto|unfold buildin_commands; rewrite On; rewrite ?in_app_iff; cbn [opt_cmd In]; tauto]|]; split; [reflexivity|]; split; [reflexivity|]; eexists; split; [reflexivity|]; intros d e E Hx; unfold do_exec; cbn [accepts length Nat.eqb orb Nat.leb]).
  - unfold do_help, prints_only. cbn [tl]. rewrite E, (Hl d E). unfold rows. rewrite Cc. reflexivity.
  - unfold do_ls, prints_only, list_dir. cbn. rewrite E, app_nil_r. reflexivity.
  - unfold prints_only, msg. rewrite E. reflexivity.
  - reflexivity.
  - unfold prints_only, msg. rewrite E. reflexivity.
  - unfold prints_only, msg. rewrite E. reflexivity.
  - reflexivity.
Qed.

Lemma C56_alone_proof : forall d f r, roomy d -> In r (rows (d_cfg d)) -> r_on r = true -> 2 + length (r_name r) <= d_insize d ->
  replies (mkSetting d f) (r_name r) (r_alone r).
Proof.
  intros d f r R I On L. pose proof R as (_ & _ & _ & _ & Hx & _). destruct (rows_files _ _ I On) as (Cc & g & Fn & Nm & _ & cb & Ex & Do).
  assert (T : typeable d (r_name r) /\ argv_of (r_name r) = [r_name r]).
  { split; [split; [|exact L]|].
    - cbn in I. destruct I as [<-|[<-|[<-|[<-|[<-|[<-|[<-|[]]]]]]]]; cbn; repeat (constructor; [split; [reflexivity|discriminate]|]); constructor.
    - cbn in I. destruct I as [<-|[<-|[<-|[<-|[<-|[<-|[<-|[]]]]]]]]; reflexivity. }
  destruct T as (T & A). eapply (reply_proof d f (r_name r) _ (r_alone r) R T).
  - rewrite A. unfold react, hook_events, after_hook, hook_calls. rewrite Hx. cbn [tree_calls flat_map spec_ops snd app]. cbn [map]. rewrite denotes_bare, Cc, Fn, Ex. 
    rewrite (Do d _ eq_refl Hx). reflexivity.
  - reflexivity.
Qed.

Lemma C56_usage_proof : forall d f r, roomy d -> cfg_commands (d_cfg d) = true -> cfg_help (d_cfg d) = true -> In r (rows (d_cfg d)) -> 7 + length (r_name r) <= d_insize d ->
  replies (mkSetting d f) (lit "help " ++ r_name r) (if r_on r then r_usage r else status_text (d_cfg d) ST_FILE_NOT_FOUND ++ crlf).
Proof.
  intros d f r R Cc Ch I L. pose proof R as (_ & _ & _ & _ & Hx & _).
  assert (T : typeable d (lit "help " ++ r_name r) /\ argv_of (lit "help " ++ r_name r) = [lit "help"; r_name r]).
  { split; [split; [|rewrite app_length; cbn [length lit list_ascii_of_string]; lia]|].
    - cbn in I. destruct I as [<-|[<-|[<-|[<-|[<-|[<-|[<-|[]]]]]]]]; cbn; repeat (constructor; [split; [reflexivity|discriminate]|]); constructor.
    - cbn in I. destruct I as [<-|[<-|[<-|[<-|[<-|[<-|[<-|[]]]]]]]]; reflexivity. }
  destruct T as (T & A). eapply (reply_proof d f _ _ _ R T).
  - rewrite A. unfold react, hook_events, after_hook, hook_calls. rewrite Hx. cbn [tree_calls flat_map spec_ops snd app map]. rewrite denotes_bare, Cc.
    replace (file_named (lit "help") (buildin_commands (d_cfg d))) with (Some cmd_help) by (unfold buildin_commands; rewrite Ch; reflexivity).
    cbn [f_exec cmd_help]. unfold do_exec, do_help, prints_only. cbn [accepts length Nat.eqb orb tl].
    destruct (r_on r) eqn:On.
    + destruct (rows_files _ _ I On) as (_ & g & Fn & _ & Hp & _). rewrite denotes_bare, Cc, Fn, Hp. reflexivity.
    + rewrite denotes_bare, Cc, file_named_none; [reflexivity|]. intros g J Nm. unfold rows in I. rewrite Cc in I. cbn [andb] in I.
      unfold buildin_commands in J. rewrite !in_app_iff in J.
      cbn [In] in I. destruct I as [<-|[<-|[<-|[<-|[<-|[<-|[<-|[]]]]]]]]; cbn [r_on] in On;
        destruct J as [J|[J|[J|[J|[J|[J|J]]]]]]; apply opt_in in J as (On2 & ->); try discriminate Nm; congruence.
  - reflexivity.
Qed.

Lemma C56_none_proof : forall d, 1 <= d_insize d -> 4 <= d_outsize d -> cfg_commands (d_cfg d) = true -> (forall r, In r (rows (d_cfg d)) -> r_on r = false) ->
  set_up d 2 init_calls = Err EAssert.
Proof.
  intros d Hi Ho Cc H. unfold set_up, ush_init.
  destruct (Nat.ltb_spec 0 (d_insize d)) as [_|?]; [|lia]. destruct (Nat.leb_spec 4 (d_outsize d)) as [_|?]; [|lia]. cbn [assert_ bind]. rewrite Cc.
  assert (B : buildin_commands (d_cfg d) = []).
  { unfold rows in H. rewrite Cc in H. cbn [andb] in H. unfold buildin_commands.
    pose proof (H _ (or_introl eq_refl)) as H1. pose proof (H _ (or_intror (or_introl eq_refl))) as H2. pose proof (H _ (or_intror (or_intror (or_introl eq_refl)))) as H3.
    pose proof (H _ (or_intror (or_intror (or_intror (or_introl eq_refl))))) as H4. pose proof (H _ (or_intror (or_intror (or_intror (or_intror (or_introl eq_refl)))))) as H5.
    pose proof (H _ (or_intror (or_intror (or_intror (or_intror (or_intror (or_introl eq_refl))))))) as H6. pose proof (H _ (or_intror (or_intror (or_intror (or_intror (or_intror (or_intror (or_introl eq_refl)))))))) as H7.
    cbn [r_on] in *. rewrite H1, H2, H3, H4, H5, H6, H7. reflexivity. }
  rewrite B. reflexivity.
Qed.
