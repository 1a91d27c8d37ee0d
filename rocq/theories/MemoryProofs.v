(** * MemoryProofs: proofs of C63 and C64. *)
From Coq Require Import Arith Lia.
From Verif Require Import Shell BaseFacts Spec PathFacts DecodeFacts Words LineFacts Sched SchedFacts ServiceFacts Editor Line Tree Cmds Complete Session SessionProofs Builtin BuiltinProofs Examples ExampleProofs Memory.

(** ** The log *)
Lemma up_to_in : forall l c, up_to_read (l ++ [EvIn c]) = l ++ [EvIn c].
Proof. induction l as [|x l IH]; intros c; [reflexivity|]. cbn [app up_to_read]. rewrite IH. destruct (l ++ [EvIn c]) eqn:E; [destruct l; discriminate|reflexivity]. Qed.
Lemma up_to_none : forall r, ins r = [] -> up_to_read r = [].
Proof. induction r as [|x r IH]; intros H; [reflexivity|]. cbn [up_to_read]. destruct x; cbn in H; try discriminate; rewrite (IH H); reflexivity. Qed.
Lemma up_to_more : forall l r, ins r = [] -> up_to_read (l ++ r) = up_to_read l.
Proof. intros l r H. induction l as [|x l IH]; [cbn; apply up_to_none; exact H|]. cbn [app up_to_read]. rewrite IH. reflexivity. Qed.

Lemma mem_quiet : forall m s s', quiet (m (up_to_read (lg s))) s s' -> quiet_by (at_reads m) s s'.
Proof.
  intros m s s' H. remember (up_to_read (lg s)) as h eqn:E. induction H as [s P|s b s1 s2 N H1 H2 IH]; [constructor; exact P|].
  econstructor; [exact N|unfold at_reads; rewrite <- E; exact H1|]. apply IH.
  apply service_noin in H1 as (evs & L & F); auto. rewrite L, up_to_more; [exact E|]. apply ins_noin. exact F.
Qed.
Lemma mem_fed : forall m c s s', fed (m (lg s ++ [EvIn c])) [c] s s' -> fed_by (at_reads m) [c] s s'.
Proof.
  intros m c s s' H. inversion H as [|? ? ? b s1 s2 ? P H1 H2 H3]; subst. inversion H3; subst.
  econstructor; [exact P|unfold tick; rewrite (poll_env _ (m (lg s ++ [EvIn c]))) by exact P; exact H1| |constructor; assumption].
  apply mem_quiet. replace (up_to_read (lg s1)) with (lg s ++ [EvIn c]); [exact H2|].
  apply service_poll in H1; auto. cbn [tick io_rd] in H1. destruct H1 as [_ ->]. rewrite up_to_in. reflexivity.
Qed.

(** ** Sessions *)
Lemma C63_proof : forall own m d cs a s, shows own (fixed m d (lg s)) a s -> mem_limits own m d (lg s) a cs ->
  exists s', fed_by (at_reads m) cs s s' /\ shows own (fixed m d (lg s')) (snd (mem_run m d (lg s) a cs)) s' /\ lg s' = lg s ++ fst (mem_run m d (lg s) a cs).
Proof.
  intros own m d cs. induction cs as [|c cs IH]; intros a s Sh Li.
  - exists s. split; [constructor; apply Sh|]. split; [exact Sh|]. cbn [mem_run fst]. rewrite app_nil_r. reflexivity.
  - cbn [mem_limits] in Li. set (x := fixed m d (lg s ++ [EvIn c])) in *. destruct Li as (L1 & L2).
    destruct (step_proof own x a s c Sh L1) as (s1 & F1 & Sh1 & Lg1).
    rewrite <- Lg1 in L2. destruct (IH _ s1 Sh1 L2) as (s2 & F2 & Sh2 & Lg2). exists s2.
    split; [apply (fed_by_app (at_reads m) [c] cs s s1 s2); [apply mem_fed; exact F1|exact F2]|].
    cbn [mem_run]. fold x. destruct (sess_step x a c) as [evs a1] eqn:E1. cbn [fst snd] in *. rewrite <- Lg1. destruct (mem_run m d (lg s1) a1 cs) as [evs2 a2]. cbn [fst snd] in *.
    split; [exact Sh2|]. rewrite Lg2, Lg1. rewrite <- app_assoc. reflexivity.
Qed.

Lemma mem_run_app : forall m d p q L a, let P := mem_run m d L a p in let Q := mem_run m d (L ++ fst P) (snd P) q in
  mem_run m d L a (p ++ q) = (fst P ++ fst Q, snd Q).
Proof.
  intros m d p. induction p as [|c p IH]; intros q L a; cbv zeta.
  - cbn [app mem_run fst snd]. rewrite app_nil_r. destruct (mem_run m d L a q); reflexivity.
  - cbn [app mem_run]. destruct (sess_step _ a c) as (evs, a1). specialize (IH q (L ++ EvIn c :: evs) a1). cbv zeta in IH. rewrite IH.
    destruct (mem_run m d (L ++ EvIn c :: evs) a1 p) as (e2, a2). cbn [fst snd]. f_equal.
    + rewrite <- app_assoc. cbn [app]. rewrite <- app_assoc. reflexivity.
    + rewrite <- app_assoc. reflexivity.
Qed.
Lemma mem_limits_app : forall own m d p q L a, let P := mem_run m d L a p in mem_limits own m d L a (p ++ q) ->
  mem_limits own m d L a p /\ mem_limits own m d (L ++ fst P) (snd P) q.
Proof.
  intros own m d p. induction p as [|c p IH]; intros q L a; cbv zeta.
  - intros H. split; [exact I|]. cbn [mem_run fst snd]. rewrite app_nil_r. exact H.
  - cbn [app mem_run mem_limits]. destruct (sess_step _ a c) as (evs, a1) eqn:E. cbn [fst snd]. intros (H1 & H2). specialize (IH q _ _ H2). cbv zeta in IH. destruct IH as (I1 & I2).
    destruct (mem_run m d (L ++ EvIn c :: evs) a1 p) as (e2, a2). cbn [fst snd] in *. split; [split; assumption|]. rewrite <- app_assoc in I2. exact I2.
Qed.

Lemma mem_schedule : forall own m d cs a s0 s l q s1, quiet_by (at_reads m) s0 s -> shows own (fixed m d (lg s)) a s -> mem_limits own m d (lg s) a cs ->
  drive (at_reads m) cs l s0 = Ok (q, s1) ->
  exists p s', cs = p ++ q /\ quiet_by (at_reads m) s1 s' /\ shows own (fixed m d (lg s')) (snd (mem_run m d (lg s) a p)) s' /\ lg s' = lg s ++ fst (mem_run m d (lg s) a p).
Proof.
  intros own m d cs a s0 s l q s1 Q Sh Li Dr.
  pose proof Dr as Dr'. apply drive_esteps in Dr' as (os & H & E). exists (somes os).
  pose proof Li as Lp. rewrite E in Lp. apply mem_limits_app in Lp as (Lp & _).
  destruct (C63_proof own m d (somes os) a s Sh Lp) as (s' & F & Sh' & Lg). exists s'. split; [exact E|]. split; [|split; [exact Sh'|exact Lg]].
  rewrite E in Dr. eapply drive_prefix; eauto.
Qed.
Lemma mem_done : forall own m d cs a s0 s, quiet_by (at_reads m) s0 s -> shows own (fixed m d (lg s)) a s -> mem_limits own m d (lg s) a cs ->
  (forall l, exists q s1, drive (at_reads m) cs l s0 = Ok (q, s1)) /\
  exists n s', (forall l, n <= both_ready l -> drive (at_reads m) cs l s0 = Ok ([], s')) /\ shows own (fixed m d (lg s')) (snd (mem_run m d (lg s) a cs)) s' /\ lg s' = lg s ++ fst (mem_run m d (lg s) a cs).
Proof.
  intros own m d cs a s0 s Q Sh Li. destruct (C63_proof own m d cs a s Sh Li) as (s' & F & Sh' & Lg).
  destruct (drive_started _ _ _ _ _ Q F (shows_cur _ _ _ _ Sh')) as (A & n & B). split; [exact A|]. exists n, s'. auto.
Qed.

Lemma C63_schedule_proof : forall own m d cs a s l q s1, shows own (fixed m d (lg s)) a s -> mem_limits own m d (lg s) a cs ->
  drive (at_reads m) cs l s = Ok (q, s1) -> polling s1 ->
  exists p, cs = p ++ q /\ shows own (fixed m d (lg s1)) (snd (mem_run m d (lg s) a p)) s1 /\ lg s1 = lg s ++ fst (mem_run m d (lg s) a p).
Proof.
  intros own m d cs a s l q s1 Sh Li Dr P.
  destruct (mem_schedule own m d cs a s s l q s1 (quiet_by_here _ _ (shows_polling _ _ _ _ Sh)) Sh Li Dr) as (p & s' & E & Q & R).
  exists p. rewrite (polling_quiet _ _ _ P Q) in R. auto.
Qed.
Lemma C63_done_proof : forall own m d cs a s, shows own (fixed m d (lg s)) a s -> mem_limits own m d (lg s) a cs ->
  (forall l, exists q s1, drive (at_reads m) cs l s = Ok (q, s1)) /\
  exists n s', (forall l, n <= both_ready l -> drive (at_reads m) cs l s = Ok ([], s')) /\
    shows own (fixed m d (lg s')) (snd (mem_run m d (lg s) a cs)) s' /\ lg s' = lg s ++ fst (mem_run m d (lg s) a cs).
Proof. intros own m d cs a s Sh Li. exact (mem_done own m d cs a s s (quiet_by_here _ _ (shows_polling _ _ _ _ Sh)) Sh Li). Qed.

Lemma mem_boot : forall d d0 b ib0 ob0 h l0 ib ob own os m,
  2 <= d_insize d -> 4 <= d_outsize d -> length ib = d_insize d -> length ob = d_outsize d ->
  (cfg_commands (d_cfg d) = true -> buildin_commands (d_cfg d) <> []) -> In b own -> (forall i, In i own -> nth_error h i = Some node_zero) ->
  let w0 := mkWorld [] (if cfg_commands (d_cfg d) then [(b, buildin_commands (d_cfg d))] else []) None in
  let w := snd (spec_ops os w0) in let a := mkSess w (ins l0) 0 [] in
  all_allowed (d_pathmax d) own os w0 ->
  forall cwd, w_cwd w = Some cwd ->
  exists s0 s1 s2, ush_init d ib ob (st_zero d0 b ib0 ob0 h l0) = Ok s0 /\ do_ops os s0 = Ok (fst (spec_ops os w0), s1) /\
    quiet_by (at_reads m) s1 s2 /\ shows own (fixed m d (lg s2)) a s2 /\ lg s2 = l0 ++ map EvOut (greeting ++ prompt d (show cwd)).
Proof.
  intros d d0 b ib0 ob0 h l0 ib ob own os m H1 H2 H3 H4 H5 H6 H7 w0 w a Al cwd Wc.
  destruct (boot_proof d d0 b ib0 ob0 h l0 ib ob own os (fun _ => m []) H1 H2 H3 H4 H5 H6 H7 Al cwd Wc) as (s0 & s1 & _ & E0 & E1 & _).
  destruct (boot_proof d d0 b ib0 ob0 h l0 ib ob own os (fun _ => m (up_to_read (lg s1))) H1 H2 H3 H4 H5 H6 H7 Al cwd Wc) as (s0' & s1' & s2 & E0' & E1' & Q & Sh & Lg).
  rewrite E0 in E0'. injection E0' as <-. rewrite E1 in E1'. injection E1' as <-.
  exists s0, s1, s2. split; [exact E0|]. split; [exact E1|]. split; [apply mem_quiet; apply quiet_always; exact Q|]. split; [exact Sh|exact Lg].
Qed.

Lemma C63_init_proof : forall d d0 b ib0 ob0 h l0 ib ob own os m,
  2 <= d_insize d -> 4 <= d_outsize d -> length ib = d_insize d -> length ob = d_outsize d ->
  (cfg_commands (d_cfg d) = true -> buildin_commands (d_cfg d) <> []) -> In b own -> (forall i, In i own -> nth_error h i = Some node_zero) ->
  let w0 := mkWorld [] (if cfg_commands (d_cfg d) then [(b, buildin_commands (d_cfg d))] else []) None in
  let w := snd (spec_ops os w0) in let a := mkSess w (ins l0) 0 [] in
  all_allowed (d_pathmax d) own os w0 ->
  forall cwd cs, w_cwd w = Some cwd ->
  let L := l0 ++ map EvOut (greeting ++ prompt d (show cwd)) in
  mem_limits own m d L a cs ->
  exists s0 s1, ush_init d ib ob (st_zero d0 b ib0 ob0 h l0) = Ok s0 /\ do_ops os s0 = Ok (fst (spec_ops os w0), s1) /\
    (forall l, exists q s2, drive (at_reads m) cs l s1 = Ok (q, s2) /\
       (polling s2 -> exists p, cs = p ++ q /\ shows own (fixed m d (lg s2)) (snd (mem_run m d L a p)) s2 /\ lg s2 = L ++ fst (mem_run m d L a p))) /\
    exists n, forall l, n <= both_ready l -> exists s2, drive (at_reads m) cs l s1 = Ok ([], s2) /\ polling s2.
Proof.
  intros d d0 b ib0 ob0 h l0 ib ob own os m H1 H2 H3 H4 H5 H6 H7 w0 w a Al cwd cs Wc L Li.
  destruct (mem_boot d d0 b ib0 ob0 h l0 ib ob own os m H1 H2 H3 H4 H5 H6 H7 Al cwd Wc) as (s0 & s1 & s2 & E0 & E1 & Q2 & Sh2 & Lg).
  fold L in Lg. exists s0, s1. split; [exact E0|]. split; [exact E1|]. rewrite <- Lg in Li.
  destruct (mem_done own m d cs _ s1 s2 Q2 Sh2 Li) as (A & n & s' & B & Sh' & _). split.
  - intros l. destruct (A l) as (q & s3 & Dr). exists q, s3. split; [exact Dr|]. intros P.
    destruct (mem_schedule own m d cs _ s1 s2 l q s3 Q2 Sh2 Li Dr) as (p & s4 & E & Q4 & Sh4 & Lg4). exists p. split; [exact E|].
    rewrite (polling_quiet _ _ _ P Q4) in Sh4, Lg4. rewrite Lg in Sh4, Lg4. split; [exact Sh4|exact Lg4].
  - exists n. intros l K. exists s'. split; [exact (B l K)|apply Sh'].
Qed.

Lemma C63_snug_proof : forall own m d W cs a s, (forall log, snug own (fixed m d log) W) -> W (se_world a) -> shows own (fixed m d (lg s)) a s ->
  (In TAB cs -> cfg_autocomp (d_cfg d) = false) -> mem_limits own m d (lg s) a cs.
Proof.
  intros own m d W cs. induction cs as [|c cs IH]; intros a s Sn Iw Sh Nt; [exact I|]. cbn [mem_limits]. set (x := fixed m d (lg s ++ [EvIn c])).
  assert (L : step_limits own x a c).
  { apply (snug_step own x W a s c (Sn _) Iw Sh). intros Au ->. exfalso. unfold x in Au. cbn [x_desc fixed] in Au. rewrite Nt in Au; [discriminate|left; reflexivity]. }
  split; [exact L|]. destruct (step_proof own x a s c Sh L) as (s1 & _ & Sh1 & Lg). rewrite <- Lg.
  apply (IH _ s1 Sn (snug_world own x W a c (Sn _) Iw) Sh1). intros In1. apply Nt. right. exact In1.
Qed.

(** ** Files that keep what is written to them *)
Definition keys (t : bytes) : list event := flat_map (fun c => [EvIn c; EvOut c]) t.

Lemma mem_plain : forall m d w t L h l, Forall (fun c => plain_key c = true /\ c <> NUL) t -> length l + length t < d_insize d ->
  mem_run m d L (mkSess w h 0 l) t = (keys t, mkSess w (h ++ t) 0 (l ++ t)).
Proof.
  intros m d w t. induction t as [|c t IH]; intros L h l F Le; [rewrite !app_nil_r; reflexivity|]. inversion F as [|? ? (P & N) Fr]; subst. cbn [length] in Le.
  cbn [mem_run]. rewrite plain_step by (auto; cbn; lia). rewrite IH by (auto; rewrite app_length; cbn; lia). rewrite <- !app_assoc. reflexivity.
Qed.
Lemma mem_line : forall m d L a t evs u w', at_prompt a -> typeable d t ->
  react d (m (L ++ keys t ++ [EvIn CR])) (se_world a) CR (argv_of t) = (evs, u, w') ->
  mem_run m d L a (t ++ [CR]) = (keys t ++ EvIn CR :: map EvOut crlf ++ evs ++ map EvOut (u ++ prompt d (show (here w'))), mkSess w' (se_read a ++ t ++ [CR]) 0 []).
Proof.
  intros m d L a t evs u w' (A1 & A2) (F & Le) R. destruct a as [w h k l]. cbn [se_esc se_line se_world se_read] in *. subst k l.
  rewrite mem_run_app, mem_plain by (auto; cbn; lia). cbn [fst snd app mem_run]. rewrite <- app_assoc.
  assert (E : sess_step (fixed m d (L ++ keys t ++ [EvIn CR])) (mkSess w (h ++ t) 0 t) CR =
    (map EvOut crlf ++ evs ++ map EvOut (u ++ prompt d (show (here w'))), mkSess w' (h ++ t ++ [CR]) 0 [])).
  { unfold sess_step, ends_line. cbn [se_esc se_world se_read se_line Nat.eqb fixed x_desc]. unfold line_argv, env_at, kept_line. cbn [se_line se_read fixed x_desc x_app].
    destruct (Nat.ltb_spec (S (length t)) (d_insize d)) as [_|?]; [|lia].
    replace (ceq CR CR) with true by reflexivity. cbn [orb andb]. rewrite R, <- app_assoc. reflexivity. }
  rewrite E. cbn [fst snd]. rewrite app_nil_r. reflexivity.
Qed.

Lemma argv_line : forall ws d, typeable d (command_line ws) -> argv_of (command_line ws) = ws.
Proof.
  intros ws d (F & _). rewrite argv_no_nul; [apply words_command_line|]. intros I. rewrite Forall_forall in F. destruct (F _ I) as (_ & N). apply N. reflexivity.
Qed.

Lemma mem_command : forall m d L a ws evs u w', at_prompt a -> let t := command_line ws in typeable d t ->
  react d (m (L ++ keys t ++ [EvIn CR])) (se_world a) CR ws = (evs, u, w') ->
  mem_run m d L a (t ++ [CR]) = (keys t ++ EvIn CR :: map EvOut crlf ++ evs ++ map EvOut (u ++ prompt d (show (here w'))), mkSess w' (se_read a ++ t ++ [CR]) 0 []).
Proof. intros m d L a ws evs u w' A t Ty R. apply mem_line; [exact A|exact Ty|]. unfold t. rewrite (argv_line ws d Ty). exact R. Qed.

Lemma contents_app : forall k fn upd init a b, contents k fn upd init (a ++ b) = contents k fn upd (contents k fn upd init a) b.
Proof. intros. unfold contents. apply fold_left_app. Qed.
Lemma contents_same : forall k fn upd evs init, unwritten k fn evs -> contents k fn upd init evs = init.
Proof.
  intros k fn upd evs. induction evs as [|x evs IH]; intros init U; [reflexivity|]. unfold contents. cbn [fold_left]. fold (contents k fn upd).
  assert (E : match x with EvSet k' n t => if (k' =? k) && beq n fn then upd init t else init | _ => init end = init).
  { destruct x as [| | | |k2 n2 t2|]; try reflexivity. destruct ((k2 =? k) && beq n2 fn) eqn:B; [|reflexivity]. apply andb_true_iff in B as (B1 & B2). apply Nat.eqb_eq in B1. apply beq_true in B2. subst.
    exfalso. eapply U. left. reflexivity. }
  rewrite E. apply IH. intros t I. apply (U t). right. exact I.
Qed.
Lemma unwritten_app : forall k fn a b, unwritten k fn a -> unwritten k fn b -> unwritten k fn (a ++ b).
Proof. intros k fn a b A B t I. apply in_app_iff in I as [I|I]; [exact (A t I)|exact (B t I)]. Qed.
Lemma unwritten_outs : forall k fn t, unwritten k fn (map EvOut t).
Proof. intros k fn t u I. apply in_map_iff in I as (c & E & _). discriminate. Qed.
Lemma unwritten_keys : forall k fn t, unwritten k fn (keys t).
Proof. intros k fn t u I. apply in_flat_map in I as (c & _ & [E|[E|[]]]); discriminate. Qed.
Lemma contents_read : forall k fn upd init L t, contents k fn upd init (L ++ keys t ++ [EvIn CR]) = contents k fn upd init L.
Proof.
  intros. rewrite contents_app. apply contents_same. apply unwritten_app; [apply unwritten_keys|]. intros u [E|[]]. discriminate.
Qed.

Lemma react_write : forall d e w up t name fn ks g, d_exec d = None -> denotes w (lit "echo") = Some cmd_echo ->
  denotes w name = Some g -> f_set g = Some ks -> f_name g = fn -> e_set e ks fn t = [] ->
  react d e w CR [lit "echo"; encode up t; lit ">"; name] =
  ([EvExec XEcho (Some (lit "echo")) [lit "echo"; encode up t; lit ">"; name]; EvSet ks fn t], [], w).
Proof.
  intros d e w up t name fn ks g Hx De Dg Fs Fn Es. unfold react, hook_events, after_hook, hook_calls. rewrite Hx. cbn [tree_calls flat_map spec_ops snd]. 
  rewrite De. cbn [f_exec cmd_echo]. unfold do_exec. replace (accepts XEcho _) with true by reflexivity. unfold do_echo. cbn [tl]. replace (beq (lit ">") (lit ">")) with true by reflexivity.
  rewrite Dg, Fs, Fn, decode_encode, Es. unfold do_calls, hook_calls. rewrite Hx. reflexivity.
Qed.
Lemma react_cat : forall d e w name fn kg t g, d_exec d = None -> denotes w (lit "cat") = Some cmd_cat ->
  denotes w name = Some g -> f_get g = Some kg -> f_name g = fn -> e_get e kg fn = mkGet (GData t) (length t) [] ->
  react d e w CR [lit "cat"; name] = ([EvExec XCat (Some (lit "cat")) [lit "cat"; name]; EvGet kg fn] ++ map EvOut t, [], w).
Proof.
  intros d e w name fn kg t g Hx De Dg Fs Fn Eg. unfold react, hook_events, after_hook, hook_calls. rewrite Hx. cbn [tree_calls flat_map spec_ops snd]. 
  rewrite De. cbn [f_exec cmd_cat]. unfold do_exec. replace (accepts XCat _) with true by reflexivity. unfold do_cat. cbn [tl first_unreadable read_all]. unfold unreadable.
  rewrite Dg, Fs, Fn. unfold after_get, data_of. rewrite Fn, Eg. cbn [g_calls tree_calls flat_map spec_ops snd]. rewrite firstn_all, app_nil_r. reflexivity.
Qed.
Lemma react_xxd : forall d e w name fn kg t g, d_exec d = None -> denotes w (lit "xxd") = Some cmd_xxd ->
  denotes w name = Some g -> f_get g = Some kg -> f_name g = fn -> e_get e kg fn = mkGet (GData t) (length t) [] ->
  react d e w CR [lit "xxd"; name] = ([EvExec XXxd (Some (lit "xxd")) [lit "xxd"; name]; EvGet kg fn], xxd_dump (cfg_cols (d_cfg d)) t, w).
Proof.
  intros d e w name fn kg t g Hx De Dg Fs Fn Eg. unfold react, hook_events, after_hook, hook_calls. rewrite Hx. cbn [tree_calls flat_map spec_ops snd]. 
  rewrite De. cbn [f_exec cmd_xxd]. unfold do_exec. replace (accepts XXxd _) with true by reflexivity. unfold do_xxd. cbn [nth].
  rewrite Dg, Fs, Fn. unfold after_get, data_of. rewrite Fn, Eg. cbn [g_calls tree_calls flat_map spec_ops snd]. rewrite firstn_all. reflexivity.
Qed.

(** A line, its answer and its prompt. *)
Lemma line_done : forall own m d ks fn upd init ws a s evs u, shows own (fixed m d (lg s)) a s -> at_prompt a ->
  let t := command_line ws in typeable d t -> mem_limits own m d (lg s) a (t ++ [CR]) ->
  react d (m (lg s ++ keys t ++ [EvIn CR])) (se_world a) CR ws = (evs, u, se_world a) ->
  exists n s', (forall l, n <= both_ready l -> drive (at_reads m) (t ++ [CR]) l s = Ok ([], s')) /\ shows own (fixed m d (lg s')) (after_line a t) s' /\
    outs (lg s') = outs (lg s) ++ t ++ crlf ++ outs evs ++ u ++ prompt d (show (here (se_world a))) /\
    contents ks fn upd init (lg s') = contents ks fn upd (contents ks fn upd init (lg s)) evs.
Proof.
  intros own m d ks fn upd init ws a s evs u Sh A t Ty Li R.
  destruct (C63_done_proof own m d (t ++ [CR]) a s Sh Li) as (_ & n & s' & B & Sh' & Lg). exists n, s'. split; [exact B|].
  pose proof (mem_command m d (lg s) a ws evs u (se_world a) A Ty R) as E. fold t in E. rewrite E in Sh', Lg. cbn [fst snd] in *.
  split; [exact Sh'|]. rewrite Lg. split.
  - change (EvIn CR :: ?x) with ([EvIn CR] ++ x). rewrite !outs_app, !outs_out. unfold keys. rewrite outs_keys. cbn [outs flat_map app]. rewrite <- ?app_assoc. reflexivity.
  - change (EvIn CR :: ?x) with ([EvIn CR] ++ x). rewrite (app_assoc (keys t)), contents_app. rewrite (contents_app _ _ _ _ (keys t ++ [EvIn CR])).
    rewrite (contents_same _ _ _ (keys t ++ [EvIn CR])).
    2:{ apply unwritten_app; [apply unwritten_keys|]. intros v [E2|[]]. discriminate. }
    rewrite contents_app, (contents_same _ _ _ (map EvOut crlf)) by apply unwritten_outs. rewrite contents_app. apply contents_same, unwritten_outs.
Qed.

Lemma C64_write_proof : forall own m d ks kg fn upd init up data name a s, keeps m ks kg fn upd init -> d_exec d = None ->
  shows own (fixed m d (lg s)) a s -> writable a name fn ks -> let t := write_line up data name in typeable d t -> mem_limits own m d (lg s) a (t ++ [CR]) ->
  exists n s', (forall l, n <= both_ready l -> drive (at_reads m) (t ++ [CR]) l s = Ok ([], s')) /\ shows own (fixed m d (lg s')) (after_line a t) s' /\
    outs (lg s') = outs (lg s) ++ t ++ crlf ++ prompt d (show (here (se_world a))) /\
    contents ks fn upd init (lg s') = upd (contents ks fn upd init (lg s)) data.
Proof.
  intros own m d ks kg fn upd init up data name a s K Hx Sh (A & De & g & Dg & Fs & Fn) t Ty Li.
  destruct (line_done own m d ks fn upd init _ a s _ _ Sh A Ty Li (react_write d _ _ up data name fn ks g Hx De Dg Fs Fn (proj2 (K _) data))) as (n & s' & B & Sh' & O & C).
  exists n, s'. split; [exact B|]. split; [exact Sh'|]. split; [exact O|]. rewrite C. unfold contents at 1. cbn [fold_left]. rewrite Nat.eqb_refl, beq_refl. reflexivity.
Qed.
Lemma C64_cat_proof : forall own m d ks kg fn upd init name a s, keeps m ks kg fn upd init -> d_exec d = None ->
  shows own (fixed m d (lg s)) a s -> readable a cmd_cat name fn kg -> let t := cat_line name in typeable d t -> mem_limits own m d (lg s) a (t ++ [CR]) ->
  exists n s', (forall l, n <= both_ready l -> drive (at_reads m) (t ++ [CR]) l s = Ok ([], s')) /\ shows own (fixed m d (lg s')) (after_line a t) s' /\
    outs (lg s') = outs (lg s) ++ t ++ crlf ++ contents ks fn upd init (lg s) ++ prompt d (show (here (se_world a))) /\
    contents ks fn upd init (lg s') = contents ks fn upd init (lg s).
Proof.
  intros own m d ks kg fn upd init name a s K Hx Sh (A & De & g & Dg & Fs & Fn) t Ty Li.
  pose proof (proj1 (K (lg s ++ keys t ++ [EvIn CR]))) as Eg. cbv zeta in Eg. rewrite contents_read in Eg.
  destruct (line_done own m d ks fn upd init _ a s _ _ Sh A Ty Li (react_cat d _ _ name fn kg _ g Hx De Dg Fs Fn Eg)) as (n & s' & B & Sh' & O & C).
  exists n, s'. split; [exact B|]. split; [exact Sh'|]. split; [rewrite O, outs_app, outs_out; reflexivity|].
  rewrite C. apply contents_same. apply unwritten_app; [|apply unwritten_outs]. intros v [E|[E|[]]]; discriminate.
Qed.
Lemma C64_xxd_proof : forall own m d ks kg fn upd init name a s, keeps m ks kg fn upd init -> d_exec d = None ->
  shows own (fixed m d (lg s)) a s -> readable a cmd_xxd name fn kg -> let t := dump_line name in typeable d t -> mem_limits own m d (lg s) a (t ++ [CR]) ->
  exists n s', (forall l, n <= both_ready l -> drive (at_reads m) (t ++ [CR]) l s = Ok ([], s')) /\ shows own (fixed m d (lg s')) (after_line a t) s' /\
    outs (lg s') = outs (lg s) ++ t ++ crlf ++ xxd_dump (cfg_cols (d_cfg d)) (contents ks fn upd init (lg s)) ++ prompt d (show (here (se_world a))) /\
    contents ks fn upd init (lg s') = contents ks fn upd init (lg s).
Proof.
  intros own m d ks kg fn upd init name a s K Hx Sh (A & De & g & Dg & Fs & Fn) t Ty Li.
  pose proof (proj1 (K (lg s ++ keys t ++ [EvIn CR]))) as Eg. cbv zeta in Eg. rewrite contents_read in Eg.
  destruct (line_done own m d ks fn upd init _ a s _ _ Sh A Ty Li (react_xxd d _ _ name fn kg _ g Hx De Dg Fs Fn Eg)) as (n & s' & B & Sh' & O & C).
  exists n, s'. split; [exact B|]. split; [exact Sh'|]. split; [exact O|].
  rewrite C. apply contents_same. intros v [E|[E|[]]]; discriminate.
Qed.

Lemma reads_back : forall own m d ks kg fn upd init up data name name' q a s0 s, keeps m ks kg fn upd init -> d_exec d = None ->
  quiet_by (at_reads m) s0 s -> shows own (fixed m d (lg s)) a s ->
  let W := write_line up data name ++ [CR] in let C := cat_line name' ++ [CR] in
  let R := mem_run m d (lg s) a W in let Q := mem_run m d (lg s ++ fst R) (snd R) q in
  writable a name fn ks -> typeable d (write_line up data name) -> unwritten ks fn (fst Q) -> readable (snd Q) cmd_cat name' fn kg -> typeable d (cat_line name') ->
  mem_limits own m d (lg s) a (W ++ q ++ C) ->
  exists n s', (forall l, n <= both_ready l -> drive (at_reads m) (W ++ q ++ C) l s0 = Ok ([], s')) /\ polling s' /\
    outs (lg s') = outs (lg s ++ fst R ++ fst Q) ++ cat_line name' ++ crlf ++ upd (contents ks fn upd init (lg s)) data ++ prompt d (show (here (se_world (snd Q)))).
Proof.
  intros own m d ks kg fn upd init up data name name' q a s0 s K Hx Q0 Sh W C R Q (A & De & g & Dg & Fs & Fn) Ty Un (A' & De' & g' & Dg' & Fs' & Fn') Ty' Li.
  destruct (mem_done own m d _ a s0 s Q0 Sh Li) as (_ & n & s' & B & Sh' & Lg). exists n, s'. split; [exact B|]. split; [apply Sh'|].
  rewrite mem_run_app in Lg. fold R in Lg. rewrite mem_run_app in Lg. fold Q in Lg. cbn [fst snd] in Lg.
  set (L := (lg s ++ fst R) ++ fst Q) in *.
  pose proof (proj1 (K (L ++ keys (cat_line name') ++ [EvIn CR]))) as Eg. cbv zeta in Eg. rewrite contents_read in Eg.
  assert (EC : contents ks fn upd init L = upd (contents ks fn upd init (lg s)) data).
  { unfold L. rewrite contents_app. rewrite contents_same by exact Un.
    pose proof (mem_command m d (lg s) a _ _ _ _ A Ty (react_write d _ _ up data name fn ks g Hx De Dg Fs Fn (proj2 (K _) data))) as ER.
    fold (write_line up data name) in ER. fold W in ER. unfold R. rewrite ER. cbn [fst].
    change (EvIn CR :: ?x) with ([EvIn CR] ++ x). rewrite contents_app, (app_assoc (keys _)). rewrite (contents_app _ _ _ _ (keys _ ++ _)).
    rewrite (contents_same _ _ _ (keys _ ++ [EvIn CR])).
    2:{ apply unwritten_app; [apply unwritten_keys|]. intros v [E2|[]]. discriminate. }
    rewrite contents_app, (contents_same _ _ _ (map EvOut crlf)) by apply unwritten_outs. rewrite contents_app, contents_same by apply unwritten_outs.
    unfold contents at 1. cbn [fold_left]. rewrite Nat.eqb_refl, beq_refl. reflexivity. }
  rewrite EC in Eg.
  pose proof (mem_command m d L (snd Q) _ _ _ _ A' Ty' (react_cat d _ _ name' fn kg _ g' Hx De' Dg' Fs' Fn' Eg)) as ER. fold (cat_line name') in ER. fold C in ER. rewrite ER in Lg. cbn [fst] in Lg.
  rewrite Lg. rewrite !app_assoc. fold L. rewrite <- !app_assoc.
  change (EvIn CR :: ?x) with ([EvIn CR] ++ x). rewrite !outs_app, !outs_out. unfold keys. rewrite outs_keys. cbn [outs flat_map app]. rewrite <- ?app_assoc. reflexivity.
Qed.

Lemma mem_world : forall own m d W cs L a, (forall log, snug own (fixed m d log) W) -> W (se_world a) -> W (se_world (snd (mem_run m d L a cs))).
Proof.
  intros own m d W cs. induction cs as [|c cs IH]; intros L a Sn Iw; [exact Iw|]. cbn [mem_run].
  pose proof (snug_world own _ W a c (Sn (L ++ [EvIn c])) Iw) as W1. destruct (sess_step _ a c) as (evs, a1). cbn [snd] in W1.
  specialize (IH (L ++ EvIn c :: evs) a1 Sn W1). destruct (mem_run m d (L ++ EvIn c :: evs) a1 cs) as (e2, a2). exact IH.
Qed.

(** ** demo_linux *)
Lemma fill_length : forall u t, length (fill u t) = length u.
Proof. intros u t. unfold fill, overwrite. rewrite firstn_length, app_length, skipn_length. lia. Qed.
Lemma contents_length : forall k fn log init, length (contents k fn fill init log) = length init.
Proof.
  intros k fn log. induction log as [|x log IH]; intros init; [reflexivity|].
  change (length (contents k fn fill (match x with EvSet k' n t => if (k' =? k) && beq n fn then fill init t else init | _ => init end) log) = length init). rewrite IH.
  destruct x as [| | | |k2 n2 t2|]; try reflexivity. destruct ((k2 =? k) && beq n2 fn); [apply fill_length|reflexivity].
Qed.
Lemma linux_memory_ok : forall mc, (forall log, machine_ok (mc log)) -> forall log, machine_ok (linux_memory mc log).
Proof.
  intros mc Hm log. destruct (Hm log) as (A & _ & _ & D & _). unfold machine_ok, linux_memory. cbn [m_random m_ram m_eeprom m_rom m_name]. rewrite !contents_length, !repeat_length.
  repeat split; try assumption. apply Nat.leb_le. reflexivity.
Qed.

Lemma linux_denotes : forall w, same_tree linux_world w ->
  denotes w (lit "echo") = Some cmd_echo /\ denotes w (lit "cat") = Some cmd_cat /\ denotes w (lit "/dev/mem/ram") = Some ram_file /\ denotes w (lit "/dev/mem/eeprom") = Some eeprom_file.
Proof.
  intros [fs gs cwd] (F & G & _). cbn [w_fs w_groups] in *. subst fs gs. repeat split; reflexivity.
Qed.

Lemma C64_linux_proof : forall i o p null mc, 2 <= i -> 26 <= o -> i + 8 <= p -> 16 <= p -> (forall log, machine_ok (mc log)) ->
  let d := linux_desc i o p in let m := linux_app null mc in let a := mkSess (world_of d linux_calls) [] 0 [] in
  let L := map EvOut (greeting ++ prompt d (lit "/")) in
  exists s, set_up d 8 linux_calls = Ok s /\ forall name f ks kg n up data q, linux_memfile name f ks kg n -> ~ In TAB q -> length data <= n ->
    let W := write_line up data name ++ [CR] in let C := cat_line name ++ [CR] in
    let R := mem_run m d L a W in let Q := mem_run m d (L ++ fst R) (snd R) q in
    typeable d (write_line up data name) -> typeable d (cat_line name) -> at_prompt (snd Q) -> unwritten ks (f_name f) (fst Q) ->
    exists k s', (forall l, k <= both_ready l -> drive (at_reads m) (W ++ q ++ C) l s = Ok ([], s')) /\ polling s' /\
      outs (lg s') = outs (L ++ fst R ++ fst Q) ++ cat_line name ++ crlf ++ (data ++ repeat NUL (n - length data)) ++
        prompt d (show (here (se_world (snd Q)))).
Proof.
  intros i o p null mc Hi Ho Hp Hq Hm d m a L.
  assert (Sd : forall log, sound linux_own (fixed m d log) 8 linux_calls 10) by (intros log; exact (linux_sound i o p null (fun _ => linux_memory mc log) Hi Ho Hp Hq (fun _ => linux_memory_ok mc Hm log))).
  assert (Sn : forall log, snug linux_own (fixed m d log) (same_tree (world_of d linux_calls))) by (intros log; apply (Sd log)).
  destruct (Sd []) as (H1 & H2 & H3 & H4 & H5 & Al & Wc & Sm & _). cbn [x_desc fixed] in H1, H2, H3, Al, Wc, Sm.
  assert (Hz : forall j, In j linux_own -> nth_error (nodes_blank 8) j = Some node_zero) by (intros j I; apply nth_error_repeat; apply H5; exact I).
  assert (Li : length (repeat NUL (d_insize d)) = d_insize d) by apply repeat_length. assert (Lo : length (repeat NUL (d_outsize d)) = d_outsize d) by apply repeat_length.
  destruct (mem_boot d d 0 (repeat NUL (d_insize d)) (repeat NUL (d_outsize d)) (nodes_blank 8) [] _ _ linux_own linux_calls m H1 H2 Li Lo H3 H4 Hz Al [] Wc) as (s0 & s1 & s2 & E0 & E1 & Q2 & Sh & Lg).
  exists s1. split; [exact (set_up_eq d 8 linux_calls s0 _ s1 E0 E1)|].
  change (lg s2 = L) in Lg. assert (UL : forall k fn, unwritten k fn L) by (intros; apply unwritten_outs). clearbody L. subst L.
  intros name f ks kg n up data q Fm Nt Ld W C R Q Ty Ty' Ap Un.
  assert (Lim : mem_limits linux_own m d (lg s2) a (W ++ q ++ C)).
  { apply (C63_snug_proof linux_own m d _ _ a s2 Sn Sm Sh). intros I. exfalso.
    assert (P : forall t, typeable d t -> ~ In TAB (t ++ [CR])).
    { intros t (F & _) I2. apply in_app_iff in I2 as [I2|[I2|[]]]; [|discriminate]. rewrite Forall_forall in F. destruct (F _ I2) as (Pk & _). discriminate. }
    apply in_app_iff in I as [I|I]; [exact (P _ Ty I)|]. apply in_app_iff in I as [I|I]; [exact (Nt I)|exact (P _ Ty' I)]. }
  assert (WQ : same_tree linux_world (se_world (snd Q))).
  { rewrite <- (linux_world_eq i o p). apply (mem_world linux_own m d _ _ _ _ Sn). apply (mem_world linux_own m d _ _ _ _ Sn). exact Sm. }
  assert (WA : same_tree linux_world (se_world a)) by (rewrite <- (linux_world_eq i o p); exact Sm).
  destruct (linux_denotes _ WQ) as (_ & D2 & D3 & D4). destruct (linux_denotes _ WA) as (D1' & _ & D3' & D4').
  assert (K : keeps m ks kg (f_name f) fill (repeat NUL n)).
  { intros log. cbv zeta. destruct Fm as [Fm|Fm]; injection Fm as -> -> -> -> ->; split; intros; reflexivity. }
  assert (Wr : writable a name (f_name f) ks).
  { split; [split; reflexivity|]. split; [exact D1'|]. exists f. destruct Fm as [Fm|Fm]; injection Fm as -> -> -> -> ->; repeat split; assumption. }
  assert (Rd : readable (snd Q) cmd_cat name (f_name f) kg).
  { split; [exact Ap|]. split; [exact D2|]. exists f. destruct Fm as [Fm|Fm]; injection Fm as -> -> -> -> ->; repeat split; assumption. }
  destruct (reads_back linux_own m d ks kg (f_name f) fill (repeat NUL n) up data name name q a s1 s2 K eq_refl Q2 Sh Wr Ty Un Rd Ty' Lim) as (n0 & s' & B & Po & O).
  exists n0, s'. split; [exact B|]. split; [exact Po|]. fold W in O. fold C in O. fold R in O. fold Q in O. rewrite O. do 3 f_equal.
  rewrite contents_same by apply UL. f_equal. unfold fill, overwrite. rewrite repeat_length.
  clear - Ld.
  rewrite firstn_all2 by (rewrite app_length, skipn_length, repeat_length; lia). f_equal.
  replace n with (length data + (n - length data)) at 1 by lia. rewrite repeat_app, skipn_app, repeat_length, Nat.sub_diag, skipn_all2 by (rewrite repeat_length; lia). reflexivity.
Qed.

Lemma C64_back_proof : forall own m d ks kg fn upd init up data name name' q a s, keeps m ks kg fn upd init -> d_exec d = None ->
  shows own (fixed m d (lg s)) a s ->
  let W := write_line up data name ++ [CR] in let C := cat_line name' ++ [CR] in
  let R := mem_run m d (lg s) a W in let Q := mem_run m d (lg s ++ fst R) (snd R) q in
  writable a name fn ks -> typeable d (write_line up data name) -> unwritten ks fn (fst Q) -> readable (snd Q) cmd_cat name' fn kg -> typeable d (cat_line name') ->
  mem_limits own m d (lg s) a (W ++ q ++ C) ->
  exists n s', (forall l, n <= both_ready l -> drive (at_reads m) (W ++ q ++ C) l s = Ok ([], s')) /\ polling s' /\
    outs (lg s') = outs (lg s ++ fst R ++ fst Q) ++ cat_line name' ++ crlf ++ upd (contents ks fn upd init (lg s)) data ++ prompt d (show (here (se_world (snd Q)))).
Proof.
  intros own m d ks kg fn upd init up data name name' q a s K Hx Sh.
  exact (reads_back own m d ks kg fn upd init up data name name' q a s s K Hx (quiet_by_here _ _ (shows_polling _ _ _ _ Sh)) Sh).
Qed.
