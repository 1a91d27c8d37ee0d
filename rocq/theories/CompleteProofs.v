(** * CompleteProofs: the TAB key. *)
From Coq Require Import Arith.
From Verif Require Import Shell BaseFacts LogFacts Sched ServiceFacts SchedFacts Macro Editor EditFacts Words Line SchedProofs Spec PathFacts CollapseFacts PathProofs Tree TreeFacts TreeOps Cmds CmdProofs Complete CompleteFacts.

(** ** The last word *)

Lemma after_space_nil : forall l, existsb (ceq SP) l = false -> after_space l = l.
Proof.
  intros [|c r] H; [reflexivity|]. cbn [existsb] in H. apply orb_false_iff in H as (A & B). cbn [after_space]. rewrite B.
  destruct (ceq_spec c SP); [subst; discriminate|reflexivity].
Qed.
Lemma after_space_snoc : forall l c, after_space (l ++ [c]) = if ceq c SP then [] else if existsb (ceq SP) l then after_space l ++ [c] else l ++ [c].
Proof.
  induction l as [|x l IH]; intros c.
  - cbn. destruct (ceq c SP); reflexivity.
  - cbn [app after_space existsb]. rewrite existsb_app. cbn [existsb]. rewrite orb_false_r, IH.
    replace (ceq SP c) with (ceq c SP) by apply Ascii.eqb_sym. replace (ceq SP x) with (ceq x SP) by apply Ascii.eqb_sym.
    destruct (ceq c SP) eqn:E; [rewrite orb_true_r; reflexivity|]. rewrite orb_false_r. destruct (existsb (ceq SP) l) eqn:X.
    + rewrite orb_true_r. reflexivity.
    + destruct (ceq x SP); reflexivity.
Qed.
Lemma after_space_length : forall l, length (after_space l) <= length l.
Proof. induction l as [|c r IH]; [cbn; lia|]. cbn [after_space length]. destruct (existsb _ r); [lia|]. destruct (ceq c SP); cbn [length]; lia. Qed.
Lemma after_space_suffix : forall l, exists p, l = p ++ after_space l.
Proof.
  induction l as [|c r (p & IH)]; [exists []; reflexivity|]. cbn [after_space]. destruct (existsb _ r); [exists (c :: p); rewrite IH at 1; reflexivity|].
  destruct (ceq c SP); [exists [c]|exists []]; reflexivity.
Qed.
Lemma last_word_suffix : forall l, exists p, l = p ++ last_word l.
Proof.
  intros [|a [|b r]]; unfold last_word; try apply after_space_suffix. destruct (existsb _ _); [|exists []; reflexivity].
  destruct (after_space_suffix (b :: r)) as (p & E). exists (a :: p). rewrite E at 1. reflexivity.
Qed.
Lemma before_last : forall l, l = before_word l ++ last_word l.
Proof.
  intros l. destruct (last_word_suffix l) as (p & E). unfold before_word. set (x := last_word l) in *. clearbody x. subst l.
  rewrite app_length, Nat.add_sub, firstn_app, Nat.sub_diag, firstn_all. cbn [firstn]. rewrite app_nil_r. reflexivity.
Qed.

Lemma last_arg_loop_eq : forall r a z, last_arg_loop (a :: r ++ z) (length r) = Ok (if existsb (ceq SP) r then S (length r) - length (after_space r) else 0).
Proof.
  intros r. induction r as [|c r IH] using rev_ind; intros a z; [reflexivity|]. rewrite app_length. cbn [length]. rewrite Nat.add_1_r. cbn [last_arg_loop].
  rewrite <- app_assoc. cbn [app]. change (a :: r ++ c :: z) with ((a :: r) ++ c :: z). rewrite (rd_app _ (a :: r) c z (S (length r))) by reflexivity. cbn [bind].
  rewrite existsb_app, after_space_snoc. cbn [existsb]. replace (ceq SP c) with (ceq c SP) by apply Ascii.eqb_sym. rewrite orb_false_r.
  destruct (ceq c SP).
  - rewrite orb_true_r. cbn [length]. f_equal; lia.
  - rewrite orb_false_r. cbn [app]. rewrite IH. destruct (existsb (ceq SP) r); [|reflexivity]. rewrite app_length. cbn [length]. f_equal. pose proof (after_space_length r). lia.
Qed.

Lemma last_arg : forall l z, no_nul l -> ush_utils_get_last_arg (l ++ NUL :: z) = Ok (length (before_word l)).
Proof.
  intros l z N. unfold ush_utils_get_last_arg. rewrite c_strlen_0 by exact N. cbn [bind].
  assert (Bl : length (before_word l) = length l - length (last_word l)) by (unfold before_word; rewrite firstn_length; lia). rewrite Bl. clear Bl.
  destruct l as [|a r] using rev_ind; [reflexivity|]. clear IHr. rewrite app_length. cbn [length]. rewrite Nat.add_1_r.
  rewrite <- app_assoc. cbn [app]. rewrite rd_app by reflexivity. cbn [bind]. destruct r as [|b r].
  - cbn. destruct (ceq a SP); reflexivity.
  - change ((b :: r) ++ a :: NUL :: z) with (b :: r ++ a :: NUL :: z).
    replace (r ++ a :: NUL :: z) with ((r ++ [a]) ++ NUL :: z) by (rewrite <- app_assoc; reflexivity).
    replace (length (b :: r)) with (length (r ++ [a])) by (rewrite app_length; cbn [length]; lia). rewrite last_arg_loop_eq.
    unfold last_word. change ((b :: r) ++ [a]) with (b :: r ++ [a]). destruct (r ++ [a]) as [|q t] eqn:Q; [destruct r; discriminate|]. rewrite <- Q.
    rewrite existsb_app, after_space_snoc. cbn [existsb]. replace (ceq SP a) with (ceq a SP) by apply Ascii.eqb_sym. rewrite orb_false_r.
    rewrite app_length. cbn [length]. destruct (ceq a SP).
    + rewrite orb_true_r. cbn [length]. f_equal; lia.
    + rewrite orb_false_r. destruct (existsb (ceq SP) r).
      * rewrite app_length. cbn [length]. f_equal; lia.
      * cbn [length]. rewrite app_length. cbn [length]. f_equal; lia.
Qed.

(** ** The common prefix *)

Lemma common2_prefix : forall a b, prefixb (common2 a b) a = true /\ prefixb (common2 a b) b = true.
Proof.
  induction a as [|x a IH]; intros [|y b]; try (split; reflexivity). cbn [common2]. destruct (ceq x y) eqn:E; [|split; reflexivity].
  apply ceq_true in E. subst y. cbn [prefixb]. rewrite ceq_refl. apply IH.
Qed.
Lemma common2_greatest : forall p a b, prefixb p a = true -> prefixb p b = true -> prefixb p (common2 a b) = true.
Proof.
  induction p as [|c p IH]; intros a b A B; [reflexivity|]. destruct a as [|x a]; [discriminate|]. destruct b as [|y b]; [discriminate|].
  cbn [prefixb] in *. apply andb_true_iff in A as (A1 & A2). apply andb_true_iff in B as (B1 & B2). apply ceq_true in A1, B1. subst x y.
  cbn [common2]. rewrite ceq_refl. cbn [prefixb]. rewrite ceq_refl. cbn [andb]. auto.
Qed.
Lemma prefixb_trans : forall a b c, prefixb a b = true -> prefixb b c = true -> prefixb a c = true.
Proof. intros a b c A B. apply prefixb_spec in A as (x & ->). apply prefixb_spec in B as (y & ->). apply prefixb_spec. exists (x ++ y). rewrite app_assoc. reflexivity. Qed.
Lemma prefixb_refl : forall a, prefixb a a = true.
Proof. intros a. apply prefixb_spec. exists []. rewrite app_nil_r. reflexivity. Qed.
Lemma common_cons : forall n r, r <> [] -> common (n :: r) = common2 n (common r).
Proof. intros n [|m r] H; [congruence|reflexivity]. Qed.
Lemma common_prefix : forall l n, In n l -> prefixb (common l) n = true.
Proof.
  induction l as [|m l IH]; intros n I; [destruct I|]. destruct l as [|k l].
  - destruct I as [->|[]]. apply prefixb_refl.
  - rewrite common_cons by discriminate. destruct (common2_prefix m (common (k :: l))) as (A & B). destruct I as [->|I]; [exact A|]. eapply prefixb_trans; eauto.
Qed.
Lemma common_greatest : forall l p, l <> [] -> (forall n, In n l -> prefixb p n = true) -> prefixb p (common l) = true.
Proof.
  induction l as [|m l IH]; intros p N H; [congruence|]. destruct l as [|k l].
  - apply H. left; reflexivity.
  - rewrite common_cons by discriminate. apply common2_greatest; [apply H; left; reflexivity|]. apply IH; [discriminate|]. intros n I. apply H. right; exact I.
Qed.

(** Where the extension of a prefix stops. *)
Lemma common_stop : forall cs t lc, In lc cs -> (forall n, In n cs -> prefixb t n = true) ->
  (length lc <= length t \/ exists ch z, lc = t ++ ch :: z /\ filter (prefixb (t ++ [ch])) cs <> cs) -> common cs = t.
Proof.
  intros cs t lc I A S. assert (Ne : cs <> []) by (intros ->; exact I). pose proof (common_greatest cs t Ne A) as G. apply prefixb_spec in G as (u & G).
  pose proof (common_prefix cs lc I) as P. apply prefixb_spec in P as (v & P). destruct u as [|d u]; [rewrite app_nil_r in G; exact G|]. exfalso. destruct S as [S|(ch & z & E & F)].
  - rewrite P, G, !app_length in S. cbn [length] in S. lia.
  - rewrite G, <- app_assoc in P. rewrite E in P. apply app_inv_head in P. cbn [app] in P. injection P as <- _.
    apply F. clear F. assert (A2 : forall n, In n cs -> prefixb (t ++ [ch]) n = true).
    { intros n In_. eapply prefixb_trans; [|apply common_prefix; exact In_]. rewrite G. apply prefixb_spec. exists u. rewrite <- app_assoc. reflexivity. }
    clear -A2. induction cs as [|n cs IH]; [reflexivity|]. cbn [filter]. rewrite (A2 n) by (left; reflexivity). f_equal. apply IH. intros m I. apply A2. right; exact I.
Qed.

Lemma last_of_some : forall l c, l <> [] -> exists n, last_of c l = Some n /\ In n l.
Proof.
  induction l as [|m l IH]; intros c H; [congruence|]. cbn [last_of]. destruct l as [|k l]; [exists m; split; [reflexivity|left; reflexivity]|].
  destruct (IH (Some m)) as (n & E & I); [discriminate|]. exists n. split; [exact E|right; exact I].
Qed.
Lemma last_of_filter : forall f l c n, last_of c l = Some n -> In n l -> f n = true -> last_of c (filter f l) = Some n.
Proof.
  intros f l. induction l as [|m l IH] using rev_ind; intros c n E I F; [destruct I|]. rewrite last_of_app in E. cbn in E. injection E as ->.
  rewrite filter_app. cbn [filter]. rewrite F. rewrite last_of_app. reflexivity.
Qed.
Lemma filter_len : forall A (f : A -> bool) l, length (filter f l) <= length l.
Proof. induction l as [|x l IH]; [cbn; lia|]. cbn [filter]. destruct (f x); cbn [length]; lia. Qed.
Lemma filter_full : forall A (f : A -> bool) l, length l <= length (filter f l) -> filter f l = l.
Proof.
  induction l as [|x l IH]; intros H; [reflexivity|]. cbn [filter length] in *. destruct (f x); cbn [length] in *; [f_equal; apply IH; lia|].
  pose proof (filter_len A f l). lia.
Qed.
Lemma filter_all_in : forall A (f : A -> bool) l, filter f l = l -> forall x, In x l -> f x = true.
Proof. intros A f l E x I. rewrite <- E in I. apply filter_In in I. apply I. Qed.
Lemma filter_narrow : forall t u l, filter (prefixb (t ++ u)) (filter (prefixb t) l) = filter (prefixb (t ++ u)) l.
Proof.
  intros t u l. induction l as [|x l IH]; [reflexivity|]. cbn [filter]. destruct (prefixb t x) eqn:E; cbn [filter]; rewrite IH; [reflexivity|].
  destruct (prefixb (t ++ u) x) eqn:F; [|reflexivity]. exfalso. enough (prefixb t x = true) by congruence. eapply prefixb_trans; [|exact F]. apply prefixb_spec. exists u. reflexivity.
Qed.

Lemma cand_plain : forall w cwd t n, fs_ok (w_fs w) -> tidy w -> In n (candidates w cwd t) -> plain_comp n.
Proof.
  intros w cwd t n Fo (T1 & T2 & _) I. apply filter_In in I as (I & _). unfold names_in in I. apply in_app_iff in I as [I|I].
  - apply in_map_iff in I as (f & <- & I). auto.
  - apply in_app_iff in I as [I|I].
    + apply in_map_iff in I as (f & <- & I). destruct (dir_at cwd (w_fs w)) as [d|] eqn:D; [|destruct I]. apply dir_at_some in D as (D & _). eauto.
    + apply in_map_iff in I as (d & <- & I). apply children_in in I as (I & N & _). apply (dir_name_ok (w_fs w) d Fo I N).
Qed.

Lemma full_text_mono : forall cwd p n, plain_comp n -> prefixb p n = true -> length (full_text cwd p) <= length (full_text cwd n).
Proof.
  intros cwd p n (N & _) P. apply prefixb_spec in P as (r & ->).
  assert (F : forall t, ~ In SL t -> full_text cwd t = match cwd with [] => [SL] | _ => show cwd ++ [SL] end ++ t).
  { intros [|c t] H; [cbn [full_text]; rewrite app_nil_r; reflexivity|]. cbn [full_text]. destruct (ceq_spec c SL); [|reflexivity]. subst. exfalso. apply H. left; reflexivity. }
  rewrite !F; [rewrite !app_length; lia|exact N|]. intros I. apply N. apply in_app_iff. left; exact I.
Qed.

(** ** The text that is tried *)

Lemma last_of_last : forall cs c, cs <> [] -> last_of c cs = Some (last cs []).
Proof. induction cs as [|n [|m cs] IH]; intros c N; [congruence|reflexivity|]. change (last_of c (n :: m :: cs)) with (last_of (Some n) (m :: cs)). rewrite IH by discriminate. reflexivity. Qed.
Lemma last_in : forall (cs : list bytes), cs <> [] -> In (last cs []) cs.
Proof. intros cs N. destruct (last_of_some cs None N) as (n & E & I). rewrite last_of_last in E by exact N. injection E as <-. exact I. Qed.
Lemma tried_many : forall x cs, 2 <= length cs -> probed x cs = tried x cs /\ tried x cs = firstn (S (length (common cs))) (last cs []).
Proof. intros x [|n [|m cs]] L; cbn [length] in L; [lia|lia|]. split; reflexivity. Qed.
Lemma firstn_plain : forall k n, plain_comp n -> plain_comp (firstn k n).
Proof. intros k n (A & B). split; intros I; [apply A|apply B]; rewrite <- (firstn_skipn k n); apply in_app_iff; left; exact I. Qed.
Lemma firstn_prefix : forall a b k, prefixb a b = true -> length a <= k -> prefixb a (firstn k b) = true.
Proof. intros a b k P L. apply prefixb_spec in P as (r & ->). rewrite firstn_app, firstn_all2 by exact L. apply prefixb_spec. eauto. Qed.
Lemma prefix_length : forall a b, prefixb a b = true -> length a <= length b.
Proof. intros a b P. apply prefixb_spec in P as (r & ->). rewrite app_length. lia. Qed.
Lemma probed_word : forall w cwd x, fs_ok (w_fs w) -> tidy w -> let cs := candidates w cwd x in
  length (full_text cwd x) <= length (full_text cwd (probed x cs)) /\ length x <= length (tried x cs).
Proof.
  intros w cwd x Fo T cs. assert (A : forall n, In n cs -> prefixb x n = true) by (intros n I; apply filter_In in I; apply I).
  destruct cs as [|n [|m r]] eqn:E.
  - split; reflexivity.
  - split; [reflexivity|]. apply prefix_length. apply A. left; reflexivity.
  - rewrite <- E in *. assert (L : 2 <= length cs) by (rewrite E; cbn [length]; lia). assert (N : cs <> []) by (rewrite E; discriminate). destruct (tried_many x cs L) as (E1 & E2). rewrite E1, E2.
    assert (P : prefixb x (firstn (S (length (common cs))) (last cs [])) = true).
    { apply firstn_prefix; [apply A; apply last_in; exact N|]. pose proof (prefix_length _ _ (common_greatest cs x N A)). lia. }
    split; [|apply prefix_length; exact P]. apply full_text_mono; [|exact P]. apply firstn_plain. eapply cand_plain; [exact Fo|exact T|]. apply last_in. exact N.
Qed.

(** ** The service states of the completion *)

(** Between the steps: the line is [B ++ t], and [t] is the word. *)
Definition tabbing (k : nat) (B t : bytes) (s0 s : st) (evs : list event) : Prop :=
  core s = core s0 /\ bufs_ok s /\ o_esc s = k /\ o_acin s = Some (length B) /\ (exists r, inb s = B ++ t ++ NUL :: r) /\
  o_inpos s = length (B ++ t) /\ lg s = lg s0 ++ evs.

Lemma tabbing_word : forall k B t s0 s evs, tabbing k B t s0 s evs -> no_nul t -> o_cur s0 <> None -> cfg_autocomp (d_cfg (o_desc s0)) = true -> has_word (length B) t s.
Proof.
  intros k B t s0 s evs (C & _ & _ & A & (r & I) & _) N Cu Cf. unfold core in C. split; [exact A|]. split; [rewrite I; apply c_str_app; auto|]. split; congruence.
Qed.

Lemma tabbing_still : forall k B t s0 s s' evs evs', tabbing k B t s0 s evs -> still s' = still s -> lg s' = lg s ++ evs' -> tabbing k B t s0 s' (evs ++ evs').
Proof.
  intros k B t s0 s s' evs evs' (C & Bo & E & A & I & P & L) K Lg. unfold still in K. injection K as C1 C2 C3 C4 C5 C6 K2 K3 K4 K5 K6 K7 K8.
  split; [unfold core in *; congruence|]. split; [unfold bufs_ok in *; rewrite C1, K2, K3; exact Bo|]. split; [congruence|]. split; [congruence|].
  split; [rewrite K2; exact I|]. split; [congruence|]. rewrite Lg, L, app_assoc. reflexivity.
Qed.

(** Everything known about the shell when TAB is pressed. *)
Definition ground (own : list nat) (w : world) (cwd : dirpath) (s0 : st) : Prop :=
  knows own s0 w /\ w_cwd w = Some cwd /\ tidy w /\ cfg_autocomp (d_cfg (o_desc s0)) = true /\ o_cur s0 <> None.

Lemma enum_tab : forall e own w cwd s0 k B t s evs x c, ground own w cwd s0 -> tabbing k B t s0 s evs -> no_nul t -> length (full_text cwd t) < d_pathmax (o_desc s0) ->
  ac_state x -> enum s = (x, 0, o_cmds s, 0, 0, 0, c) ->
  exists s', works e s s' /\ tabbing k B t s0 s' (evs ++ map EvOut (shown x (flat_map (fun n => n ++ CRLF) (candidates w cwd t)))) /\
    o_state s' = S_AC_FINISH /\ o_account s' = length (candidates w cwd t) /\ o_accand s' = last_of c (candidates w cwd t) /\ o_acprev s' = x /\
    o_acsuf s' = o_acsuf s /\ o_acprevc s' = o_acprevc s.
Proof.
  intros e own w cwd s0 k B t s evs x c (Kn & Cw & T & Cf & Cu) Tb N L A E. pose proof Tb as (C & _).
  destruct (enumerate e x (length B) t own w cwd s c) as (s' & (Wk & K & Lg) & E' & P'); auto.
  - eapply tabbing_word; eauto.
  - eapply knows_core; eauto.
  - unfold core in C. replace (o_desc s) with (o_desc s0) by congruence. exact L.
  - exists s'. split; [exact Wk|]. split; [eapply tabbing_still; eauto|]. en E'. unfold still in K. injection K as C1 C2 C3 C4 C5 C6 K2 K3 K4 K5 K6 K7 K8. auto 10.
Qed.

Lemma at_finish : forall e s s1, o_cur s <> None -> cfg_autocomp (d_cfg (o_desc s)) = true -> o_state s = S_AC_FINISH ->
  ush_autocomp_state_candidates_finish s = Ok s1 -> works e s s1.
Proof.
  intros e s s1 C D E F. eapply works_svc; [exact C|apply np; rewrite E; discriminate| |apply works_refl]. unfold svc. rewrite E, D. unfold ush_autocomp_service. rewrite E, F. reflexivity.
Qed.

Lemma opt_stop : forall s off t lc, has_word off t s -> o_accand s = Some lc -> length lc <= length t ->
  ush_autocomp_optimize_continue s = Ok (set_state S_AC_RECALL_SUFFIX (set_acprevc (o_account s) s)).
Proof.
  intros s off t lc (W1 & W2 & _) Nc Hl. unfold ush_autocomp_optimize_continue. cbv zeta.
  assert (I : ac_input (set_acprevc (o_account s) s) = Ok (off, t)) by (unfold ac_input; sfields; rewrite W1, W2; reflexivity). rewrite I. cbn [bind].
  assert (J : deref (o_accand (set_acprevc (o_account s) s)) = Ok lc) by (sfields; rewrite Nc; reflexivity). rewrite J. cbn [bind].
  apply Nat.leb_le in Hl. rewrite Hl. reflexivity.
Qed.

Lemma opt_more : forall k B t s0 s evs lc ch z, tabbing k B t s0 s evs -> has_word (length B) t s -> o_accand s = Some lc -> lc = t ++ ch :: z -> length B + S (length t) < d_insize (o_desc s) ->
  exists s1, ush_autocomp_optimize_continue s = Ok s1 /\ tabbing k B (t ++ [ch]) s0 s1 evs /\ enum s1 = (S_AC_OPTIMISE, 0, o_cmds s1, 0, 0, 0, Some lc) /\
    o_acsuf s1 = S (o_acsuf s) /\ o_acprevc s1 = o_account s.
Proof.
  intros k B t s0 s evs lc ch z Tb (W1 & W2 & _) Nc Ez Li. pose proof Tb as (C & Bo & Es & Ai & (r & Ib) & Ip & Lg). destruct Bo as (B1 & B2 & B3 & B4).
  assert (Lr : exists q r', r = q :: r').
  { destruct r as [|q r']; [|eauto]. exfalso. rewrite Ib in B1. rewrite !app_length in *. cbn [length] in *. lia. }
  destruct Lr as (q & r' & ->).
  pose (s1 := set_state S_AC_OPTIMISE (ush_autocomp_prepare_candidates (set_acsuf (S (o_acsuf s)) (set_inpos (S (length (B ++ t))) (set_inb ((B ++ t ++ [ch]) ++ NUL :: r') (set_acprevc (o_account s) s)))))).
  exists s1. split.
  { unfold ush_autocomp_optimize_continue. cbv zeta.
    assert (I : ac_input (set_acprevc (o_account s) s) = Ok (length B, t)) by (unfold ac_input; sfields; rewrite W1, W2; reflexivity). rewrite I. cbn [bind].
    assert (J : deref (o_accand (set_acprevc (o_account s) s)) = Ok lc) by (sfields; rewrite Nc; reflexivity). rewrite J. cbn [bind].
    assert (Hl : length lc <=? length t = false) by (apply Nat.leb_gt; rewrite Ez, app_length; cbn [length]; lia). rewrite Hl.
    assert (Rd : rd lc (length t) = Ok ch) by (rewrite Ez; apply rd_app; reflexivity). rewrite Rd. cbn [bind].
    assert (Wr : wr (inb (set_acprevc (o_account s) s)) (o_inpos (set_acprevc (o_account s) s)) ch = Ok ((B ++ t ++ [ch]) ++ q :: r')).
    { sfields. rewrite Ib, Ip, app_assoc, wr_app by reflexivity. rewrite <- !app_assoc. reflexivity. }
    rewrite Wr. cbn [bind].
    assert (Pp : (if d_insize (o_desc (set_acprevc (o_account s) s)) <=? S (o_inpos (set_acprevc (o_account s) s)) then 0 else S (o_inpos (set_acprevc (o_account s) s))) = S (length (B ++ t))).
    { sfields. rewrite Ip. destruct (Nat.leb_spec (d_insize (o_desc s)) (S (length (B ++ t)))); [|reflexivity]. exfalso. rewrite !app_length in *. cbn [length] in *. lia. }
    rewrite Pp. rewrite wr_app by (rewrite !app_length; cbn [length]; lia). reflexivity. }
  split; [|split; [|split]].
  - split; [exact C|]. split.
    { unfold bufs_ok, s1. cbn [inb outb o_desc set_state ush_autocomp_prepare_candidates set_pitem set_pidx set_pnode set_pstage set_account set_acsuf set_inpos set_inb set_acprevc].
      rewrite Ib in B1. rewrite !app_length in *. cbn [length] in *. lia. }
    split; [exact Es|]. split; [exact Ai|]. split; [exists r'; unfold s1, ush_autocomp_prepare_candidates; sfields; rewrite <- !app_assoc; reflexivity|].
    split; [unfold s1; cbn; rewrite !app_length; cbn [length]; lia|exact Lg].
  - unfold s1, enum. cbn. rewrite Nc. reflexivity.
  - reflexivity.
  - reflexivity.
Qed.

(** The line is extended up to the longest common prefix. *)
Lemma extend : forall e own w cwd s0 k B w0 cs lc c, ground own w cwd s0 -> cs = candidates w cwd w0 -> last_of c cs = Some lc -> In lc cs -> 2 <= length cs ->
  let tr := firstn (S (length (common cs))) lc in length (full_text cwd tr) < d_pathmax (o_desc s0) -> length B + length tr < d_insize (o_desc s0) ->
  forall m suf s evs, m = length lc - length (w0 ++ suf) -> (forall n, In n cs -> prefixb (w0 ++ suf) n = true) -> tabbing k B (w0 ++ suf) s0 s evs ->
  o_account s = length cs -> o_accand s = Some lc -> o_acsuf s = length suf ->
  exists s1 s2, ush_autocomp_optimize_continue s = Ok s1 /\ works e s1 s2 /\ o_state s2 = S_AC_RECALL_SUFFIX /\ tabbing k B (common cs) s0 s2 evs /\
    length w0 + o_acsuf s2 = length (common cs) /\ prefixb w0 (common cs) = true /\ o_accand s2 = Some lc.
Proof.
  intros e own w cwd s0 k B w0 cs lc c G Ec El Il L2 tr Lp Li. pose proof G as (Kn & Cw & T & Cf & Cu).
  assert (Fo : fs_ok (w_fs w)) by (destruct Kn as ((Fo & _) & _); exact Fo).
  assert (Pl : plain_comp lc) by (rewrite Ec in Il; eapply cand_plain; eauto).
  induction m as [m IH] using lt_wf_ind. intros suf s evs Em Pre Tb Na Nc Ns. set (t := w0 ++ suf) in *.
  assert (Plc : prefixb t lc = true) by (apply Pre; exact Il). assert (Nt : no_nul t) by (intros I; apply (proj2 Pl); eapply prefix_In; eauto).
  pose proof (tabbing_word _ _ _ _ _ _ Tb Nt Cu Cf) as Hw.
  destruct (Nat.leb_spec (length lc) (length t)) as [Hl|Hl].
  - assert (Ct : common cs = t) by (apply (common_stop cs t lc); auto). rewrite Ct.
    exists (set_state S_AC_RECALL_SUFFIX (set_acprevc (o_account s) s)). eexists. split; [eapply opt_stop; eauto|]. split; [apply works_refl|]. split; [reflexivity|]. split; [exact Tb|].
    split; [cbn [o_acsuf set_state set_acprevc]; rewrite Ns; unfold t; rewrite app_length; reflexivity|]. split; [apply prefixb_spec; exists suf; reflexivity|exact Nc].
  - apply prefixb_spec in Plc as (z & Ez). destruct z as [|ch z]; [rewrite Ez, app_nil_r in Hl; lia|].
    pose proof Tb as (C & _). assert (Dn : d_insize (o_desc s) = d_insize (o_desc s0)) by (unfold core in C; congruence).
    assert (Pc : prefixb (t ++ [ch]) lc = true) by (apply prefixb_spec; exists z; rewrite <- app_assoc; exact Ez).
    assert (Pt : prefixb (t ++ [ch]) tr = true).
    { apply firstn_prefix; [exact Pc|]. assert (Ne : cs <> []) by (intros Z; rewrite Z in Il; exact Il). pose proof (prefix_length _ _ (common_greatest cs t Ne Pre)). rewrite app_length. cbn [length]. lia. }
    assert (Lt : length B + S (length t) < d_insize (o_desc s)) by (pose proof (prefix_length _ _ Pt) as Q; rewrite app_length in Q; cbn [length] in Q; lia).
    destruct (opt_more k B t s0 s evs lc ch z Tb Hw Nc Ez Lt) as (s1 & Oc1 & Tb1 & En1 & Sf1 & Pv1). rewrite Na in Pv1. rewrite Ns in Sf1. exists s1.
    destruct (enum_tab e own w cwd s0 k B (t ++ [ch]) s1 evs S_AC_OPTIMISE (Some lc) G Tb1) as (s2 & Wk & Tb2 & St2 & Ac2 & Cd2 & Pv2 & Sf2 & Pc2).
    { intros I; apply (proj2 Pl); eapply prefix_In; eauto. }
    { pose proof (full_text_mono cwd _ _ (firstn_plain (S (length (common cs))) lc Pl) Pt). fold tr in H. lia. }
    { right; left; reflexivity. }
    { exact En1. }
    change (shown S_AC_OPTIMISE _) with (@nil byte) in Tb2. cbn [map] in Tb2. rewrite app_nil_r in Tb2.
    assert (Fl : candidates w cwd (t ++ [ch]) = filter (prefixb (t ++ [ch])) cs).
    { rewrite Ec. unfold candidates, t. rewrite <- app_assoc. rewrite filter_narrow. reflexivity. }
    rewrite Fl in *.
    assert (Lc2 : o_accand s2 = Some lc).
    { rewrite Cd2. assert (I : In lc (filter (prefixb (t ++ [ch])) cs)) by (apply filter_In; auto).
      assert (Q : last_of c (filter (prefixb (t ++ [ch])) cs) = Some lc) by (apply last_of_filter; auto).
      destruct (filter (prefixb (t ++ [ch])) cs); [destruct I|exact Q]. }
    assert (Pv : o_acprevc s2 = length cs) by (rewrite Pc2; exact Pv1).
    assert (Sf : o_acsuf s2 = S (length suf)) by (rewrite Sf2; exact Sf1).
    pose proof Tb2 as (C2 & Bo2 & Es2 & Ai2 & (r2 & Ib2) & Ip2 & Lg2).
    assert (Cu2 : o_cur s2 <> None) by (unfold core in C2; congruence). assert (Cf2 : cfg_autocomp (d_cfg (o_desc s2)) = true) by (unfold core in C2; congruence).
    destruct (Nat.ltb_spec (o_account s2) (o_acprevc s2)) as [Hc|Hc].
    + assert (Ct : common cs = t).
      { apply (common_stop cs t lc); auto. right. exists ch, z. split; [exact Ez|]. intros Z. rewrite Z in Ac2. lia. }
      rewrite Ct. exists (set_state S_AC_RECALL_SUFFIX (set_acsuf (length suf) (set_inpos (length (B ++ t)) (set_inb (B ++ t ++ NUL :: NUL :: r2) s2)))).
      split; [exact Oc1|]. split.
      { eapply works_trans; [exact Wk|]. apply at_finish; auto. unfold ush_autocomp_state_candidates_finish. rewrite Pv2.
        apply Nat.ltb_lt in Hc. rewrite Hc, Ip2. replace (length (B ++ t ++ [ch]) - 1) with (length (B ++ t)) by (rewrite !app_length; cbn [length]; lia).
        rewrite Ib2. replace (B ++ (t ++ [ch]) ++ NUL :: r2) with ((B ++ t) ++ ch :: NUL :: r2) by (rewrite <- !app_assoc; reflexivity). rewrite wr_app by reflexivity. cbn [bind].
        rewrite Sf. rewrite <- !app_assoc. reflexivity. }
      split; [reflexivity|]. split.
      { split; [exact C2|]. split.
        { destruct Bo2 as (D1 & D2 & D3 & D4). unfold bufs_ok. sfields. cbn. rewrite Ib2 in D1. rewrite !app_length in *. cbn [length] in *. lia. }
        split; [exact Es2|]. split; [exact Ai2|]. split; [exists (NUL :: r2); reflexivity|]. split; [reflexivity|exact Lg2]. }
      split; [cbn; unfold t; rewrite app_length; reflexivity|]. split; [apply prefixb_spec; exists suf; reflexivity|exact Lc2].
    + assert (Full : filter (prefixb (t ++ [ch])) cs = cs) by (apply filter_full; lia).
      assert (Es' : t ++ [ch] = w0 ++ (suf ++ [ch])) by (unfold t; rewrite <- app_assoc; reflexivity).
      destruct (IH (length lc - length (w0 ++ (suf ++ [ch])))) with (suf := suf ++ [ch]) (s := s2) (evs := evs) as (s3 & s4 & Oc & Wk2 & F); auto.
      { rewrite <- Es', app_length. cbn [length]. lia. }
      { intros n I. rewrite <- Es'. apply (filter_all_in _ _ _ Full n I). }
      { rewrite <- Es'. exact Tb2. }
      { rewrite Ac2, Full. reflexivity. }
      { rewrite Sf, app_length. cbn [length]. lia. }
      exists s4. split; [exact Oc1|]. split; [|exact F]. eapply works_trans; [exact Wk|]. eapply works_trans; [|exact Wk2]. apply at_finish; auto.
      unfold ush_autocomp_state_candidates_finish. rewrite Pv2. apply Nat.ltb_ge in Hc. rewrite Hc. exact Oc.
Qed.

(** ** Pressing TAB *)

Lemma tab_start : forall e own w cwd k l s, at_tab own w cwd k l s ->
  exists s1, took e TAB s s1 /\ ground own w cwd s /\ tabbing k (before_word l) (last_word l) s s1 [EvIn TAB] /\ no_nul (last_word l) /\
    enum s1 = (S_AC_COUNT, 0, o_cmds s1, 0, 0, 0, o_accand s).
Proof.
  intros e own w cwd k l s (Kn & Cw & Ed & Bo & Nl & T & Cf). pose proof (cwd_cur _ _ (cwd_show _ _ _ _ Kn Cw)) as Cu. destruct Ed as (P & Es & Ip & r & Ib).
  pose (sa := set_state S_AC_PREPARE (emit (EvIn TAB) s)). pose (sb := set_state S_AC_START (set_acin (Some (length (before_word l))) sa)).
  exists (ush_autocomp_state_candidates_start sb). split; [|split; [|split; [|split]]].
  - split; [exact P|]. exists true, sa. split.
    + rewrite service_eq. destruct (o_cur s) eqn:E; [|congruence]. unfold svc. rewrite P. unfold ush_read_char. cbn [tick io_rd].
      change (ceq TAB ETX) with false. change (ceq TAB BS || ceq TAB DEL) with false. change (ceq TAB TAB) with true. cbn [bind]. cbn [o_desc emit set_lg]. rewrite Cf. reflexivity.
    + eapply (works_svc e sa true sb); [exact Cu|apply np; discriminate| |eapply (works_svc e sb true); [exact Cu|apply np; discriminate| |apply works_refl]].
      * unfold svc. change (o_state sa) with S_AC_PREPARE. cbn match. change (d_cfg (o_desc sa)) with (d_cfg (o_desc s)). rewrite Cf.
        unfold ush_autocomp_service. change (o_state sa) with S_AC_PREPARE. cbn match. unfold ush_autocomp_state_prepare. change (inb sa) with (inb s). rewrite Ib, last_arg by exact Nl. reflexivity.
      * unfold svc. change (o_state sb) with S_AC_START. cbn match. change (d_cfg (o_desc sb)) with (d_cfg (o_desc s)). rewrite Cf. reflexivity.
  - split; [exact Kn|]. split; [exact Cw|]. split; [exact T|]. split; [exact Cf|exact Cu].
  - split; [reflexivity|]. split; [exact Bo|]. split; [exact Es|]. split; [reflexivity|]. split; [exists r|].
    + change (inb s = before_word l ++ last_word l ++ NUL :: r). rewrite app_assoc, <- before_last. exact Ib.
    + split; [|reflexivity]. rewrite <- before_last. exact Ip.
  - intros I. apply Nl. rewrite (before_last l). apply in_app_iff. right; exact I.
  - reflexivity.
Qed.

Lemma tab_end : forall e k B t s s2 out l', took e TAB s s2 -> tabbing k B t s s2 (EvIn TAB :: map EvOut out) -> o_state s2 = S_READ_CHAR -> l' = B ++ t -> tabbed e k s out l' s2.
Proof.
  intros e k B t s s2 out l' Tk (C & Bo & Es & Ai & (r & Ib) & Ip & Lg) St ->. split; [apply (took_fed _ _ _ _ Tk); constructor; exact St|]. split.
  - split; [exact St|]. split; [exact Es|]. split; [exact Ip|]. exists r. rewrite <- app_assoc. exact Ib.
  - split; [exact Bo|]. split; [exact C|exact Lg].
Qed.

Lemma tab_count : forall e own w cwd k l s, at_tab own w cwd k l s -> length (full_text cwd (last_word l)) < d_pathmax (o_desc s) ->
  exists s1, took e TAB s s1 /\ ground own w cwd s /\ tabbing k (before_word l) (last_word l) s s1 [EvIn TAB] /\ no_nul (last_word l) /\
    o_state s1 = S_AC_FINISH /\ o_acprev s1 = S_AC_COUNT /\ o_account s1 = length (candidates w cwd (last_word l)) /\
    o_accand s1 = last_of (o_accand s) (candidates w cwd (last_word l)) /\ o_cur s1 <> None /\ cfg_autocomp (d_cfg (o_desc s1)) = true.
Proof.
  intros e own w cwd k l s At L. destruct (tab_start e _ _ _ _ _ _ At) as (s1 & Tk & G & Tb & N & En).
  destruct (enum_tab e own w cwd s k _ _ s1 _ S_AC_COUNT (o_accand s) G Tb N L) as (s2 & Wk & Tb2 & St2 & Ac2 & Cd2 & Pv2 & Sf2 & Pc2); [left; reflexivity|exact En|].
  change (shown S_AC_COUNT _) with (@nil byte) in Tb2. cbn [map] in Tb2. rewrite app_nil_r in Tb2. exists s2.
  split; [eapply took_works; eauto|]. split; [exact G|]. split; [exact Tb2|]. split; [exact N|]. split; [exact St2|]. split; [exact Pv2|]. split; [exact Ac2|]. split; [exact Cd2|].
  destruct G as (_ & _ & _ & Cf & Cu). destruct Tb2 as (C & _). unfold core in C. split; congruence.
Qed.

Lemma C28_none_proof : forall e own w cwd k l s, at_tab own w cwd k l s -> length (full_text cwd (last_word l)) < d_pathmax (o_desc s) ->
  candidates w cwd (last_word l) = [] -> exists s', tabbed e k s [] l s'.
Proof.
  intros e own w cwd k l s At L E. destruct (tab_count e _ _ _ _ _ _ At L) as (s1 & Tk & G & Tb & N & St & Pv & Ac & Cd & Cu & Cf). rewrite E in Ac.
  exists (set_state S_READ_CHAR s1). eapply tab_end; [eapply took_works; [exact Tk|]| | |].
  - apply at_finish; auto. unfold ush_autocomp_state_candidates_finish. rewrite Pv, Ac. reflexivity.
  - exact Tb.
  - reflexivity.
  - apply before_last.
Qed.

Lemma write_in : forall e k B t s0 s evs u z, tabbing k B t s0 s evs -> o_cur s <> None -> no_nul t -> t = u ++ z ->
  exists s1, ush_write_pointer (WIn (length B + length u)) S_READ_CHAR s = Ok s1 /\
   exists s2, works e s1 s2 /\ tabbing k B t s0 s2 (evs ++ map EvOut z) /\ o_state s2 = S_READ_CHAR.
Proof.
  intros e k B t s0 s evs u z Tb Cu N E. pose proof Tb as (C & Bo & Es & Ai & (r & Ib) & Ip & Lg).
  assert (Nz : no_nul z) by (intros I; apply N; rewrite E; apply in_app_iff; right; exact I).
  assert (W : wptr_str (WIn (length B + length u)) s = Ok z).
  { cbn [wptr_str]. rewrite Ib, E. replace (B ++ (u ++ z) ++ NUL :: r) with ((B ++ u) ++ z ++ NUL :: r) by (rewrite <- !app_assoc; reflexivity). apply c_str_app; [rewrite app_length; reflexivity|exact Nz]. }
  eexists. split; [apply wp_eq; exact W|]. exists (after_write (WIn (length B + length u)) z S_READ_CHAR s). split; [apply works_wpb; [exact Cu|apply points_str; exact W]|].
  split; [|reflexivity]. split; [exact C|]. split; [exact Bo|]. split; [exact Es|]. split; [exact Ai|]. split; [exists r; exact Ib|]. split; [exact Ip|].
  cbn [lg after_write set_state set_wnext set_wbuf set_wsize set_wpos set_lg]. rewrite Lg, app_assoc. reflexivity.
Qed.

Lemma copy_in : forall B t n z, no_nul B -> no_nul n -> length B + length n < length (B ++ t ++ z) ->
  exists z', c_strcpy (B ++ t ++ z) (length B) n = Ok (B ++ n ++ NUL :: z') /\ c_strlen (B ++ n ++ NUL :: z') 0 = Ok (length (B ++ n)).
Proof.
  intros B t n z Nb Nn L. rewrite app_length in L. exists (skipn (S (length n)) (t ++ z)). split.
  - rewrite c_strcpy_app; [reflexivity|reflexivity|lia].
  - rewrite app_assoc. apply c_strlen_0. apply no_nul_app. auto.
Qed.

Lemma before_no_nul : forall l, no_nul l -> no_nul (before_word l).
Proof. intros l N I. apply N. rewrite (before_last l). apply in_app_iff. left; exact I. Qed.

Lemma C28_one_proof : forall e own w cwd k l s n, at_tab own w cwd k l s -> tab_room (o_desc s) cwd l [n] ->
  candidates w cwd (last_word l) = [n] -> exists s', tabbed e k s (skipn (length (last_word l)) n) (before_word l ++ n) s'.
Proof.
  intros e own w cwd k l s n At (L & Li) E. destruct (tab_count e _ _ _ _ _ _ At L) as (s1 & Tk & G & Tb & N & St & Pv & Ac & Cd & Cu & Cf). rewrite E in Ac, Cd. cbn in Ac, Cd.
  cbn [tried] in Li. pose proof G as (Kn & Cw & T & _). pose proof At as (_ & _ & _ & _ & Nl & _).
  assert (In_ : In n (candidates w cwd (last_word l))) by (rewrite E; left; reflexivity).
  assert (Pl : plain_comp n) by (destruct Kn as ((Fo & _) & _); eapply cand_plain; eauto). assert (Pf : prefixb (last_word l) n = true) by (apply filter_In in In_; apply In_).
  apply prefixb_spec in Pf as (z & Ez). pose proof Tb as (C & Bo & Es & Ai & (r & Ib) & Ip & Lg). set (B := before_word l) in *. set (t := last_word l) in *.
  destruct Bo as (B1 & B2 & B3 & B4). assert (Dn : d_insize (o_desc s1) = d_insize (o_desc s)) by (unfold core in C; congruence).
  destruct (copy_in B t n (NUL :: r)) as (z' & Cp & Cl); [apply before_no_nul; exact Nl|exact (proj2 Pl)|rewrite <- Ib; lia|].
  pose (s2 := set_inpos (length (B ++ n)) (set_inb (B ++ n ++ NUL :: z') s1)).
  assert (Tb2 : tabbing k B n s s2 [EvIn TAB]).
  { split; [exact C|]. split.
    { unfold bufs_ok, s2. sfields. split; [|auto]. rewrite <- B1, Ib. symmetry. rewrite <- (c_strcpy_length _ _ _ _ Cp). reflexivity. }
    split; [exact Es|]. split; [exact Ai|]. split; [exists z'; reflexivity|]. split; [reflexivity|exact Lg]. }
  destruct (write_in e k B n s s2 [EvIn TAB] t z Tb2 Cu (proj2 Pl) Ez) as (s3 & Ws & s4 & Wk & Tb4 & St4).
  exists s4. replace (skipn (length t) n) with z by (rewrite Ez, skipn_app, skipn_all, Nat.sub_diag; reflexivity). eapply tab_end; [eapply took_works; [exact Tk|eapply works_trans; [|exact Wk]]| | |].
  - apply at_finish; auto. unfold ush_autocomp_state_candidates_finish, ac_input. rewrite Pv, Ac, Ai, Ib. rewrite c_str_app by auto. cbn [bind]. rewrite Cd. cbn [deref bind].
    rewrite Cp. cbn [bind]. rewrite Cl. cbn [bind]. exact Ws.
  - exact Tb4.
  - exact St4.
  - reflexivity.
Qed.

Lemma works_prompt : forall e s p, o_state s = S_PROMPT_PREFIX -> cwd_is s p -> works e s (after_prompt p s).
Proof.
  intros e s p E W. pose proof (cwd_cur _ _ W) as C.
  eapply works_svc; [exact C|apply np; rewrite E; discriminate|unfold svc, ush_prompt_service; rewrite E; reflexivity|].
  eapply works_trans; [apply works_write_str; exact C|].
  eapply works_svc; [exact C|apply np; discriminate|reflexivity|].
  eapply works_trans; [apply works_write_str; exact C|].
  eapply works_svc; [exact C|apply np; discriminate|reflexivity|].
  eapply works_trans; [apply works_write_str; exact C|].
  destruct W as (nd & G & P).
  eapply works_svc; [exact C|apply np; discriminate| |].
  { cbn [svc o_state after_write set_state]. unfold svc. cbn [o_state after_write set_state].
    unfold ush_prompt_service. cbn [o_state after_write set_state hp o_cur set_wnext set_wbuf set_wsize set_wpos set_lg].
    cbn. rewrite G. cbn [bind]. unfold path_of. rewrite P. cbn [bind]. reflexivity. }
  eapply works_trans; [apply works_write_str; exact C|].
  eapply works_svc; [exact C|apply np; discriminate|reflexivity|].
  eapply works_trans; [apply works_write_str; exact C|].
  match goal with |- works _ ?x _ => replace x with (after_prompt p s); [apply works_refl|] end.
  unfold after_prompt, after_write, write_str, ush_write_pointer_bin.
  cbn [o_desc o_state o_wnext o_pnext o_wbuf o_wsize o_wpos lg set_state set_wnext set_wbuf set_wsize set_wpos set_lg].
  rewrite !map_app, <- !app_assoc. reflexivity.
Qed.

Definition ac_mode (x : fsm) : Prop := x = S_AC_RECALL_SUFFIX \/ x = S_AC_PROMPT \/ x = S_AC_RECALL.
Lemma ac_svc : forall e s s1, o_cur s <> None -> cfg_autocomp (d_cfg (o_desc s)) = true -> ac_mode (o_state s) -> ush_autocomp_service s = Ok (true, s1) -> works e s s1.
Proof.
  intros e s s1 C D A F. eapply works_svc; [exact C| | |apply works_refl].
  - intros P. unfold polling in P. destruct A as [A|[A|A]]; congruence.
  - unfold svc. destruct A as [A|[A|A]]; rewrite A, D, F; reflexivity.
Qed.

Lemma tabbing_env : forall k B t s0 s evs own w cwd, tabbing k B t s0 s evs -> ground own w cwd s0 -> o_cur s <> None /\ cfg_autocomp (d_cfg (o_desc s)) = true.
Proof. intros k B t s0 s evs own w cwd (C & _) (_ & _ & _ & Cf & Cu). unfold core in C. split; congruence. Qed.

Lemma room_word : forall own w cwd k l s, at_tab own w cwd k l s -> tab_room (o_desc s) cwd l (candidates w cwd (last_word l)) -> length (full_text cwd (last_word l)) < d_pathmax (o_desc s).
Proof. intros own w cwd k l s (((Fo & _) & _) & _ & _ & _ & _ & T & _) (L & _). destruct (probed_word w cwd (last_word l) Fo T) as (A & _). lia. Qed.

(** Two or more candidates: the line is extended. *)
Lemma tab_many : forall e own w cwd k l s, at_tab own w cwd k l s -> tab_room (o_desc s) cwd l (candidates w cwd (last_word l)) -> 2 <= length (candidates w cwd (last_word l)) ->
  exists s2, took e TAB s s2 /\ ground own w cwd s /\ tabbing k (before_word l) (common (candidates w cwd (last_word l))) s s2 [EvIn TAB] /\ no_nul (common (candidates w cwd (last_word l))) /\
    o_state s2 = S_AC_RECALL_SUFFIX /\ length (last_word l) + o_acsuf s2 = length (common (candidates w cwd (last_word l))) /\
    prefixb (last_word l) (common (candidates w cwd (last_word l))) = true.
Proof.
  intros e own w cwd k l s At Rm L2. pose proof (room_word own w cwd k l s At Rm) as L. destruct Rm as (Lp & Li). destruct (tab_count e _ _ _ _ _ _ At L) as (s1 & Tk & G & Tb & N & St & Pv & Ac & Cd & Cu & Cf).
  set (cs := candidates w cwd (last_word l)) in *. destruct (last_of_some cs (o_accand s)) as (lc & El & Il); [intros Z; rewrite Z in L2; cbn in L2; lia|].
  pose proof G as (Kn & Cw & T & _). destruct (tried_many (last_word l) cs L2) as (Tm1 & Tm2). rewrite Tm1, Tm2 in Lp. rewrite Tm2 in Li.
  assert (Ll : last cs [] = lc) by (rewrite last_of_last in El; [injection El as <-; reflexivity|intros Z; rewrite Z in Il; exact Il]). rewrite Ll in Lp, Li.
  assert (Pl : plain_comp lc) by (destruct Kn as ((Fo & _) & _); eapply cand_plain; eauto).
  assert (Tb' : tabbing k (before_word l) (last_word l ++ []) s (set_acsuf 0 s1) [EvIn TAB]) by (rewrite app_nil_r; exact Tb).
  destruct (extend e own w cwd s k (before_word l) (last_word l) cs lc (o_accand s) G eq_refl El Il L2 Lp Li _ [] (set_acsuf 0 s1) [EvIn TAB] eq_refl) as (s2 & s3 & Oc & Wk & St3 & Tb3 & Sf3 & Pf3 & _); auto.
  { intros n I. rewrite app_nil_r. apply filter_In in I. apply I. }
  { change (o_accand s1 = Some lc). rewrite Cd. exact El. }
  exists s3. split; [eapply took_works; [exact Tk|eapply works_trans; [|exact Wk]]|].
  { apply at_finish; auto. unfold ush_autocomp_state_candidates_finish. rewrite Pv, Ac. destruct (length cs) as [|[|q]] eqn:Lc; [lia|lia|]. exact Oc. }
  split; [exact G|]. split; [exact Tb3|]. split; [|auto]. intros I. apply (proj2 Pl). eapply prefix_In; [|exact I]. apply common_prefix. exact Il.
Qed.

Lemma suffix_at : forall k B t s0 s evs u z, tabbing k B t s0 s evs -> no_nul t -> t = u ++ z -> o_acsuf s = length z ->
  ush_autocomp_state_recall_suffix s = if 0 <? length z then ush_write_pointer (WIn (length B + length u)) S_READ_CHAR s else Ok (write_str CRLF S_AC_PRINT (ush_autocomp_prepare_candidates s)).
Proof.
  intros k B t s0 s evs u z (C & Bo & Es & Ai & (r & Ib) & Ip & Lg) N E Sf. unfold ush_autocomp_state_recall_suffix, ac_input. rewrite Ai, Ib.
  rewrite c_str_app by auto. cbn [bind]. rewrite Sf. destruct (Nat.ltb_spec (length B + length t) (length z)); [rewrite E, app_length in *; lia|].
  replace (length B + length t - length z) with (length (B ++ u)) by (rewrite E, !app_length; lia). rewrite E.
  replace (B ++ (u ++ z) ++ NUL :: r) with ((B ++ u) ++ z ++ NUL :: r) by (rewrite <- !app_assoc; reflexivity).
  rewrite c_strlen_app; [|reflexivity|intros I; apply N; rewrite E; apply in_app_iff; right; exact I]. cbn [bind]. rewrite app_length. reflexivity.
Qed.

Lemma C29_extend_proof : forall e own w cwd k l s, let cs := candidates w cwd (last_word l) in at_tab own w cwd k l s -> tab_room (o_desc s) cwd l cs -> 2 <= length cs ->
  common cs <> last_word l -> exists s', tabbed e k s (skipn (length (last_word l)) (common cs)) (before_word l ++ common cs) s'.
Proof.
  intros e own w cwd k l s cs At Rm L2 Ne. destruct (tab_many e _ _ _ _ _ _ At Rm L2) as (s2 & Tk & G & Tb & N & St & Sf & Pf). fold cs in Tb, N, Sf, Pf.
  destruct (tabbing_env _ _ _ _ _ _ _ _ _ Tb G) as (Cu & Cf). apply prefixb_spec in Pf as (z & Ez).
  assert (Lz : o_acsuf s2 = length z) by (rewrite Ez, app_length in Sf; lia).
  destruct (write_in e k (before_word l) (common cs) s s2 [EvIn TAB] (last_word l) z Tb Cu N Ez) as (s3 & Ws & s4 & Wk & Tb4 & St4).
  exists s4. replace (skipn (length (last_word l)) (common cs)) with z by (rewrite Ez, skipn_app, skipn_all, Nat.sub_diag; reflexivity).
  eapply tab_end; [eapply took_works; [exact Tk|eapply works_trans; [|exact Wk]]|exact Tb4|exact St4|reflexivity].
  apply ac_svc; [exact Cu|exact Cf|left; exact St|]. unfold ush_autocomp_service. rewrite St. rewrite (suffix_at _ _ _ _ _ _ _ _ Tb N Ez Lz).
  destruct z as [|c z]; [rewrite app_nil_r in Ez; congruence|]. cbn [length Nat.ltb Nat.leb]. rewrite Ws. reflexivity.
Qed.

Lemma C29_list_proof : forall e own w cwd k l s, let cs := candidates w cwd (last_word l) in at_tab own w cwd k l s -> tab_room (o_desc s) cwd l cs -> 2 <= length cs ->
  common cs = last_word l -> exists s', tabbed e k s (CRLF ++ flat_map (fun n => n ++ CRLF) cs ++ prompt (o_desc s) (show cwd) ++ l) l s'.
Proof.
  intros e own w cwd k l s cs At Rm L2 Eq. destruct (tab_many e _ _ _ _ _ _ At Rm L2) as (s2 & Tk & G & Tb & N & St & Sf & Pf). fold cs in Tb, N, Sf, Pf. rewrite Eq in Tb, N, Sf. clear Pf.
  destruct (tabbing_env _ _ _ _ _ _ _ _ _ Tb G) as (Cu & Cf). assert (Lz : o_acsuf s2 = 0) by lia.
  pose (s3 := after_write (WStr CRLF) CRLF S_AC_PRINT (ush_autocomp_prepare_candidates s2)).
  assert (W3 : works e s2 s3).
  { eapply works_trans; [|apply works_write_str; exact Cu]. apply ac_svc; [exact Cu|exact Cf|left; exact St|]. unfold ush_autocomp_service. rewrite St.
    rewrite (suffix_at _ _ _ _ _ _ (last_word l) [] Tb N); [reflexivity|rewrite app_nil_r; reflexivity|exact Lz]. }
  assert (Tb3 : tabbing k (before_word l) (last_word l) s s3 ([EvIn TAB] ++ map EvOut CRLF)).
  { apply (tabbing_still _ _ _ _ s2); [exact Tb|reflexivity|reflexivity]. }
  assert (En3 : enum s3 = (S_AC_PRINT, 0, o_cmds s3, 0, 0, 0, o_accand s2)) by reflexivity.
  clearbody s3.
  destruct (enum_tab e own w cwd s k _ _ s3 _ S_AC_PRINT (o_accand s2) G Tb3 N (room_word _ _ _ _ _ _ At Rm)) as (s4 & W4 & Tb4 & St4 & _ & _ & Pv4 & _); [right; right; reflexivity|exact En3|].
  fold cs in Tb4. change (shown S_AC_PRINT ?t) with t in Tb4. destruct (tabbing_env _ _ _ _ _ _ _ _ _ Tb4 G) as (Cu4 & Cf4).
  pose (s5 := set_state S_AC_PROMPT s4). assert (W5 : works e s4 s5) by (apply at_finish; auto; unfold ush_autocomp_state_candidates_finish; rewrite Pv4; reflexivity).
  pose (s6 := ush_prompt_start S_AC_RECALL s5).
  assert (W6 : works e s5 s6) by (apply ac_svc; [exact Cu4|exact Cf4|right; left; reflexivity|reflexivity]).
  assert (Cw : cwd_is s6 (show cwd)).
  { pose proof G as (Kn & Cw & _). eapply cwd_show; [eapply knows_core; [|exact Kn]|exact Cw]. exact (proj1 Tb4). }
  pose (s7 := after_prompt (show cwd) s6). assert (W7 : works e s6 s7) by (apply works_prompt; [reflexivity|exact Cw]).
  assert (Tb7 : tabbing k (before_word l) (last_word l) s s7 ((([EvIn TAB] ++ map EvOut CRLF) ++ map EvOut (flat_map (fun n => n ++ CRLF) cs)) ++ map EvOut (prompt (o_desc s) (show cwd)))).
  { apply (tabbing_still _ _ _ _ s4); [exact Tb4|reflexivity|]. replace (o_desc s) with (o_desc s4) by (destruct Tb4 as (C4 & _); unfold core in C4; congruence).
    unfold s7, after_prompt, after_write, s6, s5, ush_prompt_start, prompt. rewrite <- path_last_label. cbv zeta. sfields. rewrite <- app_assoc, <- map_app, <- !app_assoc. reflexivity. }
  assert (St7 : o_state s7 = S_AC_RECALL) by reflexivity.
  clearbody s7. destruct (tabbing_env _ _ _ _ _ _ _ _ _ Tb7 G) as (Cu7 & Cf7).
  pose proof At as (_ & _ & _ & _ & Nl & _).
  assert (Ws : wptr_str (WIn 0) s7 = Ok l).
  { destruct Tb7 as (_ & _ & _ & _ & (r & Ib) & _). cbn [wptr_str]. rewrite Ib, app_assoc, <- before_last. apply c_str_0. exact Nl. }
  exists (after_write (WIn 0) l S_READ_CHAR s7).
  eapply tab_end with (B := before_word l) (t := last_word l); [|..|apply before_last].
  - eapply took_works; [exact Tk|]. eapply works_trans; [exact W3|]. eapply works_trans; [exact W4|]. eapply works_trans; [exact W5|]. eapply works_trans; [exact W6|]. eapply works_trans; [exact W7|].
    eapply works_trans; [|apply works_wpb; [exact Cu7|apply points_str; exact Ws]]. apply ac_svc; [exact Cu7|exact Cf7|right; right; exact St7|].
    unfold ush_autocomp_service. rewrite St7. rewrite (wp_eq _ _ _ _ Ws). reflexivity.
  - replace (EvIn TAB :: map EvOut (CRLF ++ flat_map (fun n => n ++ CRLF) cs ++ prompt (o_desc s) (show cwd) ++ l))
      with (((([EvIn TAB] ++ map EvOut CRLF) ++ map EvOut (flat_map (fun n => n ++ CRLF) cs)) ++ map EvOut (prompt (o_desc s) (show cwd))) ++ map EvOut l) by (rewrite !map_app, <- !app_assoc; reflexivity).
    apply (tabbing_still _ _ _ _ s7); [exact Tb7|reflexivity|reflexivity].
  - reflexivity.
Qed.

(** ** A completion that does not fit *)

Lemma C30_over_proof : forall e own w cwd k l s n, at_tab own w cwd k l s -> length (full_text cwd (last_word l)) < d_pathmax (o_desc s) ->
  candidates w cwd (last_word l) = [n] -> d_insize (o_desc s) <= length (before_word l) + length n -> fails e TAB s EOob.
Proof.
  intros e own w cwd k l s n At L E Ov. destruct (tab_count e _ _ _ _ _ _ At L) as (s1 & Tk & G & Tb & N & St & Pv & Ac & Cd & Cu & Cf). rewrite E in Ac, Cd. cbn in Ac, Cd.
  destruct Tk as (P & b & sa & Sv & Wk). split; [exact P|]. exists b, sa. split; [exact Sv|]. eapply works_stuck; [exact Wk|]. apply stuck_here; [apply np; rewrite St; discriminate|].
  pose proof Tb as (C & Bo & Es & Ai & (r & Ib) & Ip & Lg). rewrite service_eq. destruct (o_cur s1); [|congruence]. unfold svc. rewrite St, Cf. unfold ush_autocomp_service. rewrite St.
  unfold ush_autocomp_state_candidates_finish, ac_input. rewrite Pv, Ac, Ai. rewrite Ib at 1. rewrite c_str_app by auto. cbn [bind]. rewrite Cd. cbn [deref bind].
  rewrite c_strcpy_err; [reflexivity|]. destruct Bo as (B1 & _). rewrite B1. unfold core in C. replace (o_desc s1) with (o_desc s) by congruence. exact Ov.
Qed.

(** ** Running concrete cases *)

Fixpoint settle (n : nat) (e : env) (s : st) : option (res st) :=
  match n with
  | 0 => None
  | S n => if fsm_eqb (o_state s) S_READ_CHAR then Some (Ok s)
           else match ush_service (tick e None) s with Ok (_, s1) => settle n e s1 | Err x => Some (Err x) end
  end.
Lemma settle_ok : forall n e s s', settle n e s = Some (Ok s') -> quiet e s s'.
Proof.
  induction n as [|n IH]; intros e s s' H; [discriminate|]. cbn [settle] in H. destruct (fsm_eqb (o_state s) S_READ_CHAR) eqn:F.
  - injection H as <-. constructor. unfold polling. destruct (o_state s); try discriminate F; reflexivity.
  - destruct (ush_service (tick e None) s) as [[b s1]|x] eqn:E; [|discriminate]. eapply quiet_step; [|exact E|apply IH; exact H]. intros P. rewrite P in F. discriminate.
Qed.
Lemma settle_err : forall n e s x, settle n e s = Some (Err x) -> stuck e x s.
Proof.
  induction n as [|n IH]; intros e s x H; [discriminate|]. cbn [settle] in H. destruct (fsm_eqb (o_state s) S_READ_CHAR) eqn:F; [discriminate|].
  assert (N : ~ polling s) by (intros P; rewrite P in F; discriminate).
  destruct (ush_service (tick e None) s) as [[b s1]|y] eqn:E; [eapply stuck_step; eauto|]. injection H as ->. apply stuck_here; auto.
Qed.
Definition key (n : nat) (e : env) (c : byte) (s : st) : option (res st) :=
  match ush_service (tick e (Some c)) s with Ok (_, s1) => settle n e s1 | Err _ => None end.
Lemma key_ok : forall n e c s s', polling s -> key n e c s = Some (Ok s') -> fed e [c] s s'.
Proof.
  intros n e c s s' P H. unfold key in H. destruct (ush_service (tick e (Some c)) s) as [[b s1]|x] eqn:E; [|discriminate]. apply settle_ok in H.
  econstructor; eauto. constructor. apply quiet_esteps in H as (os & _ & _ & Q). exact Q.
Qed.
Lemma key_err : forall n e c s x, polling s -> key n e c s = Some (Err x) -> fails e c s x.
Proof.
  intros n e c s x P H. unfold key in H. destruct (ush_service (tick e (Some c)) s) as [[b s1]|y] eqn:E; [|discriminate]. split; [exact P|]. exists b, s1. split; [exact E|]. eapply settle_err; eauto.
Qed.

Lemma C29_common_proof : forall cs, cs <> [] ->
  (forall n, In n cs -> exists r, n = common cs ++ r) /\
  (forall p, (forall n, In n cs -> exists r, n = p ++ r) -> exists r, common cs = p ++ r).
Proof.
  intros cs N. split.
  - intros n I. apply prefixb_spec. apply common_prefix. exact I.
  - intros p H. apply prefixb_spec. apply common_greatest; [exact N|]. intros n I. apply prefixb_spec. auto.
Qed.

Lemma C30_fits_proof : forall e own w cwd k l s, at_tab own w cwd k l s -> tab_room (o_desc s) cwd l (candidates w cwd (last_word l)) ->
  exists out u s', tabbed e k s out (l ++ u) s' /\ length (l ++ u) < d_insize (o_desc s).
Proof.
  intros e own w cwd k l s At Rm. destruct (candidates w cwd (last_word l)) as [|n [|m cs]] eqn:E.
  - destruct (C28_none_proof e _ _ _ _ _ _ At (proj1 Rm) E) as (s' & T). exists [], [], s'. rewrite app_nil_r. split; [exact T|].
    destruct At as (_ & _ & (_ & _ & _ & r & Ib) & (B1 & _) & _). rewrite <- B1, Ib, app_length. cbn [length]. lia.
  - destruct (C28_one_proof e _ _ _ _ _ _ n At Rm E) as (s' & T).
    assert (P : prefixb (last_word l) n = true) by (assert (I : In n (candidates w cwd (last_word l))) by (rewrite E; left; reflexivity); apply filter_In in I; apply I).
    apply prefixb_spec in P as (z & Ez). assert (El : before_word l ++ n = l ++ z) by (rewrite (before_last l) at 2; rewrite <- app_assoc, <- Ez; reflexivity).
    rewrite El in T. eexists _, z, s'. split; [exact T|]. rewrite <- El, app_length. apply (proj2 Rm).
  - assert (L2 : 2 <= length (candidates w cwd (last_word l))) by (rewrite E; cbn [length]; lia). rewrite <- E in Rm.
    set (cs' := candidates w cwd (last_word l)) in *. assert (In_ : In n cs') by (rewrite E; left; reflexivity).
    assert (Hc : exists out s', tabbed e k s out (before_word l ++ common cs') s').
    { destruct (list_eq_dec ascii_dec (common cs') (last_word l)) as [Q|Q].
      - destruct (C29_list_proof e own w cwd k l s At Rm L2 Q) as (s' & T). eexists _, s'. rewrite Q, <- before_last. exact T.
      - destruct (C29_extend_proof e own w cwd k l s At Rm L2 Q) as (s' & T). eauto. }
    destruct Hc as (out & s' & T). assert (P : prefixb (last_word l) (common cs') = true) by (apply common_greatest; [intros Z; rewrite Z in In_; destruct In_|]; intros x I; apply filter_In in I; apply I).
    apply prefixb_spec in P as (z & Ez). assert (El : before_word l ++ common cs' = l ++ z) by (rewrite (before_last l) at 2; rewrite <- app_assoc, <- Ez; reflexivity).
    rewrite El in T. exists out, z, s'. split; [exact T|]. rewrite <- El, app_length.
    destruct Rm as (_ & L). destruct (tried_many (last_word l) cs' L2) as (_ & Tm). rewrite Tm in L. assert (Nn : cs' <> []) by (intros Z; rewrite Z in In_; exact In_).
    pose proof (prefix_length _ _ (firstn_prefix _ _ (S (length (common cs'))) (common_prefix cs' _ (last_in cs' Nn)) (Nat.le_succ_diag_r _))). lia.
Qed.

(** ** A text that does not fit *)

Lemma c_str_open : forall x b o, no_nul x -> o = length b -> c_str (b ++ x) o = Err EOob.
Proof.
  intros x b o N ->. unfold c_str. replace (skipn (length b) (b ++ x)) with x by (rewrite skipn_app, skipn_all, Nat.sub_diag; reflexivity).
  induction x as [|c x IH]; [reflexivity|]. cbn [c_str0]. destruct (ceq_spec c NUL); [exfalso; apply N; left; congruence|]. rewrite IH; [reflexivity|]. intros I. apply N. right; exact I.
Qed.

(** One character more, at the end of the buffer: the line is cut off at its start. *)
Lemma opt_wrap : forall k B t s0 s evs lc ch z, tabbing k B t s0 s evs -> has_word (length B) t s -> o_accand s = Some lc -> lc = t ++ ch :: z -> no_nul lc -> B <> [] ->
  d_insize (o_desc s) <= length B + S (length t) ->
  exists s1, ush_autocomp_optimize_continue s = Ok s1 /\ lost_word (length B) s1 /\ core s1 = core s0 /\ o_state s1 = S_AC_OPTIMISE /\ o_pstage s1 = 0 /\ o_pnode s1 = o_cmds s1 /\ o_pitem s1 = 0 /\ o_pidx s1 = 0.
Proof.
  intros k B t s0 s evs lc ch z Tb (W1 & W2 & W3 & W4) Nc Ez Nl Nb Li. pose proof Tb as (C & Bo & Es & Ai & (r & Ib) & Ip & Lg). destruct Bo as (B1 & B2 & B3 & B4).
  assert (r = []). { destruct r as [|q r]; [reflexivity|]. exfalso. rewrite Ib in B1. rewrite !app_length in *. cbn [length] in *. lia. } subst r.
  destruct B as [|b0 B]; [congruence|]. clear Nb.
  pose (s1 := set_state S_AC_OPTIMISE (ush_autocomp_prepare_candidates (set_acsuf (S (o_acsuf s)) (set_inpos 0 (set_inb ((NUL :: B) ++ t ++ [ch]) (set_acprevc (o_account s) s)))))).
  exists s1. split.
  { unfold ush_autocomp_optimize_continue. cbv zeta.
    assert (I : ac_input (set_acprevc (o_account s) s) = Ok (length (b0 :: B), t)) by (unfold ac_input; sfields; rewrite W1, W2; reflexivity). rewrite I. cbn [bind].
    assert (J : deref (o_accand (set_acprevc (o_account s) s)) = Ok lc) by (sfields; rewrite Nc; reflexivity). rewrite J. cbn [bind].
    assert (Hl : length lc <=? length t = false) by (apply Nat.leb_gt; rewrite Ez, app_length; cbn [length]; lia). rewrite Hl.
    assert (Rd : rd lc (length t) = Ok ch) by (rewrite Ez; apply rd_app; reflexivity). rewrite Rd. cbn [bind].
    assert (Wr : wr (inb (set_acprevc (o_account s) s)) (o_inpos (set_acprevc (o_account s) s)) ch = Ok (b0 :: B ++ t ++ [ch])).
    { sfields. rewrite Ib, Ip, app_assoc, wr_app by reflexivity. rewrite <- !app_assoc. reflexivity. }
    rewrite Wr. cbn [bind].
    assert (Pp : (if d_insize (o_desc (set_acprevc (o_account s) s)) <=? S (o_inpos (set_acprevc (o_account s) s)) then 0 else S (o_inpos (set_acprevc (o_account s) s))) = 0).
    { sfields. rewrite Ip. destruct (Nat.leb_spec (d_insize (o_desc s)) (S (length ((b0 :: B) ++ t)))) as [Hi|Hi]; [reflexivity|]. exfalso. rewrite app_length in Hi. cbn [length] in *. lia. }
    rewrite Pp. reflexivity. }
  split.
  { split; [exact Ai|]. split; [|split; [exact W3|exact W4]]. change (inb s1) with ((NUL :: B) ++ t ++ [ch]). apply c_str_open; [|reflexivity].
    intros I. apply Nl. rewrite Ez. apply in_app_iff in I as [I|[I|[]]]; apply in_app_iff; [left; exact I|right; left; exact I]. }
  split; [exact C|]. repeat split; reflexivity.
Qed.

(** The same for the first word of the line: it is emptied, and the count of characters added
    is larger than the word from then on. *)
Definition surplus (w : world) (cwd : dirpath) (k : nat) (s0 : st) (evs : list event) (s : st) : Prop :=
  exists t c, tabbing k [] t s0 s evs /\ no_nul t /\ enum s = (S_AC_OPTIMISE, 0, o_cmds s, 0, 0, 0, c) /\ length t < o_acsuf s /\
    1 <= o_acprevc s <= length (candidates w cwd []).

Lemma cand_few : forall w cwd t, length (candidates w cwd t) <= length (candidates w cwd []).
Proof. intros w cwd t. unfold candidates. rewrite (filter_full _ (prefixb []) (names_in w cwd)); [apply filter_len|]. induction (names_in w cwd) as [|n r IH]; [apply le_n|]. cbn [filter]. change (prefixb [] n) with true. cbn [length]. lia. Qed.

Lemma opt_around : forall k t s0 s evs lc ch z, tabbing k [] t s0 s evs -> has_word 0 t s -> o_accand s = Some lc -> lc = t ++ ch :: z ->
  d_insize (o_desc s) <= S (length t) ->
  exists s1, ush_autocomp_optimize_continue s = Ok s1 /\ tabbing k [] [] s0 s1 evs /\ enum s1 = (S_AC_OPTIMISE, 0, o_cmds s1, 0, 0, 0, Some lc) /\
    o_acsuf s1 = S (o_acsuf s) /\ o_acprevc s1 = o_account s.
Proof.
  intros k t s0 s evs lc ch z Tb (W1 & W2 & _) Nc Ez Li. pose proof Tb as (C & Bo & Es & Ai & (r & Ib) & Ip & Lg). cbn [app length] in Ib, Ip, Ai. destruct Bo as (B1 & B2 & B3 & B4).
  assert (r = []). { destruct r as [|q r]; [reflexivity|]. exfalso. rewrite Ib in B1. rewrite !app_length in *. cbn [length] in *. lia. } subst r.
  assert (Ht : exists y0 y, t ++ [ch] = y0 :: y /\ length y = length t).
  { destruct t as [|t0 t]; [exists ch, []; auto|]. exists t0, (t ++ [ch]). split; [reflexivity|]. rewrite app_length. cbn [length]. lia. }
  destruct Ht as (y0 & y & Ey & Ly).
  pose (s1 := set_state S_AC_OPTIMISE (ush_autocomp_prepare_candidates (set_acsuf (S (o_acsuf s)) (set_inpos 0 (set_inb (NUL :: y) (set_acprevc (o_account s) s)))))).
  exists s1. split.
  { unfold ush_autocomp_optimize_continue. cbv zeta.
    assert (I : ac_input (set_acprevc (o_account s) s) = Ok (0, t)) by (unfold ac_input; sfields; rewrite W1, W2; reflexivity). rewrite I. cbn [bind].
    assert (J : deref (o_accand (set_acprevc (o_account s) s)) = Ok lc) by (sfields; rewrite Nc; reflexivity). rewrite J. cbn [bind].
    assert (Hl : length lc <=? length t = false) by (apply Nat.leb_gt; rewrite Ez, app_length; cbn [length]; lia). rewrite Hl.
    assert (Rd : rd lc (length t) = Ok ch) by (rewrite Ez; apply rd_app; reflexivity). rewrite Rd. cbn [bind].
    assert (Wr : wr (inb (set_acprevc (o_account s) s)) (o_inpos (set_acprevc (o_account s) s)) ch = Ok (y0 :: y)).
    { sfields. rewrite Ib, Ip, wr_app by reflexivity. rewrite Ey. reflexivity. }
    rewrite Wr. cbn [bind].
    assert (Pp : (if d_insize (o_desc (set_acprevc (o_account s) s)) <=? S (o_inpos (set_acprevc (o_account s) s)) then 0 else S (o_inpos (set_acprevc (o_account s) s))) = 0).
    { sfields. rewrite Ip. destruct (Nat.leb_spec (d_insize (o_desc s)) (S (length t))) as [Hi|Hi]; [reflexivity|]. exfalso. lia. }
    rewrite Pp. reflexivity. }
  split; [|split; [|split]].
  - split; [exact C|]. split.
    { unfold bufs_ok, s1. cbn [inb outb o_desc set_state ush_autocomp_prepare_candidates set_pitem set_pidx set_pnode set_pstage set_account set_acsuf set_inpos set_inb set_acprevc].
      rewrite Ib in B1. rewrite !app_length in *. cbn [length] in *. lia. }
    split; [exact Es|]. split; [exact Ai|]. split; [exists y; reflexivity|]. split; [reflexivity|exact Lg].
  - unfold s1, enum. cbn. rewrite Nc. reflexivity.
  - reflexivity.
  - reflexivity.
Qed.

Lemma extend_fails : forall e own w cwd s0 k B w0 cs lc c, ground own w cwd s0 -> cs = candidates w cwd w0 -> last_of c cs = Some lc -> In lc cs -> 2 <= length cs ->
  let tr := firstn (S (length (common cs))) lc in ~ (length (full_text cwd tr) < d_pathmax (o_desc s0) /\ length B + length tr < d_insize (o_desc s0)) ->
  forall Q : st -> Prop, (forall s, stuck e EOob s -> Q s) -> (forall s s1, works e s s1 -> Q s1 -> Q s) ->
  (B = [] -> d_insize (o_desc s0) <= length tr -> forall evs s, surplus w cwd k s0 evs s -> Q s) ->
  forall m suf s evs, m = length lc - length (w0 ++ suf) -> (forall n, In n cs -> prefixb (w0 ++ suf) n = true) -> tabbing k B (w0 ++ suf) s0 s evs ->
  length (full_text cwd (w0 ++ suf)) < d_pathmax (o_desc s0) -> o_account s = length cs -> o_accand s = Some lc ->
  exists s1, ush_autocomp_optimize_continue s = Ok s1 /\ Q s1.
Proof.
  intros e own w cwd s0 k B w0 cs lc c G Ec El Il L2 tr Nr Q Qs Qw Qb. pose proof G as (Kn & Cw & T & Cf & Cu).
  assert (Fo : fs_ok (w_fs w)) by (destruct Kn as ((Fo & _) & _); exact Fo).
  assert (Pl : plain_comp lc) by (rewrite Ec in Il; eapply cand_plain; eauto).
  induction m as [m IH] using lt_wf_ind. intros suf s evs Em Pre Tb Lt Na Nc. set (t := w0 ++ suf) in *.
  assert (Plc : prefixb t lc = true) by (apply Pre; exact Il). assert (Nt : no_nul t) by (intros I; apply (proj2 Pl); eapply prefix_In; eauto).
  pose proof (tabbing_word _ _ _ _ _ _ Tb Nt Cu Cf) as Hw.
  pose proof Tb as (C & Bo & _ & _ & (r & Ib) & _). assert (Dd : o_desc s = o_desc s0) by (unfold core in C; congruence).
  assert (Fit : length B + length t < d_insize (o_desc s0)) by (destruct Bo as (B1 & _); rewrite <- Dd, <- B1, Ib, !app_length; cbn [length]; lia).
  assert (Ne : cs <> []) by (intros Z; rewrite Z in Il; exact Il).
  destruct (Nat.leb_spec (length lc) (length t)) as [Hl|Hl].
  { exfalso. assert (Ct : common cs = t) by (apply (common_stop cs t lc); auto). assert (Et : lc = t).
    { apply prefixb_spec in Plc as (z & Ez). destruct z as [|q z]; [rewrite app_nil_r in Ez; exact Ez|]. rewrite Ez, app_length in Hl. cbn [length] in Hl. lia. }
    apply Nr. unfold tr. rewrite Ct, Et, firstn_all2 by lia. auto. }
  apply prefixb_spec in Plc as (z & Ez). destruct z as [|ch z]; [rewrite Ez, app_nil_r in Hl; lia|].
  assert (Pc : prefixb (t ++ [ch]) lc = true) by (apply prefixb_spec; exists z; rewrite <- app_assoc; exact Ez).
  assert (Pt : prefixb (t ++ [ch]) tr = true).
  { apply firstn_prefix; [exact Pc|]. pose proof (prefix_length _ _ (common_greatest cs t Ne Pre)). rewrite app_length. cbn [length]. lia. }
  pose proof (prefix_length _ _ Pt) as Qt. rewrite app_length in Qt. cbn [length] in Qt.
  destruct (Nat.le_gt_cases (d_insize (o_desc s)) (length B + S (length t))) as [Hi|Hi].
  { destruct B as [|b0 B'] eqn:EB.
    { destruct (opt_around k t s0 s evs lc ch z Tb Hw Nc Ez Hi) as (s1 & Oc & Tb1 & En1 & Sf1 & Pv1). exists s1. split; [exact Oc|]. cbn [length] in Hi.
      apply (Qb eq_refl ltac:(rewrite Dd in Hi; lia) evs). exists [], (Some lc). split; [exact Tb1|]. split; [intros []|]. split; [exact En1|]. rewrite Sf1, Pv1, Na. cbn [length].
      split; [lia|]. split; [lia|]. rewrite Ec. apply cand_few. }
    rewrite <- EB in *. assert (Bn : B <> []) by (rewrite EB; discriminate).
    destruct (opt_wrap k B t s0 s evs lc ch z Tb Hw Nc Ez (proj2 Pl) Bn Hi) as (s1 & Oc & Lw & C1 & S1 & S2 & S3 & S4 & S5). exists s1. split; [exact Oc|].
    apply Qs. apply (enum_lost e S_AC_OPTIMISE (length B) own w cwd s1); auto; [right; left; reflexivity|eapply knows_core; eauto]. }
  destruct (opt_more k B t s0 s evs lc ch z Tb Hw Nc Ez Hi) as (s1 & Oc1 & Tb1 & En1 & Sf1 & Pv1). rewrite Na in Pv1. exists s1. split; [exact Oc1|].
  assert (Nt1 : no_nul (t ++ [ch])) by (intros I; apply (proj2 Pl); eapply prefix_In; eauto).
  destruct (Nat.le_gt_cases (d_pathmax (o_desc s0)) (length (full_text cwd (t ++ [ch])))) as [Hp|Hp].
  { pose proof Tb1 as (C1 & _). apply Qs. apply (enum_long e S_AC_OPTIMISE (length B) (t ++ [ch]) own w cwd s1 (Some lc)); auto.
    - eapply tabbing_word; eauto.
    - right; left; reflexivity.
    - eapply knows_core; eauto.
    - replace (o_desc s1) with (o_desc s0) by (unfold core in C1; congruence). exact Hp. }
  destruct (enum_tab e own w cwd s0 k B (t ++ [ch]) s1 evs S_AC_OPTIMISE (Some lc) G Tb1 Nt1 Hp) as (s2 & Wk & Tb2 & St2 & Ac2 & Cd2 & Pv2 & Sf2 & Pc2); [right; left; reflexivity|exact En1|].
  change (shown S_AC_OPTIMISE _) with (@nil byte) in Tb2. cbn [map] in Tb2. rewrite app_nil_r in Tb2.
  assert (Fl : candidates w cwd (t ++ [ch]) = filter (prefixb (t ++ [ch])) cs).
  { rewrite Ec. unfold candidates, t. rewrite <- app_assoc. rewrite filter_narrow. reflexivity. }
  rewrite Fl in *.
  assert (Lc2 : o_accand s2 = Some lc).
  { rewrite Cd2. assert (I : In lc (filter (prefixb (t ++ [ch])) cs)) by (apply filter_In; auto).
    assert (Q2 : last_of c (filter (prefixb (t ++ [ch])) cs) = Some lc) by (apply last_of_filter; auto).
    destruct (filter (prefixb (t ++ [ch])) cs); [destruct I|exact Q2]. }
  assert (Pv : o_acprevc s2 = length cs) by (rewrite Pc2; exact Pv1).
  destruct (Nat.ltb_spec (o_account s2) (o_acprevc s2)) as [Hc|Hc].
  { exfalso. assert (Ct : common cs = t).
    { apply (common_stop cs t lc); auto. right. exists ch, z. split; [exact Ez|]. intros Z. rewrite Z in Ac2. lia. }
    assert (Et : tr = t ++ [ch]). { unfold tr. rewrite Ct, Ez. rewrite firstn_app, firstn_all2 by lia. replace (S (length t) - length t) with 1 by lia. reflexivity. }
    apply Nr. rewrite Et. split; [exact Hp|]. rewrite app_length. cbn [length]. rewrite Dd in Hi. lia. }
  assert (Full : filter (prefixb (t ++ [ch])) cs = cs) by (apply filter_full; lia).
  assert (Es' : t ++ [ch] = w0 ++ (suf ++ [ch])) by (unfold t; rewrite <- app_assoc; reflexivity).
  destruct (IH (length lc - length (w0 ++ (suf ++ [ch])))) with (suf := suf ++ [ch]) (s := s2) (evs := evs) as (s3 & Oc & Sk); auto.
  { rewrite <- Es', app_length. cbn [length]. lia. }
  { intros n I. rewrite <- Es'. apply (filter_all_in _ _ _ Full n I). }
  { rewrite <- Es'. exact Tb2. }
  { rewrite <- Es'. exact Hp. }
  { rewrite Ac2, Full. reflexivity. }
  eapply Qw; [exact Wk|]. eapply Qw; [|exact Sk]. pose proof Tb2 as (C2 & _). apply at_finish; auto; [unfold core in C2; congruence|unfold core in C2; congruence|].
  unfold ush_autocomp_state_candidates_finish. rewrite Pv2. apply Nat.ltb_ge in Hc. rewrite Hc. exact Oc.
Qed.

Lemma took_stuck : forall e c s s1 x, took e c s s1 -> stuck e x s1 -> fails e c s x.
Proof. intros e c s s1 x (P & b & sa & Sv & Wk) Sk. split; [exact P|]. exists b, sa. split; [exact Sv|]. eapply works_stuck; eauto. Qed.

Lemma C30_overflow_proof : forall e own w cwd k l s, let cs := candidates w cwd (last_word l) in at_tab own w cwd k l s ->
  before_word l <> [] \/ length (tried (last_word l) cs) < d_insize (o_desc s) \/ length cs < 2 -> ~ tab_room (o_desc s) cwd l cs -> fails e TAB s EOob.
Proof.
  intros e own w cwd k l s cs At Nb Nr.
  destruct (Nat.le_gt_cases (d_pathmax (o_desc s)) (length (full_text cwd (last_word l)))) as [Hp|Hp].
  { destruct (tab_start e _ _ _ _ _ _ At) as (s1 & Tk & G & Tb & N & En). pose proof G as (Kn & Cw & T & Cf & Cu). pose proof Tb as (C & _). eapply took_stuck; [exact Tk|].
    apply (enum_long e S_AC_COUNT (length (before_word l)) (last_word l) own w cwd s1 (o_accand s)); auto.
    - eapply tabbing_word; eauto.
    - left; reflexivity.
    - eapply knows_core; eauto.
    - replace (o_desc s1) with (o_desc s) by (unfold core in C; congruence). exact Hp. }
  destruct cs as [|n [|n2 r]] eqn:E.
  - exfalso. apply Nr. split; [exact Hp|]. destruct At as (_ & _ & (_ & _ & _ & r & Ib) & (B1 & _) & _). cbn [tried].
    rewrite <- B1, Ib, app_length. rewrite (before_last l) at 3. rewrite app_length. cbn [length]. lia.
  - apply (C30_over_proof e own w cwd k l s n At Hp E). destruct (Nat.le_gt_cases (d_insize (o_desc s)) (length (before_word l) + length n)); [assumption|]. exfalso. apply Nr. split; assumption.
  - rewrite <- E in *. assert (L2 : 2 <= length cs) by (rewrite E; cbn [length]; lia). assert (Nn : cs <> []) by (rewrite E; discriminate).
    destruct (tab_count e _ _ _ _ _ _ At Hp) as (s1 & Tk & G & Tb & N & St & Pv & Ac & Cd & Cu & Cf). fold cs in Ac, Cd.
    destruct (tried_many (last_word l) cs L2) as (Tm1 & Tm2).
    assert (Tb' : tabbing k (before_word l) (last_word l ++ []) s (set_acsuf 0 s1) [EvIn TAB]) by (rewrite app_nil_r; exact Tb).
    destruct (extend_fails e own w cwd s k (before_word l) (last_word l) cs (last cs []) (o_accand s) G eq_refl (last_of_last cs _ Nn) (last_in cs Nn) L2) with (Q := stuck e EOob) (m := length (last cs []) - length (last_word l ++ [])) (suf := @nil byte) (s := set_acsuf 0 s1) (evs := [EvIn TAB]) as (s2 & Oc & Sk); auto.
    { rewrite <- Tm2. intros (X & Y). apply Nr. split; [rewrite Tm1; exact X|exact Y]. }
    { intros s2 s3 Wk Sk. eapply works_stuck; eauto. }
    { rewrite <- Tm2. intros Z Lt. exfalso. destruct Nb as [Nb|[Nb|Nb]]; [congruence|lia|lia]. }
    { intros m I. rewrite app_nil_r. apply filter_In in I. apply I. }
    { rewrite app_nil_r. exact Hp. }
    { change (o_accand s1 = Some (last cs [])). rewrite Cd. apply last_of_last. exact Nn. }
    eapply took_stuck; [eapply took_works; [exact Tk|]|exact Sk]. apply at_finish; auto.
    unfold ush_autocomp_state_candidates_finish. rewrite Pv, Ac. destruct (length cs) as [|[|q]] eqn:Lc; [lia|lia|]. exact Oc.
Qed.

(** ** TAB that does not come to an end *)

(** [quiet] with the number of service calls. *)
Inductive quiet_in (e : env) : nat -> st -> st -> Prop :=
| quiet_in_here : forall s, polling s -> quiet_in e 0 s s
| quiet_in_step : forall n s b s1 s2, ~ polling s -> ush_service (tick e None) s = Ok (b, s1) -> quiet_in e n s1 s2 -> quiet_in e (S n) s s2.
Lemma quiet_count : forall e s s', quiet e s s' -> exists n, quiet_in e n s s'.
Proof. intros e s s' Q. induction Q as [s P|s b s1 s2 N E Q (n & IH)]; [exists 0; constructor; exact P|]. exists (S n). econstructor; eauto. Qed.
Lemma works_in : forall e s s1, works e s s1 -> forall n s', quiet_in e n s s' -> exists m, quiet_in e m s1 s' /\ (m < n \/ s1 = s).
Proof.
  intros e s s1 W. induction W as [s|s b s1 s2 N E W IH]; intros n s' Q; [exists n; auto|].
  inversion Q as [? P|m ? b' s1' ? N' E' Q']; subst; [contradiction|]. assert (s1' = s1) by congruence. subst s1'.
  destruct (IH m s' Q') as (j & Qj & D). exists j. split; [exact Qj|]. left. destruct D as [D| ->]; [lia|].
  assert (U : forall a b u v, quiet_in e a u v -> quiet_in e b u v -> a = b).
  { clear. intros a b u v H. revert b. induction H as [s P|n s x s1 s2 N E H IH]; intros b H2; inversion H2 as [? P2|m ? y s3 ? N2 E2 H3]; subst; auto; try contradiction.
    f_equal. apply IH. assert (s3 = s1) by congruence. subst s3. exact H3. }
  rewrite (U _ _ _ _ Qj Q'). lia.
Qed.
Lemma stuck_quiet : forall e x s s', stuck e x s -> ~ quiet e s s'.
Proof.
  intros e x s s' H. induction H as [s N E|s b s1 N E H IH]; intros Q; inversion Q as [? P|? b' s1' ? N' E' Q']; subst; try contradiction; [congruence|].
  apply IH. assert (s1' = s1) by congruence. subst s1'. exact Q'.
Qed.

(** In front of the end of the word there is nothing to print. *)
Lemma recall_stuck : forall e k t s0 s evs own w cwd, ground own w cwd s0 -> tabbing k [] t s0 s evs -> no_nul t -> o_state s = S_AC_RECALL_SUFFIX -> length t < o_acsuf s -> stuck e EOob s.
Proof.
  intros e k t s0 s evs own w cwd G Tb N St L. destruct (tabbing_env _ _ _ _ _ _ _ _ _ Tb G) as (Cu & Cf). destruct Tb as (_ & _ & _ & Ai & (r & Ib) & _).
  apply stuck_here; [apply np; rewrite St; discriminate|]. rewrite service_eq. destruct (o_cur s); [|congruence]. unfold svc. rewrite St, Cf. unfold ush_autocomp_service. rewrite St.
  unfold ush_autocomp_state_recall_suffix, ac_input. rewrite Ai, Ib. cbn [app length]. rewrite c_str_0 by exact N. cbn [bind Nat.add]. apply Nat.ltb_lt in L. rewrite L. reflexivity.
Qed.

(** One round: the word [t] is counted, then it is cut, given up or extended. *)
Definition surplus_at (k : nat) (s0 : st) (evs : list event) (t : bytes) (n : nat) (s : st) : Prop :=
  exists c, tabbing k [] t s0 s evs /\ no_nul t /\ enum s = (S_AC_OPTIMISE, 0, o_cmds s, 0, 0, 0, c) /\ length t < o_acsuf s /\ o_acprevc s = n.
Lemma surplus_round : forall e own w cwd k s0 evs t n s, ground own w cwd s0 -> surplus_at k s0 evs t n s -> 1 <= n <= length (candidates w cwd []) ->
  length (full_text cwd t) < d_pathmax (o_desc s0) -> let cs := candidates w cwd t in
  exists s1, works e s s1 /\ o_state s1 = S_AC_FINISH /\ exists s2, ush_service (tick e None) s1 = Ok (true, s2) /\
    ((length cs < n \/ length (last cs []) <= length t) /\ stuck e EOob s2 \/
     exists ch z, cs <> [] /\ last cs [] = t ++ ch :: z /\ surplus_at k s0 evs (if d_insize (o_desc s0) <=? S (length t) then [] else t ++ [ch]) (length cs) s2).
Proof.
  intros e own w cwd k s0 evs t n s G (c & Tb & Nt & En & Sf & Pv) Hn Hp cs. pose proof G as (Kn & Cw & T & Cf & Cu). pose proof Tb as (C & _).
  destruct (enum_tab e own w cwd s0 k [] t s evs S_AC_OPTIMISE c G Tb Nt Hp) as (s2 & Wk & Tb2 & St2 & Ac2 & Cd2 & Pr2 & Sf2 & Pc2); [right; left; reflexivity|exact En|]. fold cs in Ac2, Cd2.
  change (shown S_AC_OPTIMISE _) with (@nil byte) in Tb2. cbn [map] in Tb2. rewrite app_nil_r in Tb2. rewrite <- Sf2 in Sf. rewrite Pv in Pc2. clear Sf2 Pv.
  pose proof (tabbing_word _ _ _ _ _ _ Tb2 Nt Cu Cf) as Hw. destruct (tabbing_env _ _ _ _ _ _ _ _ _ Tb2 G) as (Cu2 & Cf2).
  exists s2. split; [exact Wk|]. split; [exact St2|].
  assert (Fin : forall s3, ush_autocomp_state_candidates_finish s2 = Ok s3 -> ush_service (tick e None) s2 = Ok (true, s3)).
  { intros s3 F. rewrite service_eq. destruct (o_cur s2); [|congruence]. unfold svc. rewrite St2, Cf2. unfold ush_autocomp_service. rewrite St2, F. reflexivity. }
  assert (Dd : o_desc s2 = o_desc s0) by (destruct Tb2 as (C2 & _); unfold core in C2; congruence).
  destruct (o_account s2 <? o_acprevc s2) eqn:Hc.
  { pose proof Hc as Hc'. apply Nat.ltb_lt in Hc'. rewrite Ac2, Pc2 in Hc'. destruct t as [|t0 t']; [exfalso; unfold cs in Hc'; lia|].
    destruct (exists_last (l := t0 :: t') ltac:(discriminate)) as (u & ch & Eu). rewrite Eu in *. clear Eu.
    pose proof Tb2 as (C2 & Bo2 & Es2 & Ai2 & (r & Ib) & Ip & Lg). cbn [app] in Ib, Ip. rewrite app_length in Ip, Sf. cbn [length] in Ip, Sf.
    destruct (o_acsuf s2) as [|q] eqn:Eq; [lia|].
    assert (Wr : wr (inb s2) (length u) NUL = Ok (u ++ NUL :: NUL :: r)) by (rewrite Ib, <- app_assoc; cbn [app]; apply wr_app; reflexivity).
    exists (set_state S_AC_RECALL_SUFFIX (set_acsuf q (set_inpos (length u) (set_inb (u ++ NUL :: NUL :: r) s2)))). split.
    { apply Fin. unfold ush_autocomp_state_candidates_finish. rewrite Pr2, Hc, Ip. replace (length u + 1 - 1) with (length u) by lia. cbv zeta. rewrite Wr. cbn [bind]. rewrite Eq. reflexivity. }
    left. split; [left; exact Hc'|]. eapply (recall_stuck e k u s0 _ evs own w cwd G).
    - split; [exact C2|]. split.
      { unfold bufs_ok in *. sfields. rewrite Ib in Bo2. rewrite !app_length in *. cbn [length] in *. lia. }
      split; [exact Es2|]. split; [exact Ai2|]. split; [exists (NUL :: r); reflexivity|]. split; [reflexivity|exact Lg].
    - intros I. apply Nt. apply in_app_iff. left; exact I.
    - reflexivity.
    - sfields. lia. }
  pose proof Hc as Hc'. apply Nat.ltb_ge in Hc'. rewrite Ac2, Pc2 in Hc'.
  assert (Ne : cs <> []) by (intros Z; rewrite Z in Hc'; cbn [length] in Hc'; lia).
  assert (Nc : o_accand s2 = Some (last cs [])) by (rewrite Cd2; apply last_of_last; exact Ne).
  assert (Il : In (last cs []) cs) by (apply last_in; exact Ne).
  assert (Pl : prefixb t (last cs []) = true) by (apply filter_In in Il; apply Il).
  assert (Pn : plain_comp (last cs [])) by (destruct Kn as ((Fo & _) & _); eapply cand_plain; eauto).
  assert (Fe : ush_autocomp_state_candidates_finish s2 = ush_autocomp_optimize_continue s2) by (unfold ush_autocomp_state_candidates_finish; rewrite Pr2, Hc; reflexivity).
  destruct (Nat.leb_spec (length (last cs [])) (length t)) as [Hl|Hl].
  { exists (set_state S_AC_RECALL_SUFFIX (set_acprevc (o_account s2) s2)). split; [apply Fin; rewrite Fe; eapply opt_stop; eauto|].
    left. split; [right; exact Hl|]. eapply (recall_stuck e k t s0 _ evs own w cwd G); [exact Tb2|exact Nt|reflexivity|exact Sf]. }
  apply prefixb_spec in Pl as (z & Ez). destruct z as [|ch z]; [rewrite Ez, app_nil_r in Hl; lia|].
  destruct (Nat.leb_spec (d_insize (o_desc s0)) (S (length t))) as [Hi|Hi].
  - rewrite <- Dd in Hi. destruct (opt_around k t s0 s2 evs _ ch z Tb2 Hw Nc Ez Hi) as (s3 & Oc & Tb3 & En3 & Sf3 & Pv3). exists s3. split; [apply Fin; rewrite Fe; exact Oc|].
    right. exists ch, z. split; [exact Ne|]. split; [exact Ez|]. exists (Some (last cs [])). split; [exact Tb3|]. split; [intros []|]. split; [exact En3|]. cbn [length]. rewrite Sf3, Pv3, Ac2. split; [lia|reflexivity].
  - rewrite <- Dd in Hi. destruct (opt_more k [] t s0 s2 evs _ ch z Tb2 Hw Nc Ez Hi) as (s3 & Oc & Tb3 & En3 & Sf3 & Pv3). exists s3. split; [apply Fin; rewrite Fe; exact Oc|].
    right. exists ch, z. split; [exact Ne|]. split; [exact Ez|]. exists (Some (last cs [])). split; [exact Tb3|]. split.
    { intros I. apply (proj2 Pn). rewrite Ez. apply in_app_iff in I as [I|[I|[]]]; apply in_app_iff; [left; exact I|right; left; exact I]. }
    split; [exact En3|]. rewrite Sf3, Pv3, Ac2, app_length. cbn [length]. split; [lia|reflexivity].
Qed.

Lemma surplus_never : forall e own w cwd k s0 evs, ground own w cwd s0 -> forall n s s', surplus w cwd k s0 evs s -> ~ quiet_in e n s s'.
Proof.
  intros e own w cwd k s0 evs G n. induction n as [n IH] using lt_wf_ind. intros s s' (t & c & Tb & Nt & En & Sf & Pv) Q.
  assert (Sq : forall j u, quiet_in e j u s' -> quiet e u s') by (intros j u H; induction H; [constructor; assumption|econstructor; eauto]).
  pose proof G as (Kn & Cw & T & Cf & Cu). pose proof Tb as (C & _).
  destruct (Nat.le_gt_cases (d_pathmax (o_desc s0)) (length (full_text cwd t))) as [Hp|Hp].
  { apply (stuck_quiet e EOob s s'); [|eapply Sq; exact Q]. apply (enum_long e S_AC_OPTIMISE 0 t own w cwd s c); auto.
    - eapply (tabbing_word k []); eauto.
    - right; left; reflexivity.
    - eapply knows_core; eauto.
    - replace (o_desc s) with (o_desc s0) by (unfold core in C; congruence). exact Hp. }
  destruct (surplus_round e own w cwd k s0 evs t (o_acprevc s) s G) as (s1 & Wk & St & s2 & Sv & D); [exists c; auto 6|exact Pv|exact Hp|].
  destruct (works_in e s s1 Wk n s' Q) as (m & Qm & Lm). destruct Lm as [Lm| ->]; [|en En; congruence].
  inversion Qm as [? P|j ? b' s2' ? N' E' Q']; subst; [unfold polling in P; congruence|]. assert (s2' = s2) by congruence. subst s2'.
  destruct D as [(_ & Sk)|(ch & z & Ne & _ & (c' & Tb' & Nt' & En' & Sf' & Pv'))]; [eapply stuck_quiet; [exact Sk|eapply Sq; exact Q']|].
  apply (IH j ltac:(lia) s2 s'); [|exact Q']. eexists _, c'. split; [exact Tb'|]. split; [exact Nt'|]. split; [exact En'|]. split; [exact Sf'|]. rewrite Pv'.
  split; [|apply cand_few]. destruct (candidates w cwd t); [congruence|cbn [length]; lia].
Qed.

Lemma took_never : forall e c s s1 s', took e c s s1 -> (forall s2, ~ quiet e s1 s2) -> ~ fed e [c] s s'.
Proof.
  intros e c s s1 s' (P & b & sa & Sv & Wk) N F. inversion F as [|? ? ? b' sb sc ? P' Sv' Q _]; subst. assert (sb = sa) by congruence. subst sb.
  apply (N sc). apply (works_quiet e sa s1 Wk sc). exact Q.
Qed.

Lemma C30_exact_proof : forall e own w cwd k l s, at_tab own w cwd k l s -> ((exists s', fed e [TAB] s s') <-> tab_room (o_desc s) cwd l (candidates w cwd (last_word l))).
Proof.
  intros e own w cwd k l s At. set (cs := candidates w cwd (last_word l)). split.
  2:{ intros R. destruct (C30_fits_proof e own w cwd k l s At R) as (out & u & s' & (F & _) & _). eauto. }
  intros (s' & F). destruct (Nat.ltb (length (full_text cwd (probed (last_word l) cs))) (d_pathmax (o_desc s)) && Nat.ltb (length (before_word l) + length (tried (last_word l) cs)) (d_insize (o_desc s))) eqn:Rm.
  { apply andb_true_iff in Rm as (R1 & R2). split; apply Nat.ltb_lt; assumption. }
  exfalso. assert (Nr : ~ tab_room (o_desc s) cwd l cs) by (intros (R1 & R2); apply Nat.ltb_lt in R1, R2; rewrite R1, R2 in Rm; discriminate). clear Rm.
  assert (Fl : fails e TAB s EOob -> False).
  { intros (P & b & sa & Sv & Sk). inversion F as [|? ? ? b' sb sc ? P' Sv' Q _]; subst. assert (sb = sa) by congruence. subst sb. exact (stuck_quiet _ _ _ _ Sk Q). }
  destruct (Nat.le_gt_cases (d_pathmax (o_desc s)) (length (full_text cwd (last_word l)))) as [Hp|Hp].
  { destruct (tab_start e _ _ _ _ _ _ At) as (s1 & Tk & G & Tb & N & En). pose proof G as (Kn & Cw & T & Cf & Cu). pose proof Tb as (C & _). apply Fl. eapply took_stuck; [exact Tk|].
    apply (enum_long e S_AC_COUNT (length (before_word l)) (last_word l) own w cwd s1 (o_accand s)); auto.
    - eapply tabbing_word; eauto.
    - left; reflexivity.
    - eapply knows_core; eauto.
    - replace (o_desc s1) with (o_desc s) by (unfold core in C; congruence). exact Hp. }
  destruct (Nat.lt_ge_cases (length cs) 2) as [L2|L2].
  { apply Fl. apply (C30_overflow_proof e own w cwd k l s At); [right; right; exact L2|exact Nr]. }
  assert (Nn : cs <> []) by (intros Z; rewrite Z in L2; cbn [length] in L2; lia).
  destruct (tab_count e _ _ _ _ _ _ At Hp) as (s1 & Tk & G & Tb & N & St & Pv & Ac & Cd & Cu & Cf). fold cs in Ac, Cd.
  destruct (tried_many (last_word l) cs L2) as (Tm1 & Tm2).
  assert (Tb' : tabbing k (before_word l) (last_word l ++ []) s (set_acsuf 0 s1) [EvIn TAB]) by (rewrite app_nil_r; exact Tb).
  destruct (extend_fails e own w cwd s k (before_word l) (last_word l) cs (last cs []) (o_accand s) G eq_refl (last_of_last cs _ Nn) (last_in cs Nn) L2) with (Q := fun u => forall s2, ~ quiet e u s2) (m := length (last cs []) - length (last_word l ++ [])) (suf := @nil byte) (s := set_acsuf 0 s1) (evs := [EvIn TAB]) as (s2 & Oc & Sk); auto.
  { rewrite <- Tm2. intros (X & Y). apply Nr. split; [rewrite Tm1; exact X|exact Y]. }
  { intros u Sk s2. eapply stuck_quiet; exact Sk. }
  { intros u v Wk H s2 Q. apply (H s2). apply (works_quiet e u v Wk s2). exact Q. }
  { intros _ _ evs u Su s2 Q. destruct (quiet_count _ _ _ Q) as (n & Qn). exact (surplus_never e own w cwd k s evs G n u s2 Su Qn). }
  { intros m I. rewrite app_nil_r. apply filter_In in I. apply I. }
  { rewrite app_nil_r. exact Hp. }
  { change (o_accand s1 = Some (last cs [])). rewrite Cd. apply last_of_last. exact Nn. }
  eapply took_never; [eapply took_works; [exact Tk|]|exact Sk|exact F]. apply at_finish; auto.
  unfold ush_autocomp_state_candidates_finish. rewrite Pv, Ac. destruct (length cs) as [|[|q]] eqn:Lc; [lia|lia|]. exact Oc.
Qed.

(** All names begin with the same text, and it does not fit the buffer. *)
Definition turning (k : nat) (s0 : st) (evs : list event) (t : bytes) (n : nat) (s : st) : Prop :=
  exists c, tabbing k [] t s0 s evs /\ no_nul t /\ enum s = (S_AC_OPTIMISE, 0, o_cmds s, 0, 0, 0, c) /\ o_acprevc s = n.

Lemma common_cand : forall w cwd x t, candidates w cwd x = names_in w cwd -> names_in w cwd <> [] -> prefixb t (common (names_in w cwd)) = true -> candidates w cwd t = names_in w cwd.
Proof.
  intros w cwd x t E N P. unfold candidates. assert (H : forall n, In n (names_in w cwd) -> prefixb t n = true) by (intros n I; eapply prefixb_trans; [exact P|apply common_prefix; exact I]).
  induction (names_in w cwd) as [|n r IH]; [reflexivity|]. clear - H. revert n H. induction r as [|m r IH]; intros n H; cbn [filter]; rewrite (H n) by (left; reflexivity); [reflexivity|].
  f_equal. apply IH. intros q I. apply H. right; exact I.
Qed.

Lemma turn_more : forall k s0 evs t cs s, let lc := last cs [] in 2 <= length cs -> tabbing k [] t s0 s evs -> has_word 0 t s -> o_accand s = Some lc -> o_account s = length cs -> no_nul lc ->
  prefixb t (common cs) = true -> d_insize (o_desc s0) <= length (firstn (S (length (common cs))) lc) ->
  exists s1 t', ush_autocomp_optimize_continue s = Ok s1 /\ turning k s0 evs t' (length cs) s1 /\ prefixb t' (common cs) = true.
Proof.
  intros k s0 evs t cs s lc L2 Tb Hw Nc Na Nl Pt Li. assert (Ne : cs <> []) by (intros Z; rewrite Z in L2; cbn [length] in L2; lia).
  assert (Il : In lc cs) by (apply last_in; exact Ne). pose proof Tb as (C & (B1 & _) & _ & _ & (r & Ib) & _). cbn [app] in Ib.
  assert (Dd : o_desc s = o_desc s0) by (unfold core in C; congruence).
  assert (Fit : length t < d_insize (o_desc s0)) by (rewrite <- Dd, <- B1, Ib, app_length; cbn [length]; lia).
  pose proof (prefixb_trans _ _ _ Pt (common_prefix cs lc Il)) as Pl. pose proof (firstn_le_length (S (length (common cs))) lc) as Lf.
  apply prefixb_spec in Pl as (z & Ez). destruct z as [|ch z]; [rewrite app_nil_r in Ez; rewrite Ez, firstn_length in Li; lia|]. clear Lf.
  destruct (Nat.le_gt_cases (d_insize (o_desc s)) (S (length t))) as [Hi|Hi].
  - destruct (opt_around k t s0 s evs lc ch z Tb Hw Nc Ez Hi) as (s1 & Oc & Tb1 & En1 & Sf1 & Pv1). exists s1, []. split; [exact Oc|]. split; [|reflexivity].
    exists (Some lc). split; [exact Tb1|]. split; [intros []|]. split; [exact En1|]. congruence.
  - destruct (opt_more k [] t s0 s evs lc ch z Tb Hw Nc Ez Hi) as (s1 & Oc & Tb1 & En1 & Sf1 & Pv1). exists s1, (t ++ [ch]). split; [exact Oc|]. split.
    + exists (Some lc). split; [exact Tb1|]. split.
      { intros I. apply Nl. rewrite Ez. apply in_app_iff in I as [I|[I|[]]]; apply in_app_iff; [left; exact I|right; left; exact I]. }
      split; [exact En1|]. congruence.
    + pose proof (common_prefix cs lc Il) as Pc. apply prefixb_spec in Pt as (y & Ey). apply prefixb_spec in Pc as (y' & Ey').
      assert (Hy : y <> []). { intros ->. rewrite app_nil_r in Ey. rewrite Ey, firstn_length in Li. rewrite Dd in Hi. cbn [length] in Hi. lia. }
      destruct y as [|c0 y]; [congruence|]. rewrite Ey, <- app_assoc in Ey'. rewrite Ez in Ey'. apply app_inv_head in Ey'. cbn [app] in Ey'. injection Ey' as <- _.
      apply prefixb_spec. exists y. rewrite Ey, <- app_assoc. reflexivity.
Qed.

Lemma works_serves : forall e s s1, works e s s1 -> exists n, serves e n s s1.
Proof. intros e s s1 W. induction W as [s|s b s1 s2 N E W (n & IH)]; [exists 0; constructor|]. exists (S n). econstructor; eauto. Qed.
Lemma serves_app : forall e n s s1, serves e n s s1 -> forall m s2, serves e m s1 s2 -> serves e (n + m) s s2.
Proof. intros e n s s1 H. induction H as [|n s b s1 s2 N E H IH]; intros m s3 H3; [exact H3|]. cbn [Nat.add]. econstructor; eauto. Qed.
Lemma serves_less : forall e n s s2, serves e n s s2 -> forall m, m <= n -> exists s1, serves e m s s1 /\ serves e (n - m) s1 s2.
Proof.
  intros e n s s2 H. induction H as [s|n s b s1 s2 N E H IH]; intros m L.
  - assert (m = 0) by lia. subst m. exists s. split; constructor.
  - destruct m as [|m]; [exists s; split; [constructor|]; econstructor; eauto|]. destruct (IH m ltac:(lia)) as (s3 & A & B). exists s3. split; [econstructor; eauto|exact B].
Qed.

Lemma turn_round : forall e own w cwd k s0 evs t s, let cs := names_in w cwd in ground own w cwd s0 -> (exists x, candidates w cwd x = cs) -> 2 <= length cs ->
  d_insize (o_desc s0) <= length (firstn (S (length (common cs))) (last cs [])) -> length (full_text cwd (common cs)) < d_pathmax (o_desc s0) ->
  turning k s0 evs t (length cs) s -> prefixb t (common cs) = true ->
  exists s1 t' n, serves e (S n) s s1 /\ turning k s0 evs t' (length cs) s1 /\ prefixb t' (common cs) = true.
Proof.
  intros e own w cwd k s0 evs t s cs G (x & Ex) L2 Li Lp (c & Tb & Nt & En & Pv) Pt. pose proof G as (Kn & Cw & T & Cf & Cu).
  assert (Fo : fs_ok (w_fs w)) by (destruct Kn as ((Fo & _) & _); exact Fo).
  assert (Ne : cs <> []) by (intros Z; rewrite Z in L2; cbn [length] in L2; lia).
  assert (Ec : candidates w cwd t = cs) by (eapply common_cand; eauto).
  assert (Pn : plain_comp (last cs [])) by (eapply cand_plain; [exact Fo|exact T|rewrite Ex; apply last_in; exact Ne]).
  assert (Pcc : plain_comp (common cs)).
  { pose proof (common_prefix cs _ (last_in cs Ne)) as P. destruct Pn as (P1 & P2). split; intros I; [apply P1|apply P2]; eapply prefix_In; eauto. }
  assert (Hp : length (full_text cwd t) < d_pathmax (o_desc s0)) by (pose proof (full_text_mono cwd t _ Pcc Pt); lia).
  destruct (enum_tab e own w cwd s0 k [] t s evs S_AC_OPTIMISE c G Tb Nt Hp) as (s2 & Wk & Tb2 & St2 & Ac2 & Cd2 & Pr2 & Sf2 & Pc2); [right; left; reflexivity|exact En|]. rewrite Ec in Ac2, Cd2.
  change (shown S_AC_OPTIMISE _) with (@nil byte) in Tb2. cbn [map] in Tb2. rewrite app_nil_r in Tb2.
  pose proof (tabbing_word _ _ _ _ _ _ Tb2 Nt Cu Cf) as Hw. destruct (tabbing_env _ _ _ _ _ _ _ _ _ Tb2 G) as (Cu2 & Cf2).
  destruct (turn_more k s0 evs t cs s2 L2 Tb2 Hw) as (s3 & t' & Oc & Tu & Pt'); auto.
  { rewrite Cd2. apply last_of_last. exact Ne. }
  { exact (proj2 Pn). }
  destruct (works_serves _ _ _ Wk) as (n & Sn). exists s3, t', n. split; [|auto].
  replace (S n) with (n + 1) by lia. eapply serves_app; [exact Sn|]. eapply serves_one; [apply np; rewrite St2; discriminate| |constructor].
  rewrite service_eq. destruct (o_cur s2); [|congruence]. unfold svc. rewrite St2, Cf2. unfold ush_autocomp_service. rewrite St2. unfold ush_autocomp_state_candidates_finish. rewrite Pr2, Pc2, Pv, Ac2, Nat.ltb_irrefl, Oc. reflexivity.
Qed.

Lemma C30_endless_proof : forall e own w cwd k l s, let cs := names_in w cwd in at_tab own w cwd k l s -> before_word l = [] -> candidates w cwd (last_word l) = cs -> 2 <= length cs ->
  d_insize (o_desc s) <= length (tried (last_word l) cs) -> length (full_text cwd (common cs)) < d_pathmax (o_desc s) -> endless e TAB s.
Proof.
  intros e own w cwd k l s cs At Bw Ec L2 Li Lp. assert (Nn : cs <> []) by (intros Z; rewrite Z in L2; cbn [length] in L2; lia).
  destruct (tried_many (last_word l) cs L2) as (_ & Tm2). rewrite Tm2 in Li.
  assert (Px : prefixb (last_word l) (common cs) = true) by (apply common_greatest; [exact Nn|]; intros n I; rewrite <- Ec in I; apply filter_In in I; apply I).
  pose proof At as (Kn & Cw & _ & _ & _ & T & _). assert (Fo : fs_ok (w_fs w)) by (destruct Kn as ((Fo & _) & _); exact Fo).
  assert (Pn : plain_comp (last cs [])) by (eapply cand_plain; [exact Fo|exact T|rewrite Ec; apply last_in; exact Nn]).
  assert (Pcc : plain_comp (common cs)).
  { pose proof (common_prefix cs _ (last_in cs Nn)) as P. destruct Pn as (P1 & P2). split; intros I; [apply P1|apply P2]; eapply prefix_In; eauto. }
  assert (Hp : length (full_text cwd (last_word l)) < d_pathmax (o_desc s)) by (pose proof (full_text_mono cwd _ _ Pcc Px); lia).
  destruct (tab_count e _ _ _ _ _ _ At Hp) as (s1 & Tk & G & Tb & N & St & Pv & Ac & Cd & Cu & Cf). rewrite Ec in Ac, Cd. rewrite Bw in Tb.
  assert (Tb' : tabbing k [] (last_word l) s (set_acsuf 0 s1) [EvIn TAB]) by exact Tb.
  destruct (turn_more k s [EvIn TAB] (last_word l) cs (set_acsuf 0 s1) L2 Tb') as (s2 & t & Oc & Tu & Pt); auto.
  { eapply (tabbing_word k []); eauto; destruct G as (_ & _ & _ & Cf' & Cu'); assumption. }
  { change (o_accand s1 = Some (last cs [])). rewrite Cd. apply last_of_last. exact Nn. }
  { exact (proj2 Pn). }
  assert (W2 : works e s1 s2).
  { apply at_finish; auto. unfold ush_autocomp_state_candidates_finish. rewrite Pv, Ac. destruct (length cs) as [|[|q]] eqn:Lc; [lia|lia|]. exact Oc. }
  pose proof (took_works _ _ _ _ _ Tk W2) as Tk2. destruct Tk2 as (P & b & sa & Sv & Wk). split; [exact P|]. exists b, sa. split; [exact Sv|].
  assert (Go : forall n u t', turning k s [EvIn TAB] t' (length cs) u -> prefixb t' (common cs) = true -> exists m v t'', n <= m /\ serves e m u v /\ turning k s [EvIn TAB] t'' (length cs) v).
  { induction n as [|n IH]; intros u t' Tu' Pt'; [exists 0, u, t'; split; [lia|]; split; [constructor|exact Tu']|].
    destruct (turn_round e own w cwd k s [EvIn TAB] t' u G (ex_intro _ _ Ec) L2 Li Lp Tu' Pt') as (v & t1 & j & Sj & Tv & P1).
    destruct (IH v t1 Tv P1) as (m & v2 & t2 & Lm & Sm & Tv2). exists (S j + m), v2, t2. split; [lia|]. split; [|exact Tv2]. eapply serves_app; [exact Sj|exact Sm]. }
  intros n. destruct (works_serves _ _ _ Wk) as (j & Sj). destruct (Go n s2 t Tu Pt) as (m & v & t2 & Lm & Sm & (c2 & Tv & _)).
  destruct (serves_less e (j + m) sa v (serves_app _ _ _ _ Sj _ _ Sm) n ltac:(lia)) as (s3 & A & B). exists s3. exact A.
Qed.
