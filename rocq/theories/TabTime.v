(** * TabTime: how many service calls completion takes (behind C65).

    The lemmas of CompleteFacts.v and CompleteProofs.v once more, now counting. *)
From Coq Require Import Arith Lia List.
From Verif Require Import Shell BaseFacts LogFacts Sched ServiceFacts SchedFacts Macro Editor EditFacts Words Line PromptFacts PhaseFacts SchedProofs Spec PathFacts CollapseFacts PathProofs Tree TreeFacts TreeOps Cmds CmdProofs Complete CompleteFacts CompleteProofs Session Time.

(** [pays a n s s']: at most [n] calls lead from [s] to [s'], none of which reads. *)
Definition pays (a : application) (n : nat) (s s' : st) : Prop := exists os, esteps a os s s' /\ somes os = [] /\ length os <= n.

Lemma pays_refl : forall a n s, pays a n s s.
Proof. intros. exists []. split; [constructor|]. split; [reflexivity|cbn; lia]. Qed.
Lemma pays_le : forall a n m s s', pays a n s s' -> n <= m -> pays a m s s'.
Proof. intros a n m s s' (os & A & B & C) L. exists os. split; [exact A|]. split; [exact B|lia]. Qed.
Lemma pays_trans : forall a n m s1 s2 s3, pays a n s1 s2 -> pays a m s2 s3 -> pays a (n + m) s1 s3.
Proof.
  intros a n m s1 s2 s3 (o1 & A1 & B1 & C1) (o2 & A2 & B2 & C2). exists (o1 ++ o2). split; [eapply esteps_app; eauto|]. split; [rewrite somes_app, B1, B2; reflexivity|].
  rewrite app_length. lia.
Qed.
Lemma pays_step : forall a n s b s1 s2, ~ polling s -> ush_service (tick (a (lg s)) None) s = Ok (b, s1) -> pays a n s1 s2 -> pays a (S n) s s2.
Proof.
  intros a n s b s1 s2 P H (os & A & B & C). exists (None :: os). split; [econstructor; [split; eauto|exact A]|]. split; [exact B|cbn; lia].
Qed.
Lemma pays_svc : forall a n s b s1 s2, o_cur s <> None -> ~ polling s -> svc (tick (a (lg s)) None) s = Ok (b, s1) -> pays a n s1 s2 -> pays a (S n) s s2.
Proof.
  intros a n s b s1 s2 C P H Q. eapply pays_step; eauto. rewrite service_eq. destruct (o_cur s); [exact H|congruence].
Qed.
Lemma pays_pending : forall a t s, o_cur s <> None -> pending s t -> pays a (S (length t)) s (set_state (o_wnext s) (delivered s t)).
Proof.
  intros a t. induction t as [|c t IH]; intros s C P.
  - eapply pays_step; [eapply pending_not_polling; eauto|apply pending_end; auto|]. rewrite delivered_nil, set_wpos_id. apply pays_refl.
  - eapply pays_step; [eapply pending_not_polling; eauto|apply (pending_step _ s c t C P)|].
    cbn [tick io_wr]. change (c :: t) with ([c] ++ t). rewrite <- delivered_app.
    apply (IH (delivered s [c])); auto. apply (pending_delivered s [c] t P).
Qed.
Lemma pays_wpb : forall a p t next s, o_cur s <> None -> points s p t -> pays a (S (length t)) (ush_write_pointer_bin p (length t) next s) (after_write p t next s).
Proof. intros a p t next s C H. exact (pays_pending a t (ush_write_pointer_bin p (length t) next s) C (pending_wpb p t next s H)). Qed.
Lemma pays_write_str : forall a t next s, o_cur s <> None -> pays a (S (length t)) (write_str t next s) (after_write (WStr t) t next s).
Proof. intros. apply pays_wpb; auto using points_WStr. Qed.

Definition goesn (a : application) (n : nat) (s : st) (t : bytes) (s' : st) : Prop := pays a n s s' /\ still s' = still s /\ lg s' = lg s ++ map EvOut t.
Lemma goesn_refl : forall a s, goesn a 0 s [] s.
Proof. intros. split; [apply pays_refl|]. split; [reflexivity|]. rewrite app_nil_r. reflexivity. Qed.
Lemma goesn_trans : forall a n m s x b y c, goesn a n s x b -> goesn a m b y c -> goesn a (n + m) s (x ++ y) c.
Proof.
  intros a n m s x b y c (W1 & K1 & L1) (W2 & K2 & L2). split; [eapply pays_trans; eauto|]. split; [congruence|].
  rewrite L2, L1, map_app, app_assoc. reflexivity.
Qed.
Lemma goesn_le : forall a n m s x b, goesn a n s x b -> n <= m -> goesn a m s x b.
Proof. intros a n m s x b (W1 & K1 & L1) L. split; [eapply pays_le; eauto|auto]. Qed.

Lemma acn_go : forall a s s1 off w, has_word off w s -> ac_state (o_state s) -> ush_autocomp_state_candidates_process s = Ok s1 -> pays a 1 s s1.
Proof.
  intros a s s1 off w (_ & _ & C & D) A E. eapply (pays_svc a 0 s true s1); [exact C| | |apply pays_refl].
  - intros P. unfold polling in P. destruct A as [A|[A|A]]; congruence.
  - unfold svc. destruct A as [A|[A|A]]; rewrite A, D; unfold ush_autocomp_service; rewrite A, E; reflexivity.
Qed.

Lemma acn_put : forall a x t s0, o_cur s0 <> None -> o_state s0 = x ->
  exists s2, pays a (S (length (shown x t))) (if fsm_eqb x S_AC_PRINT then write_str t x s0 else s0) s2 /\ still s2 = still s0 /\ enum s2 = enum s0 /\ lg s2 = lg s0 ++ map EvOut (shown x t).
Proof.
  intros a x t s0 C St. unfold shown. destruct (fsm_eqb x S_AC_PRINT).
  - exists (after_write (WStr t) t x s0). split; [apply pays_write_str; exact C|]. split; [reflexivity|]. split; [|reflexivity].
    unfold enum. rewrite St. reflexivity.
  - exists s0. split; [apply pays_refl|]. split; [reflexivity|]. split; [reflexivity|]. rewrite app_nil_r. reflexivity.
Qed.

Lemma acn_say : forall a x off w s s0 t, has_word off w s -> ac_state x -> o_state s = x -> o_state s0 = x -> still s0 = still s -> lg s0 = lg s ->
  ush_autocomp_state_candidates_process s = Ok (if fsm_eqb x S_AC_PRINT then write_str t x s0 else s0) ->
  exists s2, goesn a (2 + length (shown x t)) s (shown x t) s2 /\ enum s2 = enum s0.
Proof.
  intros a x off w s s0 t W A St S0 K L E.
  assert (C0 : o_cur s0 <> None) by (destruct (still_word _ _ _ _ K W) as (_ & _ & C & _); exact C).
  destruct (acn_put a x t s0 C0 S0) as (s2 & Wk & K2 & En & L2). exists s2. split; [|exact En]. split; [|split].
  - change (2 + length (shown x t)) with (1 + S (length (shown x t))). eapply pays_trans; [|exact Wk]. eapply acn_go; eauto. rewrite St. exact A.
  - congruence.
  - rewrite L2, L. reflexivity.
Qed.

Lemma acn_silent : forall a x off w s s0, has_word off w s -> ac_state x -> o_state s = x -> still s0 = still s -> lg s0 = lg s ->
  ush_autocomp_state_candidates_process s = Ok s0 -> goesn a 1 s [] s0.
Proof.
  intros a x off w s s0 W A St K L E. split; [eapply acn_go; eauto; rewrite St; exact A|]. split; [exact K|]. rewrite app_nil_r. exact L.
Qed.

Lemma acn_then : forall a n m k s x y (P Q : st -> Prop), (exists s1, goesn a n s x s1 /\ P s1) -> (forall s1, still s1 = still s -> P s1 -> exists s2, goesn a m s1 y s2 /\ Q s2) ->
  n + m <= k -> exists s2, goesn a k s (x ++ y) s2 /\ Q s2.
Proof.
  intros a n m k s x y P Q (s1 & G1 & P1) H L. destruct (H s1) as (s2 & G2 & Q2); [apply G1|exact P1|]. exists s2. split; [eapply goesn_le; [eapply goesn_trans; eauto|exact L]|exact Q2].
Qed.

Lemma acn_file : forall a x off w st i k n c s nd f, has_word off w s -> ac_state x -> st = 0 \/ st = 1 ->
  enum s = (x, st, Some i, k, 0, n, c) -> nth_error (hp s) i = Some nd -> nth_error (n_files nd) k = Some f ->
  exists s', goesn a (5 + length (counted x w [f_name f])) s (counted x w [f_name f]) s' /\ enum s' = (x, st, Some i, S k, 0, count_of w [f_name f] n, last_of c (filter (prefixb w) [f_name f])).
Proof.
  intros a x off w st i k n c s nd f W A S01 E Hn F.
  assert (Step : forall s1 j n1 c1, still s1 = still s -> enum s1 = (x, st, Some i, k, j, n1, c1) ->
    ush_autocomp_state_candidates_process s1 = if prefixb w (f_name f) then ush_autocomp_process_file_index (Some f) s1 else Ok (set_pidx 0 (set_pitem (S k) s1))).
  { intros s1 j n1 c1 K E1. en E1. pose proof (still_word _ _ _ _ K W) as (W1 & W2 & W3 & W4).
    assert (G : getp (hp s1) (Some i) = Ok nd) by (cbn [getp]; rewrite (still_hp _ _ K); apply getn_ok; exact Hn).
    assert (Lk : k < length (n_files nd)) by (apply nth_error_Some; congruence).
    assert (N1 : ush_autocomp_check_for_next s1 = Ok (false, s1)).
    { unfold ush_autocomp_check_for_next. rewrite H0, H1, H2. destruct S01 as [-> | ->]; rewrite G; cbn [bind]; destruct (Nat.leb_spec (length (n_files nd)) k); (lia || reflexivity). }
    assert (N2 : ush_autocomp_process_file_prepare s1 = if prefixb w (f_name f) then Ok (false, Some f, s1) else Ok (true, Some f, set_pidx 0 (set_pitem (S k) s1))).
    { unfold ush_autocomp_process_file_prepare, ac_input, ush_utils_startswith. rewrite W1, W2. cbn [bind]. rewrite H0, H1, H2. unfold rd. destruct S01 as [-> | ->]; rewrite G; cbn [bind]; rewrite F; reflexivity. }
    unfold ush_autocomp_state_candidates_process. rewrite H1, N1. cbn [bind]. rewrite N2. destruct (prefixb w (f_name f)); reflexivity. }
  unfold counted, count_of. cbn [filter]. destruct (prefixb w (f_name f)) eqn:Pf.
  - cbn [flat_map length last_of]. rewrite app_nil_r, shown_app. replace (shown x (f_name f) ++ shown x CRLF) with (shown x (f_name f) ++ shown x CRLF ++ []) by (rewrite app_nil_r; reflexivity).
    eapply acn_then with (n := 2 + length (shown x (f_name f))) (m := 3 + length (shown x CRLF)) (P := fun s1 => enum s1 = (x, st, Some i, k, 1, S n, Some (f_name f))); [| |rewrite !app_length; cbn [length]; lia].
    { destruct (acn_say a x off w s (set_accand (Some (f_name f)) (set_account (S n) (set_pidx 1 s))) (f_name f) W A) as (s2 & G & E2); try reflexivity.
      - en E. assumption.
      - en E. assumption.
      - rewrite (Step s 0 n c eq_refl E). en E. unfold ush_autocomp_process_file_index. rewrite H3, H0, H. destruct S01 as [-> | ->]; cbn [deref bind]; destruct (fsm_eqb x S_AC_PRINT); cbn [o_account set_state set_wnext set_wbuf set_wsize set_wpos write_str ush_write_pointer_bin]; rewrite H4; reflexivity.
      - exists s2. split; [exact G|]. rewrite E2. en E. unfold enum. cbn [o_state o_pstage o_pnode o_pitem o_pidx o_account o_accand set_accand set_account set_pidx]. congruence. }
    intros s1 K1 E1. pose proof (still_word _ _ _ _ K1 W) as W1.
    eapply acn_then with (n := 2 + length (shown x CRLF)) (m := 1) (P := fun s1 => enum s1 = (x, st, Some i, k, 2, S n, Some (f_name f))); [| |lia].
    { destruct (acn_say a x off w s1 (set_pidx 2 s1) CRLF W1 A) as (s2 & G & E2); try reflexivity.
      - en E1. assumption.
      - en E1. assumption.
      - rewrite (Step s1 1 _ _ K1 E1). en E1. unfold ush_autocomp_process_file_index. rewrite H3, H. destruct (fsm_eqb x S_AC_PRINT); reflexivity.
      - exists s2. split; [exact G|]. rewrite E2. en E1. unfold enum. cbn [o_state o_pstage o_pnode o_pitem o_pidx o_account o_accand set_pidx]. congruence. }
    intros s2 K2 E2. pose proof (eq_trans K2 K1) as K. pose proof (still_word _ _ _ _ K W) as W2.
    exists (set_pidx 0 (set_pitem (S k) s2)). split.
    + apply (acn_silent a x off w); auto; [en E2; assumption|]. rewrite (Step s2 2 _ _ K E2). en E2. unfold ush_autocomp_process_file_index. rewrite H3, H0, H2. destruct S01 as [-> | ->]; reflexivity.
    + en E2. unfold enum. cbn [o_state o_pstage o_pnode o_pitem o_pidx o_account o_accand set_pidx set_pitem]. repeat f_equal; auto; lia.
  - cbn [flat_map length last_of]. rewrite shown_nil, !Nat.add_0_r. exists (set_pidx 0 (set_pitem (S k) s)). split.
    + eapply goesn_le; [apply (acn_silent a x off w); auto; [en E; assumption|]; apply (Step s 0 n c eq_refl E)|lia].
    + en E. unfold enum. cbn [o_state o_pstage o_pnode o_pitem o_pidx o_account o_accand set_pidx set_pitem]. congruence.
Qed.

Lemma acn_files : forall a x off w st i nd fl pre n c s, has_word off w s -> ac_state x -> st = 0 \/ st = 1 ->
  enum s = (x, st, Some i, length pre, 0, n, c) -> nth_error (hp s) i = Some nd -> n_files nd = pre ++ fl ->
  exists s', goesn a (5 * length fl + length (counted x w (map f_name fl))) s (counted x w (map f_name fl)) s' /\
    enum s' = (x, st, Some i, length (n_files nd), 0, count_of w (map f_name fl) n, last_of c (filter (prefixb w) (map f_name fl))).
Proof.
  intros a x off w st i nd fl. induction fl as [|f fl IH]; intros pre n c s W A S01 E Hn F.
  - exists s. cbn [map]. unfold counted, count_of. cbn [filter flat_map length last_of]. rewrite shown_nil, !Nat.add_0_r. rewrite app_nil_r in F. rewrite F. split; [eapply goesn_le; [apply goesn_refl|lia]|exact E].
  - change (map f_name (f :: fl)) with ([f_name f] ++ map f_name fl). rewrite counted_app, count_app, last_of_filter_app.
    eapply acn_then; [eapply (acn_file a x off w st i (length pre) n c s nd f); eauto; rewrite F, nth_error_app2, Nat.sub_diag by lia; reflexivity| |].
    2: { cbn [length]. rewrite app_length. instantiate (1 := 5 * length fl + length (counted x w (map f_name fl))). lia. }
    intros s1 K1 E1. apply (IH (pre ++ [f])); auto.
    + eapply still_word; eauto.
    + cbv beta in E1. rewrite E1, app_length. cbn [length]. rewrite Nat.add_1_r. reflexivity.
    + rewrite (still_hp _ _ K1). exact Hn.
    + rewrite <- app_assoc. exact F.
Qed.

Lemma acn_groups : forall a x off w gs p n c s, has_word off w s -> ac_state x -> enum s = (x, 0, p, 0, 0, n, c) -> chain (hp s) p (map fst gs) ->
  (forall i fl, In (i, fl) gs -> exists nd, nth_error (hp s) i = Some nd /\ n_files nd = fl) ->
  let ns := map f_name (flat_map snd gs) in
  exists s', goesn a (5 * length ns + length gs + 1 + length (counted x w ns)) s (counted x w ns) s' /\ enum s' = (x, 1, o_cur s, 0, 0, count_of w ns n, last_of c (filter (prefixb w) ns)).
Proof.
  intros a x off w gs. cbv zeta. induction gs as [|(i, fl) gs IH]; intros p n c s W A E C G.
  - cbn in C. subst p. cbn [flat_map map]. unfold counted, count_of. cbn [filter flat_map length last_of]. rewrite shown_nil, !Nat.add_0_r.
    exists (set_pstage 1 (set_pitem 0 (set_pidx 0 (set_pnode (o_cur s) s)))). en E. split.
    + eapply goesn_le; [apply (acn_silent a x off w); auto; unfold ush_autocomp_state_candidates_process, ush_autocomp_check_for_finish; rewrite H1, H0; reflexivity|lia].
    + unfold enum. cbn [o_state o_pstage o_pnode o_pitem o_pidx o_account o_accand set_pidx set_pitem set_pstage set_pnode]. congruence.
  - cbn [map fst chain] in C. destruct C as (-> & nd & Hn & C). destruct (G i fl (or_introl eq_refl)) as (nd' & Hn' & Nf).
    assert (nd' = nd) by congruence. subst nd'. cbn [flat_map snd]. rewrite map_app. rewrite counted_app, count_app, last_of_filter_app.
    eapply acn_then with (m := 5 * length (map f_name (flat_map snd gs)) + length gs + 2 + length (counted x w (map f_name (flat_map snd gs)))); [apply (acn_files a x off w 0 i nd fl [] n c s); auto| |rewrite !app_length, !map_length; cbn [length]; lia]. intros s1 K1 E1. cbv beta in E1. pose proof (still_word _ _ _ _ K1 W) as W1.
    rewrite <- (app_nil_l (counted x w (map f_name (flat_map snd gs)))).
    eapply acn_then with (n := 1) (m := 5 * length (map f_name (flat_map snd gs)) + length gs + 1 + length (counted x w (map f_name (flat_map snd gs)))) (P := fun s2 => enum s2 = (x, 0, n_next nd, 0, 0, count_of w (map f_name fl) n, last_of c (filter (prefixb w) (map f_name fl)))); [| |rewrite ?app_nil_l; lia].
    { exists (set_pnode (n_next nd) (set_pitem 0 s1)). en E1. split.
      - apply (acn_silent a x off w); auto. unfold ush_autocomp_state_candidates_process. rewrite H1. unfold ush_autocomp_check_for_next.
        rewrite H0, H1, (still_hp _ _ K1). cbn [getp]. rewrite (getn_ok _ _ _ Hn). cbn [bind]. rewrite H2, Nat.leb_refl. reflexivity.
      - unfold enum. cbn [o_state o_pstage o_pnode o_pitem o_pidx o_account o_accand set_pitem set_pnode]. congruence. }
    intros s2 K2 E2. pose proof (eq_trans K2 K1) as K. destruct (IH (n_next nd) (count_of w (map f_name fl) n) (last_of c (filter (prefixb w) (map f_name fl))) s2) as (s3 & G3 & E3); auto.
    + eapply still_word; eauto.
    + rewrite (still_hp _ _ K). exact C.
    + intros j gl I. rewrite (still_hp _ _ K). apply G. right; exact I.
    + exists s3. split; [exact G3|]. cbv beta zeta in E3. rewrite E3. pose proof (still_core _ _ K) as Kc. unfold core in Kc. injection Kc as _ _ _ Kc _ _. rewrite Kc. reflexivity.
Qed.

Lemma acn_child : forall a x off w i n c s nd q, has_word off w s -> ac_state x -> enum s = (x, 2, Some i, 0, 0, n, c) -> nth_error (hp s) i = Some nd ->
  n_path nd = Some (show q) -> path_ok q -> q <> [] ->
  exists s', goesn a (5 + length (counted x w [last q []])) s (counted x w [last q []]) s' /\ enum s' = (x, 2, n_next nd, 0, 0, count_of w [last q []] n, last_of c (filter (prefixb w) [last q []])).
Proof.
  intros a x off w i n c s nd q W A E Hn Pq Qo Qn. set (nm := last q []).
  assert (Pl : ush_utils_path_last (show q) = nm) by (rewrite path_last_show by exact Qo; destruct q; [congruence|reflexivity]).
  assert (Step : forall s1 j n1 c1, still s1 = still s -> enum s1 = (x, 2, Some i, 0, j, n1, c1) ->
    ush_autocomp_state_candidates_process s1 = if prefixb w nm then ush_autocomp_process_file_index None (set_acname (Some nm) s1) else Ok (set_pidx 0 (set_pnode (n_next nd) (set_acname (Some nm) s1)))).
  { intros s1 j n1 c1 K E1. en E1. pose proof (still_word _ _ _ _ K W) as (W1 & W2 & W3 & W4).
    assert (G : getp (hp s1) (Some i) = Ok nd) by (cbn [getp]; rewrite (still_hp _ _ K); apply getn_ok; exact Hn).
    assert (N1 : ush_autocomp_check_for_next s1 = Ok (false, s1)) by (unfold ush_autocomp_check_for_next; rewrite H0; reflexivity).
    assert (N2 : ush_autocomp_process_file_prepare s1 = if prefixb w nm then Ok (false, None, set_acname (Some nm) s1) else Ok (true, None, set_pidx 0 (set_pnode (n_next nd) (set_acname (Some nm) s1)))).
    { unfold ush_autocomp_process_file_prepare, ac_input, ush_utils_startswith. rewrite W1, W2. cbn [bind]. rewrite H0, H1, G. cbn [bind]. unfold path_of. rewrite Pq. cbn [bind]. rewrite Pl. reflexivity. }
    unfold ush_autocomp_state_candidates_process. rewrite H1, N1. cbn [bind]. rewrite N2. destruct (prefixb w nm); reflexivity. }
  unfold counted, count_of. cbn [filter]. destruct (prefixb w nm) eqn:Pf.
  - cbn [flat_map length last_of]. rewrite app_nil_r, shown_app. replace (shown x nm ++ shown x CRLF) with (shown x nm ++ shown x CRLF ++ []) by (rewrite app_nil_r; reflexivity).
    eapply acn_then with (n := 2 + length (shown x nm)) (m := 3 + length (shown x CRLF)) (P := fun s1 => enum s1 = (x, 2, Some i, 0, 1, S n, Some nm)); [| |rewrite !app_length; cbn [length]; lia].
    { destruct (acn_say a x off w s (set_accand (Some nm) (set_account (S n) (set_pidx 1 (set_acname (Some nm) s)))) nm W A) as (s2 & G & E2); try reflexivity.
      - en E. assumption.
      - en E. assumption.
      - rewrite (Step s 0 n c eq_refl E). en E. unfold ush_autocomp_process_file_index. cbn [o_pidx o_pstage o_state o_acname set_acname]. rewrite H3, H0, H. cbn [deref bind]. destruct (fsm_eqb x S_AC_PRINT); cbn [bind]; cbn [o_account set_state set_wnext set_wbuf set_wsize set_wpos write_str ush_write_pointer_bin set_acname]; rewrite H4; reflexivity.
      - exists s2. split; [exact G|]. rewrite E2. en E. unfold enum. cbn [o_state o_pstage o_pnode o_pitem o_pidx o_account o_accand set_accand set_account set_pidx set_acname]. congruence. }
    intros s1 K1 E1. pose proof (still_word _ _ _ _ K1 W) as W1.
    eapply acn_then with (n := 2 + length (shown x CRLF)) (m := 1) (P := fun s1 => enum s1 = (x, 2, Some i, 0, 2, S n, Some nm)); [| |lia].
    { destruct (acn_say a x off w s1 (set_pidx 2 (set_acname (Some nm) s1)) CRLF W1 A) as (s2 & G & E2); try reflexivity.
      - en E1. assumption.
      - en E1. assumption.
      - rewrite (Step s1 1 _ _ K1 E1). en E1. unfold ush_autocomp_process_file_index. cbn [o_pidx o_state set_acname]. rewrite H3, H. destruct (fsm_eqb x S_AC_PRINT); reflexivity.
      - exists s2. split; [exact G|]. rewrite E2. en E1. unfold enum. cbn [o_state o_pstage o_pnode o_pitem o_pidx o_account o_accand set_pidx set_acname]. congruence. }
    intros s2 K2 E2. pose proof (eq_trans K2 K1) as K. pose proof (still_word _ _ _ _ K W) as W2.
    exists (set_pidx 0 (set_pnode (n_next nd) (set_acname (Some nm) s2))). split.
    + apply (acn_silent a x off w); auto; [en E2; assumption|]. rewrite (Step s2 2 _ _ K E2). en E2. unfold ush_autocomp_process_file_index. cbn [o_pidx o_pstage o_pnode hp set_acname]. rewrite H3, H0, H1.
      cbn [getp]. rewrite (still_hp _ _ K), (getn_ok _ _ _ Hn). reflexivity.
    + en E2. unfold enum. cbn [o_state o_pstage o_pnode o_pitem o_pidx o_account o_accand set_pidx set_pnode set_acname]. repeat f_equal; auto; lia.
  - cbn [flat_map length last_of]. rewrite shown_nil, !Nat.add_0_r. exists (set_pidx 0 (set_pnode (n_next nd) (set_acname (Some nm) s))). split.
    + eapply goesn_le; [apply (acn_silent a x off w); auto; [en E; assumption|]; apply (Step s 0 n c eq_refl E)|lia].
    + en E. unfold enum. cbn [o_state o_pstage o_pnode o_pitem o_pidx o_account o_accand set_pidx set_pnode set_acname]. congruence.
Qed.

Lemma acn_children : forall a x off w ds p n c s, has_word off w s -> ac_state x -> enum s = (x, 2, p, 0, 0, n, c) -> chain (hp s) p (map de_node ds) ->
  (forall d, In d ds -> de_path d <> [] /\ path_ok (de_path d) /\ exists nd, nth_error (hp s) (de_node d) = Some nd /\ n_path nd = Some (show (de_path d))) ->
  let ns := map dir_name ds in
  exists s', goesn a (5 * length ds + 1 + length (counted x w ns)) s (counted x w ns) s' /\ enum s' = (S_AC_FINISH, 2, None, 0, 0, count_of w ns n, last_of c (filter (prefixb w) ns)) /\ o_acprev s' = x.
Proof.
  intros a x off w ds. cbv zeta. induction ds as [|d ds IH]; intros p n c s W A E C G.
  - cbn in C. subst p. cbn [map]. unfold counted, count_of. cbn [filter flat_map length last_of]. rewrite shown_nil, !Nat.add_0_r.
    exists (set_state S_AC_FINISH (set_acprev (o_state s) s)). en E. split; [|split].
    + eapply goesn_le; [apply (acn_silent a x off w); auto; unfold ush_autocomp_state_candidates_process, ush_autocomp_check_for_finish; rewrite H1, H0; reflexivity|lia].
    + unfold enum. cbn [o_state o_pstage o_pnode o_pitem o_pidx o_account o_accand set_state set_acprev]. congruence.
    + exact H.
  - cbn [map chain] in C. destruct C as (-> & nd & Hn & C). destruct (G d (or_introl eq_refl)) as (Dn & Dk & nd' & Hn' & Dp). assert (nd' = nd) by congruence. subst nd'.
    change (map dir_name (d :: ds)) with ([dir_name d] ++ map dir_name ds). rewrite counted_app, count_app, last_of_filter_app.
    eapply acn_then with (m := 5 * length ds + 1 + length (counted x w (map dir_name ds))); [apply (acn_child a x off w (de_node d) n c s nd (de_path d)); auto| |fold (dir_name d); rewrite !app_length; cbn [length]; lia]. intros s1 K1 E1. cbv beta in E1.
    apply (IH (n_next nd)); auto.
    + eapply still_word; eauto.
    + rewrite (still_hp _ _ K1). exact C.
    + intros d' I. rewrite (still_hp _ _ K1). apply G. right; exact I.
Qed.

Lemma enumn_half : forall a x off w own wd cwd s c, has_word off w s -> ac_state x -> knows own s wd -> w_cwd wd = Some cwd ->
  enum s = (x, 0, o_cmds s, 0, 0, 0, c) -> exists dc, dir_at cwd (w_fs wd) = Some dc /\
  let A1 := map f_name (flat_map snd (w_groups wd)) in let A2 := map f_name (de_files dc) in
  exists s3, goesn a (5 * (length A1 + length A2) + length (w_groups wd) + 2 + length (counted x w A1 ++ counted x w A2)) s (counted x w A1 ++ counted x w A2) s3 /\ has_word off w s3 /\ knows own s3 wd /\
    enum s3 = (x, 1, None, 0, 0, count_of w A2 (count_of w A1 0), last_of (last_of c (filter (prefixb w) A1)) (filter (prefixb w) A2)).
Proof.
  intros a x off w own wd cwd s c W A Kn Cw E. pose proof Kn as (R & (Gn & Gc & Gf) & _ & _ & _ & Wc). rewrite Cw in Wc. destruct Wc as (dc & Dc & Ec).
  exists dc. split; [exact Dc|]. cbv zeta.
  pose proof (dir_at_some _ _ _ Dc) as (Ic & Pc). pose proof R as (Fo & St & _). destruct (St dc Ic) as (ndc & Enc & _ & Fc & _).
  set (A1 := map f_name (flat_map snd (w_groups wd))). set (A2 := map f_name (de_files dc)).
  destruct (acn_groups a x off w (w_groups wd) (o_cmds s) 0 c s W A E Gc Gf) as (s1 & G1 & E1). cbv zeta in E1. fold A1 in G1, E1. pose proof G1 as (_ & K1 & _).
  pose proof (still_word _ _ _ _ K1 W) as W1. rewrite Ec in E1.
  destruct (acn_files a x off w 1 (de_node dc) ndc (de_files dc) [] (count_of w A1 0) (last_of c (filter (prefixb w) A1)) s1 W1 A (or_intror eq_refl) E1) as (s2 & G2 & E2); [rewrite (still_hp _ _ K1); exact Enc|exact Fc|].
  fold A2 in G2, E2. pose proof G2 as (_ & K2 & _). pose proof (eq_trans K2 K1) as K. pose proof (still_word _ _ _ _ K W) as W2.
  pose (s3 := set_pnode None (set_pitem 0 s2)).
  assert (G3 : goesn a 1 s2 [] s3).
  { en E2. apply (acn_silent a x off w); auto. unfold ush_autocomp_state_candidates_process. rewrite H1. unfold ush_autocomp_check_for_next. rewrite H0, H1, (still_hp _ _ K). cbn [getp].
    rewrite (getn_ok _ _ _ Enc). cbn [bind]. rewrite H2, Nat.leb_refl. reflexivity. }
  pose proof (still_word _ _ _ _ (proj1 (proj2 G3)) W2) as W3. assert (K3 : still s3 = still s) by exact K.
  assert (E3 : enum s3 = (x, 1, None, 0, 0, count_of w A2 (count_of w A1 0), last_of (last_of c (filter (prefixb w) A1)) (filter (prefixb w) A2))).
  { en E2. unfold s3, enum. cbn [o_state o_pstage o_pnode o_pitem o_pidx o_account o_accand set_pitem set_pnode]. congruence. }
  clearbody s3. exists s3. split; [|split; [exact W3|split; [|exact E3]]].
  - replace (counted x w A1 ++ counted x w A2) with (counted x w A1 ++ counted x w A2 ++ []) by (rewrite app_nil_r; reflexivity).
    eapply goesn_le; [eapply goesn_trans; [exact G1|]; eapply goesn_trans; [exact G2|exact G3]|]. unfold A2 at 1 2. rewrite !app_length, map_length. cbn [length]. fold A1 A2. lia.
  - pose proof (still_core _ _ K3) as Kc; unfold core in Kc; injection Kc as C1 C2 C3 C4 C5 C6; unfold knows in *; rewrite C2, C3, C4, C6; exact Kn.
Qed.

(** The calls one pass over the names takes, printing apart. *)
Definition pass (wd : world) (cwd : dirpath) : nat := 5 * (length (names_in wd cwd) + length (w_fs wd)) + length (w_groups wd) + 4.

Lemma enumeraten : forall a x off w own wd cwd s c, has_word off w s -> ac_state x -> knows own s wd -> w_cwd wd = Some cwd -> tidy wd -> no_nul w ->
  length (full_text cwd w) < d_pathmax (o_desc s) -> enum s = (x, 0, o_cmds s, 0, 0, 0, c) ->
  let t := shown x (flat_map (fun n => n ++ CRLF) (candidates wd cwd w)) in
  exists s', goesn a (pass wd cwd + length t) s t s' /\
    enum s' = (S_AC_FINISH, 2, None, 0, 0, length (candidates wd cwd w), last_of c (candidates wd cwd w)) /\ o_acprev s' = x.
Proof.
  intros a x off w own wd cwd s c W A Kn Cw T N L E. cbv zeta. pose proof Kn as ((Fo & St & _) & _).
  destruct (enumn_half a x off w own wd cwd s c W A Kn Cw E) as (dc & Dc & s3 & G3 & W3 & Kn3 & E3).
  set (A1 := map f_name (flat_map snd (w_groups wd))) in *. set (A2 := map f_name (de_files dc)) in *.
  pose proof G3 as (_ & K3 & _).
  destruct (tab_dir own s3 wd cwd off w Kn3 Cw T W3 N) as (d & nd & Id & Hd & Fin & Fe).
  { pose proof (still_core _ _ K3) as Kc. rewrite (core_desc _ _ Kc). exact L. }
  { en E3. assumption. }
  set (s4 := set_pstage 2 (set_pitem 0 (set_pidx 0 (set_pnode (n_children nd) s3)))) in *.
  assert (G4 : goesn a 1 s3 [] s4).
  { en E3. apply (acn_silent a x off w); auto. unfold ush_autocomp_state_candidates_process. rewrite H1. exact Fin. }
  pose proof (still_word _ _ _ _ (proj1 (proj2 G4)) W3) as W4. assert (K4 : still s4 = still s) by exact K3.
  destruct (stands_chain (hp s) (w_fs wd) d nd) as (Ch & Cd); [exact Fo|apply St|exact Id| |].
  { rewrite <- (still_hp _ _ K3). exact Hd. }
  destruct (acn_children a x off w (children (de_path d) (w_fs wd)) (n_children nd) (count_of w A2 (count_of w A1 0)) (last_of (last_of c (filter (prefixb w) A1)) (filter (prefixb w) A2)) s4 W4 A) as (s5 & G5 & E5 & P5).
  { en E3. unfold s4, enum. cbn [o_state o_pstage o_pnode o_pitem o_pidx o_account o_accand set_pitem set_pnode set_pidx set_pstage]. congruence. }
  { rewrite (still_hp _ _ K4). exact Ch. }
  { intros d' I'. rewrite (still_hp _ _ K4). apply Cd. exact I'. }
  cbv zeta in E5. rewrite Fe in E5. destruct (counted_filter x w _ _ Fe) as (F1 & F2). rewrite F1 in G5. rewrite F2 in E5.
  assert (Cs : candidates wd cwd w = filter (prefixb w) (A1 ++ A2 ++ map dir_name (children cwd (w_fs wd)))) by (unfold candidates, names_in; rewrite Dc; reflexivity).
  exists s5. split; [|split; [|exact P5]].
  - assert (Z : shown x (flat_map (fun n => n ++ CRLF) (candidates wd cwd w)) = counted x w A1 ++ counted x w A2 ++ [] ++ counted x w (map dir_name (children cwd (w_fs wd)))).
    { rewrite Cs. fold (counted x w (A1 ++ A2 ++ map dir_name (children cwd (w_fs wd)))). rewrite !counted_app. reflexivity. }
    rewrite Z, app_assoc. eapply goesn_le; [eapply goesn_trans; [exact G3|]; eapply (goesn_trans a _ _ s3 []); [exact G4|exact G5]|].
    assert (Ld : length (children (de_path d) (w_fs wd)) <= length (w_fs wd)) by (unfold children; apply filter_len).
    unfold pass, names_in. rewrite Dc. fold A1 A2. rewrite !app_length. cbn [length]. lia.
  - rewrite E5, Cs. rewrite !last_of_filter_app. unfold count_of. rewrite !filter_app, !app_length. rewrite Nat.add_0_l, Nat.add_assoc. reflexivity.
Qed.

Lemma enum_tabn : forall a own w cwd s0 k B t s evs x c, ground own w cwd s0 -> tabbing k B t s0 s evs -> no_nul t -> length (full_text cwd t) < d_pathmax (o_desc s0) ->
  ac_state x -> enum s = (x, 0, o_cmds s, 0, 0, 0, c) ->
  let v := shown x (flat_map (fun n => n ++ CRLF) (candidates w cwd t)) in
  exists s', pays a (pass w cwd + length v) s s' /\ tabbing k B t s0 s' (evs ++ map EvOut v) /\
    o_state s' = S_AC_FINISH /\ o_account s' = length (candidates w cwd t) /\ o_accand s' = last_of c (candidates w cwd t) /\ o_acprev s' = x /\
    o_acsuf s' = o_acsuf s /\ o_acprevc s' = o_acprevc s.
Proof.
  intros a own w cwd s0 k B t s evs x c (Kn & Cw & T & Cf & Cu) Tb N L A E. pose proof Tb as (C & _).
  destruct (enumeraten a x (length B) t own w cwd s c) as (s' & (Wk & K & Lg) & E' & P'); auto.
  - eapply tabbing_word; eauto.
  - eapply knows_core; eauto.
  - unfold core in C. replace (o_desc s) with (o_desc s0) by congruence. exact L.
  - exists s'. split; [exact Wk|]. split; [eapply tabbing_still; eauto|]. en E'. unfold still in K. injection K as C1 C2 C3 C4 C5 C6 K2 K3 K4 K5 K6 K7 K8. auto 10.
Qed.

Lemma at_finishn : forall a s s1, o_cur s <> None -> cfg_autocomp (d_cfg (o_desc s)) = true -> o_state s = S_AC_FINISH ->
  ush_autocomp_state_candidates_finish s = Ok s1 -> pays a 1 s s1.
Proof.
  intros a s s1 C D E F. eapply pays_svc; [exact C|apply np; rewrite E; discriminate| |apply pays_refl]. unfold svc. rewrite E, D. unfold ush_autocomp_service. rewrite E, F. reflexivity.
Qed.

Lemma extendn : forall a own w cwd s0 k B w0 cs lc c, ground own w cwd s0 -> cs = candidates w cwd w0 -> last_of c cs = Some lc -> In lc cs -> 2 <= length cs ->
  let tr := firstn (S (length (common cs))) lc in length (full_text cwd tr) < d_pathmax (o_desc s0) -> length B + length tr < d_insize (o_desc s0) ->
  forall m suf s evs, m = length lc - length (w0 ++ suf) -> (forall n, In n cs -> prefixb (w0 ++ suf) n = true) -> tabbing k B (w0 ++ suf) s0 s evs ->
  o_account s = length cs -> o_accand s = Some lc -> o_acsuf s = length suf ->
  exists s1 s2, ush_autocomp_optimize_continue s = Ok s1 /\ pays a (S (length (common cs) - length (w0 ++ suf)) * S (pass w cwd)) s1 s2 /\ o_state s2 = S_AC_RECALL_SUFFIX /\ tabbing k B (common cs) s0 s2 evs /\
    length w0 + o_acsuf s2 = length (common cs) /\ prefixb w0 (common cs) = true /\ o_accand s2 = Some lc.
Proof.
  intros a own w cwd s0 k B w0 cs lc c G Ec El Il L2 tr Lp Li. pose proof G as (Kn & Cw & T & Cf & Cu).
  assert (Fo : fs_ok (w_fs w)) by (destruct Kn as ((Fo & _) & _); exact Fo).
  assert (Pl : plain_comp lc) by (rewrite Ec in Il; eapply cand_plain; eauto).
  induction m as [m IH] using lt_wf_ind. intros suf s evs Em Pre Tb Na Nc Ns. set (t := w0 ++ suf) in *.
  assert (Plc : prefixb t lc = true) by (apply Pre; exact Il). assert (Nt : no_nul t) by (intros I; apply (proj2 Pl); eapply prefix_In; eauto).
  pose proof (tabbing_word _ _ _ _ _ _ Tb Nt Cu Cf) as Hw.
  destruct (Nat.leb_spec (length lc) (length t)) as [Hl|Hl].
  - assert (Ct : common cs = t) by (apply (common_stop cs t lc); auto). rewrite Ct.
    exists (set_state S_AC_RECALL_SUFFIX (set_acprevc (o_account s) s)). eexists. split; [eapply opt_stop; eauto|]. split; [apply pays_refl|]. split; [reflexivity|]. split; [exact Tb|].
    split; [cbn [o_acsuf set_state set_acprevc]; rewrite Ns; unfold t; rewrite app_length; reflexivity|]. split; [apply prefixb_spec; exists suf; reflexivity|exact Nc].
  - apply prefixb_spec in Plc as (z & Ez). destruct z as [|ch z]; [rewrite Ez, app_nil_r in Hl; lia|].
    pose proof Tb as (C & _). assert (Dn : d_insize (o_desc s) = d_insize (o_desc s0)) by (unfold core in C; congruence).
    assert (Pc : prefixb (t ++ [ch]) lc = true) by (apply prefixb_spec; exists z; rewrite <- app_assoc; exact Ez).
    assert (Pt : prefixb (t ++ [ch]) tr = true).
    { apply firstn_prefix; [exact Pc|]. assert (Ne : cs <> []) by (intros Z; rewrite Z in Il; exact Il). pose proof (prefix_length _ _ (common_greatest cs t Ne Pre)). rewrite app_length. cbn [length]. lia. }
    assert (Lt : length B + S (length t) < d_insize (o_desc s)) by (pose proof (prefix_length _ _ Pt) as Q; rewrite app_length in Q; cbn [length] in Q; lia).
    destruct (opt_more k B t s0 s evs lc ch z Tb Hw Nc Ez Lt) as (s1 & Oc1 & Tb1 & En1 & Sf1 & Pv1). rewrite Na in Pv1. rewrite Ns in Sf1. exists s1.
    destruct (enum_tabn a own w cwd s0 k B (t ++ [ch]) s1 evs S_AC_OPTIMISE (Some lc) G Tb1) as (s2 & Wk & Tb2 & St2 & Ac2 & Cd2 & Pv2 & Sf2 & Pc2).
    { intros I; apply (proj2 Pl); eapply prefix_In; eauto. }
    { pose proof (full_text_mono cwd _ _ (firstn_plain (S (length (common cs))) lc Pl) Pt). fold tr in H. lia. }
    { right; left; reflexivity. }
    { exact En1. }
    cbv zeta in Wk, Tb2. change (shown S_AC_OPTIMISE _) with (@nil byte) in Tb2, Wk. cbn [map length] in Tb2, Wk. rewrite app_nil_r in Tb2. rewrite Nat.add_0_r in Wk.
    assert (Fl : candidates w cwd (t ++ [ch]) = filter (prefixb (t ++ [ch])) cs).
    { rewrite Ec. unfold candidates, t. rewrite <- app_assoc. rewrite filter_narrow. reflexivity. }
    rewrite Fl in *.
    assert (Lc2 : o_accand s2 = Some lc).
    { rewrite Cd2. assert (I : In lc (filter (prefixb (t ++ [ch])) cs)) by (apply filter_In; auto).
      assert (Q : last_of c (filter (prefixb (t ++ [ch])) cs) = Some lc) by (apply last_of_filter; auto).
      destruct (filter (prefixb (t ++ [ch])) cs); [destruct I|exact Q]. }
    assert (Pv : o_acprevc s2 = length cs) by (rewrite Pc2; exact Pv1).
    assert (Sf : o_acsuf s2 = S (length suf)) by (rewrite Sf2; exact Sf1).
    pose proof Tb2 as (C2 & Bo2 & Es2 & Ai2 & (r2 & Ib2) & Ip2 & Lg2).
    assert (Cu2 : o_cur s2 <> None) by (unfold core in C2; congruence). assert (Cf2 : cfg_autocomp (d_cfg (o_desc s2)) = true) by (unfold core in C2; congruence).
    destruct (Nat.ltb_spec (o_account s2) (o_acprevc s2)) as [Hc|Hc].
    + assert (Ct : common cs = t).
      { apply (common_stop cs t lc); auto. right. exists ch, z. split; [exact Ez|]. intros Z. rewrite Z in Ac2. lia. }
      rewrite Ct. exists (set_state S_AC_RECALL_SUFFIX (set_acsuf (length suf) (set_inpos (length (B ++ t)) (set_inb (B ++ t ++ NUL :: NUL :: r2) s2)))).
      split; [exact Oc1|]. split.
      { eapply pays_le with (n := pass w cwd + 1); [|lia]. eapply pays_trans; [exact Wk|]. apply at_finishn; auto. unfold ush_autocomp_state_candidates_finish. rewrite Pv2.
        apply Nat.ltb_lt in Hc. rewrite Hc, Ip2. replace (length (B ++ t ++ [ch]) - 1) with (length (B ++ t)) by (rewrite !app_length; cbn [length]; lia).
        rewrite Ib2. replace (B ++ (t ++ [ch]) ++ NUL :: r2) with ((B ++ t) ++ ch :: NUL :: r2) by (rewrite <- !app_assoc; reflexivity). rewrite wr_app by reflexivity. cbn [bind].
        rewrite Sf. rewrite <- !app_assoc. reflexivity. }
      split; [reflexivity|]. split.
      { split; [exact C2|]. split.
        { destruct Bo2 as (D1 & D2 & D3 & D4). unfold bufs_ok. sfields. cbn. rewrite Ib2 in D1. rewrite !app_length in *. cbn [length] in *. lia. }
        split; [exact Es2|]. split; [exact Ai2|]. split; [exists (NUL :: r2); reflexivity|]. split; [reflexivity|exact Lg2]. }
      split; [cbn; unfold t; rewrite app_length; reflexivity|]. split; [apply prefixb_spec; exists suf; reflexivity|exact Lc2].
    + assert (Full : filter (prefixb (t ++ [ch])) cs = cs) by (apply filter_full; lia).
      assert (Es' : t ++ [ch] = w0 ++ (suf ++ [ch])) by (unfold t; rewrite <- app_assoc; reflexivity).
      destruct (IH (length lc - length (w0 ++ (suf ++ [ch])))) with (suf := suf ++ [ch]) (s := s2) (evs := evs) as (s3 & s4 & Oc & Wk2 & F); auto.
      { rewrite <- Es', app_length. cbn [length]. lia. }
      { intros n I. rewrite <- Es'. apply (filter_all_in _ _ _ Full n I). }
      { rewrite <- Es'. exact Tb2. }
      { rewrite Ac2, Full. reflexivity. }
      { rewrite Sf, app_length. cbn [length]. lia. }
      exists s4. split; [exact Oc1|]. split; [|exact F]. assert (Lc : length (t ++ [ch]) <= length (common cs)).
      { apply prefix_length, common_greatest; [intros Z; rewrite Z in Il; exact Il|]. intros n I. apply (filter_all_in _ _ _ Full n I). }
      eapply pays_le with (n := pass w cwd + (1 + S (length (common cs) - length (w0 ++ suf ++ [ch])) * S (pass w cwd))).
      2: { rewrite <- Es'. rewrite app_length in *. cbn [length] in *. fold t. replace (S (length (common cs) - length t)) with (S (S (length (common cs) - (length t + 1)))) by lia. cbn [Nat.mul]. lia. }
      eapply pays_trans; [exact Wk|]. eapply pays_trans; [|exact Wk2]. apply at_finishn; auto.
      unfold ush_autocomp_state_candidates_finish. rewrite Pv2. apply Nat.ltb_ge in Hc. rewrite Hc. exact Oc.
Qed.

(** [takes a n c s s1]: [s] polls, the byte is read, and [n] calls later at most the state is [s1]. *)
Definition takes (a : application) (n : nat) (c : byte) (s s1 : st) : Prop :=
  polling s /\ exists b s2, ush_service (tick (a (lg s)) (Some c)) s = Ok (b, s2) /\ pays a n s2 s1.
Lemma takes_pays : forall a n m c s s1 s2, takes a n c s s1 -> pays a m s1 s2 -> takes a (n + m) c s s2.
Proof. intros a n m c s s1 s2 (P & b & s3 & H & W) W2. split; [exact P|]. exists b, s3. split; [exact H|]. eapply pays_trans; eauto. Qed.
Lemma takes_esteps : forall a n c s s1, takes a n c s s1 -> exists os, esteps a os s s1 /\ somes os = [c] /\ length os <= S n.
Proof.
  intros a n c s s1 (P & b & s2 & H & os & E & Z & L). exists (Some c :: os). split; [econstructor; [split; eauto|exact E]|]. split; [change (c :: somes os = [c]); rewrite Z; reflexivity|cbn [length]; lia].
Qed.

Lemma tab_startn : forall a own w cwd k l s, at_tab own w cwd k l s ->
  exists s1, takes a 2 TAB s s1 /\ ground own w cwd s /\ tabbing k (before_word l) (last_word l) s s1 [EvIn TAB] /\ no_nul (last_word l) /\
    enum s1 = (S_AC_COUNT, 0, o_cmds s1, 0, 0, 0, o_accand s).
Proof.
  intros a own w cwd k l s (Kn & Cw & Ed & Bo & Nl & T & Cf). pose proof (cwd_cur _ _ (cwd_show _ _ _ _ Kn Cw)) as Cu. destruct Ed as (P & Es & Ip & r & Ib).
  pose (sa := set_state S_AC_PREPARE (emit (EvIn TAB) s)). pose (sb := set_state S_AC_START (set_acin (Some (length (before_word l))) sa)).
  exists (ush_autocomp_state_candidates_start sb). split; [|split; [|split; [|split]]].
  - split; [exact P|]. exists true, sa. split.
    + rewrite service_eq. destruct (o_cur s) eqn:E; [|congruence]. unfold svc. rewrite P. unfold ush_read_char. cbn [tick io_rd].
      change (ceq TAB ETX) with false. change (ceq TAB BS || ceq TAB DEL) with false. change (ceq TAB TAB) with true. cbn [bind]. cbn [o_desc emit set_lg]. rewrite Cf. reflexivity.
    + eapply (pays_svc a 1 sa true sb); [exact Cu|apply np; discriminate| |eapply (pays_svc a 0 sb true); [exact Cu|apply np; discriminate| |apply pays_refl]].
      * unfold svc. change (o_state sa) with S_AC_PREPARE. cbn match. change (d_cfg (o_desc sa)) with (d_cfg (o_desc s)). rewrite Cf.
        unfold ush_autocomp_service. change (o_state sa) with S_AC_PREPARE. cbn match. unfold ush_autocomp_state_prepare. change (inb sa) with (inb s). rewrite Ib, last_arg by exact Nl. reflexivity.
      * unfold svc. change (o_state sb) with S_AC_START. cbn match. change (d_cfg (o_desc sb)) with (d_cfg (o_desc s)). rewrite Cf. reflexivity.
  - split; [exact Kn|]. split; [exact Cw|]. split; [exact T|]. split; [exact Cf|exact Cu].
  - split; [reflexivity|]. split; [exact Bo|]. split; [exact Es|]. split; [reflexivity|]. split; [exists r|].
    + change (inb s = before_word l ++ last_word l ++ NUL :: r). rewrite app_assoc, <- before_last. exact Ib.
    + split; [|reflexivity]. rewrite <- before_last. exact Ip.
  - intros I. apply Nl. rewrite (before_last l). apply in_app_iff. right; exact I.
  - reflexivity.
Qed.

Lemma tab_countn : forall a own w cwd k l s, at_tab own w cwd k l s -> length (full_text cwd (last_word l)) < d_pathmax (o_desc s) ->
  exists s1, takes a (2 + pass w cwd) TAB s s1 /\ ground own w cwd s /\ tabbing k (before_word l) (last_word l) s s1 [EvIn TAB] /\ no_nul (last_word l) /\
    o_state s1 = S_AC_FINISH /\ o_acprev s1 = S_AC_COUNT /\ o_account s1 = length (candidates w cwd (last_word l)) /\
    o_accand s1 = last_of (o_accand s) (candidates w cwd (last_word l)) /\ o_cur s1 <> None /\ cfg_autocomp (d_cfg (o_desc s1)) = true.
Proof.
  intros a own w cwd k l s At L. destruct (tab_startn a _ _ _ _ _ _ At) as (s1 & Tk & G & Tb & N & En).
  destruct (enum_tabn a own w cwd s k _ _ s1 _ S_AC_COUNT (o_accand s) G Tb N L) as (s2 & Wk & Tb2 & St2 & Ac2 & Cd2 & Pv2 & Sf2 & Pc2); [left; reflexivity|exact En|].
  cbv zeta in Wk, Tb2. change (shown S_AC_COUNT _) with (@nil byte) in Tb2, Wk. cbn [map length] in Tb2, Wk. rewrite app_nil_r in Tb2. rewrite Nat.add_0_r in Wk. exists s2.
  split; [eapply takes_pays; eauto|]. split; [exact G|]. split; [exact Tb2|]. split; [exact N|]. split; [exact St2|]. split; [exact Pv2|]. split; [exact Ac2|]. split; [exact Cd2|].
  destruct G as (_ & _ & _ & Cf & Cu). destruct Tb2 as (C & _). unfold core in C. split; congruence.
Qed.

(** TAB is answered within [n] calls after it was read. *)
Definition answers (a : application) (n : nat) (s : st) : Prop := exists s', takes a n TAB s s' /\ polling s' /\ core s' = core s.
Lemma answers_le : forall a n m s, answers a n s -> n <= m -> answers a m s.
Proof. intros a n m s (s' & (P & b & s2 & H & W) & Q) L. exists s'. split; [|exact Q]. split; [exact P|]. exists b, s2. split; [exact H|]. eapply pays_le; eauto. Qed.
Lemma tab_endn : forall a n s s2, takes a n TAB s s2 -> o_state s2 = S_READ_CHAR -> core s2 = core s -> answers a n s.
Proof. intros a n s s2 T S C. exists s2. split; [exact T|]. split; [exact S|exact C]. Qed.

Lemma tab_none : forall a own w cwd k l s, at_tab own w cwd k l s -> length (full_text cwd (last_word l)) < d_pathmax (o_desc s) ->
  candidates w cwd (last_word l) = [] -> answers a (3 + pass w cwd) s.
Proof.
  intros a own w cwd k l s At L E. destruct (tab_countn a _ _ _ _ _ _ At L) as (s1 & Tk & G & Tb & N & St & Pv & Ac & Cd & Cu & Cf). rewrite E in Ac.
  eapply answers_le with (n := 2 + pass w cwd + 1); [|lia]. apply (tab_endn _ _ _ (set_state S_READ_CHAR s1)); [eapply takes_pays; [exact Tk|]| |exact (proj1 Tb)].
  - apply at_finishn; auto. unfold ush_autocomp_state_candidates_finish. rewrite Pv, Ac. reflexivity.
  - reflexivity.
Qed.

Lemma write_inn : forall a k B t s0 s evs u z, tabbing k B t s0 s evs -> o_cur s <> None -> no_nul t -> t = u ++ z ->
  exists s1, ush_write_pointer (WIn (length B + length u)) S_READ_CHAR s = Ok s1 /\
   exists s2, pays a (S (length z)) s1 s2 /\ tabbing k B t s0 s2 (evs ++ map EvOut z) /\ o_state s2 = S_READ_CHAR.
Proof.
  intros a k B t s0 s evs u z Tb Cu N E. pose proof Tb as (C & Bo & Es & Ai & (r & Ib) & Ip & Lg).
  assert (Nz : no_nul z) by (intros I; apply N; rewrite E; apply in_app_iff; right; exact I).
  assert (W : wptr_str (WIn (length B + length u)) s = Ok z).
  { cbn [wptr_str]. rewrite Ib, E. replace (B ++ (u ++ z) ++ NUL :: r) with ((B ++ u) ++ z ++ NUL :: r) by (rewrite <- !app_assoc; reflexivity). apply c_str_app; [rewrite app_length; reflexivity|exact Nz]. }
  eexists. split; [apply wp_eq; exact W|]. exists (after_write (WIn (length B + length u)) z S_READ_CHAR s). split; [apply pays_wpb; [exact Cu|apply points_str; exact W]|].
  split; [|reflexivity]. split; [exact C|]. split; [exact Bo|]. split; [exact Es|]. split; [exact Ai|]. split; [exists r; exact Ib|]. split; [exact Ip|].
  cbn [lg after_write set_state set_wnext set_wbuf set_wsize set_wpos set_lg]. rewrite Lg, app_assoc. reflexivity.
Qed.

Lemma tab_one : forall a own w cwd k l s n, at_tab own w cwd k l s -> tab_room (o_desc s) cwd l [n] ->
  candidates w cwd (last_word l) = [n] -> answers a (4 + pass w cwd + length (skipn (length (last_word l)) n)) s.
Proof.
  intros a own w cwd k l s n At (L & Li) E. destruct (tab_countn a _ _ _ _ _ _ At L) as (s1 & Tk & G & Tb & N & St & Pv & Ac & Cd & Cu & Cf). rewrite E in Ac, Cd. cbn in Ac, Cd.
  cbn [tried] in Li. pose proof G as (Kn & Cw & T & _). pose proof At as (_ & _ & _ & _ & Nl & _).
  assert (In_ : In n (candidates w cwd (last_word l))) by (rewrite E; left; reflexivity).
  assert (Pl : plain_comp n) by (destruct Kn as ((Fo & _) & _); eapply cand_plain; eauto). assert (Pf : prefixb (last_word l) n = true) by (apply filter_In in In_; apply In_).
  apply prefixb_spec in Pf as (z & Ez). pose proof Tb as (C & Bo & Es & Ai & (r & Ib) & Ip & Lg). set (B := before_word l) in *. set (t := last_word l) in *.
  destruct Bo as (B1 & B2 & B3 & B4). assert (Dn : d_insize (o_desc s1) = d_insize (o_desc s)) by (unfold core in C; congruence).
  destruct (copy_in B t n (NUL :: r)) as (z' & Cp & Cl); [apply before_no_nul; exact Nl|exact (proj2 Pl)|rewrite <- Ib; lia|].
  pose (s2 := set_inpos (length (B ++ n)) (set_inb (B ++ n ++ NUL :: z') s1)).
  assert (Tb2 : tabbing k B n s s2 [EvIn TAB]).
  { split; [exact C|]. split.
    { unfold bufs_ok, s2. sfields. split; [|auto]. rewrite <- B1, Ib. symmetry. rewrite <- (c_strcpy_length _ _ _ _ Cp). reflexivity. }
    split; [exact Es|]. split; [exact Ai|]. split; [exists z'; reflexivity|]. split; [reflexivity|exact Lg]. }
  destruct (write_inn a k B n s s2 [EvIn TAB] t z Tb2 Cu (proj2 Pl) Ez) as (s3 & Ws & s4 & Wk & Tb4 & St4).
  replace (skipn (length t) n) with z by (rewrite Ez, skipn_app, skipn_all, Nat.sub_diag; reflexivity). eapply answers_le with (n := 2 + pass w cwd + (1 + S (length z))); [|lia].
  apply (tab_endn _ _ _ s4); [eapply takes_pays; [exact Tk|eapply pays_trans; [|exact Wk]]| |exact (proj1 Tb4)].
  - apply at_finishn; auto. unfold ush_autocomp_state_candidates_finish, ac_input. rewrite Pv, Ac, Ai, Ib. rewrite c_str_app by auto. cbn [bind]. rewrite Cd. cbn [deref bind].
    rewrite Cp. cbn [bind]. rewrite Cl. cbn [bind]. exact Ws.
  - exact St4.
Qed.

Lemma pays_prompt : forall a s p, o_state s = S_PROMPT_PREFIX -> cwd_is s p -> pays a (10 + length (prompt (o_desc s) p)) s (after_prompt p s).
Proof.
  intros a s p E W. pose proof (cwd_cur _ _ W) as C. eapply pays_le.
  {
  eapply pays_svc; [exact C|apply np; rewrite E; discriminate|unfold svc, ush_prompt_service; rewrite E; reflexivity|].
  eapply pays_trans; [apply pays_write_str; exact C|].
  eapply pays_svc; [exact C|apply np; discriminate|reflexivity|].
  eapply pays_trans; [apply pays_write_str; exact C|].
  eapply pays_svc; [exact C|apply np; discriminate|reflexivity|].
  eapply pays_trans; [apply pays_write_str; exact C|].
  destruct W as (nd & G & P).
  eapply pays_svc; [exact C|apply np; discriminate| |].
  { cbn [svc o_state after_write set_state]. unfold svc. cbn [o_state after_write set_state].
    unfold ush_prompt_service. cbn [o_state after_write set_state hp o_cur set_wnext set_wbuf set_wsize set_wpos set_lg].
    cbn. rewrite G. cbn [bind]. unfold path_of. rewrite P. cbn [bind]. reflexivity. }
  eapply pays_trans; [apply pays_write_str; exact C|].
  eapply pays_svc; [exact C|apply np; discriminate|reflexivity|].
  eapply pays_trans; [apply pays_write_str; exact C|].
  match goal with |- pays _ _ ?x _ => replace x with (after_prompt p s); [apply (pays_refl _ 0)|] end.
  unfold after_prompt, after_write, write_str, ush_write_pointer_bin.
  cbn [o_desc o_state o_wnext o_pnext o_wbuf o_wsize o_wpos lg set_state set_wnext set_wbuf set_wsize set_wpos set_lg].
  rewrite !map_app, <- !app_assoc. reflexivity. }
  cbn. unfold prompt. change (colour (d_cfg (o_desc s)) "[35m") with (sty_magenta (d_cfg (o_desc s))). change (colour (d_cfg (o_desc s)) "[0m") with (sty_reset (d_cfg (o_desc s))).
  rewrite path_last_label, !app_length. cbn [length lit list_ascii_of_string]. lia.
Qed.

Lemma acn_svc : forall a s s1, o_cur s <> None -> cfg_autocomp (d_cfg (o_desc s)) = true -> ac_mode (o_state s) -> ush_autocomp_service s = Ok (true, s1) -> pays a 1 s s1.
Proof.
  intros a s s1 C D A F. eapply pays_svc; [exact C| | |apply pays_refl].
  - intros P. unfold polling in P. destruct A as [A|[A|A]]; congruence.
  - unfold svc. destruct A as [A|[A|A]]; rewrite A, D, F; reflexivity.
Qed.

Lemma takes_le : forall a n m c s s', takes a n c s s' -> n <= m -> takes a m c s s'.
Proof. intros a n m c s s' (P & b & s2 & H & W) L. split; [exact P|]. exists b, s2. split; [exact H|]. eapply pays_le; eauto. Qed.
Lemma tab_manyn : forall a own w cwd k l s, at_tab own w cwd k l s -> tab_room (o_desc s) cwd l (candidates w cwd (last_word l)) -> 2 <= length (candidates w cwd (last_word l)) ->
  exists s2, takes a (3 + pass w cwd + S (length (common (candidates w cwd (last_word l))) - length (last_word l)) * S (pass w cwd)) TAB s s2 /\
    ground own w cwd s /\ tabbing k (before_word l) (common (candidates w cwd (last_word l))) s s2 [EvIn TAB] /\ no_nul (common (candidates w cwd (last_word l))) /\
    o_state s2 = S_AC_RECALL_SUFFIX /\ length (last_word l) + o_acsuf s2 = length (common (candidates w cwd (last_word l))) /\
    prefixb (last_word l) (common (candidates w cwd (last_word l))) = true.
Proof.
  intros a own w cwd k l s At Rm L2. pose proof (room_word own w cwd k l s At Rm) as L. destruct Rm as (Lp & Li). destruct (tab_countn a _ _ _ _ _ _ At L) as (s1 & Tk & G & Tb & N & St & Pv & Ac & Cd & Cu & Cf).
  set (cs := candidates w cwd (last_word l)) in *. destruct (last_of_some cs (o_accand s)) as (lc & El & Il); [intros Z; rewrite Z in L2; cbn in L2; lia|].
  pose proof G as (Kn & Cw & T & _). destruct (tried_many (last_word l) cs L2) as (Tm1 & Tm2). rewrite Tm1, Tm2 in Lp. rewrite Tm2 in Li.
  assert (Ll : last cs [] = lc) by (rewrite last_of_last in El; [injection El as <-; reflexivity|intros Z; rewrite Z in Il; exact Il]). rewrite Ll in Lp, Li.
  assert (Pl : plain_comp lc) by (destruct Kn as ((Fo & _) & _); eapply cand_plain; eauto).
  assert (Tb' : tabbing k (before_word l) (last_word l ++ []) s (set_acsuf 0 s1) [EvIn TAB]) by (rewrite app_nil_r; exact Tb).
  destruct (extendn a own w cwd s k (before_word l) (last_word l) cs lc (o_accand s) G eq_refl El Il L2 Lp Li _ [] (set_acsuf 0 s1) [EvIn TAB] eq_refl) as (s2 & s3 & Oc & Wk & St3 & Tb3 & Sf3 & Pf3 & _); auto.
  { intros n I. rewrite app_nil_r. apply filter_In in I. apply I. }
  { change (o_accand s1 = Some lc). rewrite Cd. exact El. }
  exists s3. rewrite app_nil_r in Wk. split; [apply (takes_le a (2 + pass w cwd + (1 + S (length (common cs) - length (last_word l)) * S (pass w cwd)))); [eapply takes_pays; [exact Tk|eapply pays_trans; [|exact Wk]]|lia]|].
  { apply at_finishn; auto. unfold ush_autocomp_state_candidates_finish. rewrite Pv, Ac. destruct (length cs) as [|[|q]] eqn:Lc; [lia|lia|]. exact Oc. }
  split; [exact G|]. split; [exact Tb3|]. split; [|auto]. intros I. apply (proj2 Pl). eapply prefix_In; [|exact I]. apply common_prefix. exact Il.
Qed.

Lemma tab_extend : forall a own w cwd k l s, let cs := candidates w cwd (last_word l) in at_tab own w cwd k l s -> tab_room (o_desc s) cwd l cs -> 2 <= length cs ->
  common cs <> last_word l -> answers a (5 + pass w cwd + S (length (common cs) - length (last_word l)) * S (pass w cwd) + length (skipn (length (last_word l)) (common cs))) s.
Proof.
  intros a own w cwd k l s cs At Rm L2 Ne. destruct (tab_manyn a _ _ _ _ _ _ At Rm L2) as (s2 & Tk & G & Tb & N & St & Sf & Pf). fold cs in Tb, N, Sf, Pf.
  destruct (tabbing_env _ _ _ _ _ _ _ _ _ Tb G) as (Cu & Cf). apply prefixb_spec in Pf as (z & Ez).
  assert (Lz : o_acsuf s2 = length z) by (rewrite Ez, app_length in Sf; lia).
  destruct (write_inn a k (before_word l) (common cs) s s2 [EvIn TAB] (last_word l) z Tb Cu N Ez) as (s3 & Ws & s4 & Wk & Tb4 & St4).
  replace (skipn (length (last_word l)) (common cs)) with z by (rewrite Ez, skipn_app, skipn_all, Nat.sub_diag; reflexivity).
  apply (answers_le a (3 + pass w cwd + S (length (common cs) - length (last_word l)) * S (pass w cwd) + (1 + S (length z)))); [apply (tab_endn _ _ _ s4); [eapply takes_pays; [exact Tk|eapply pays_trans; [|exact Wk]]|exact St4|exact (proj1 Tb4)]|lia].
  apply acn_svc; [exact Cu|exact Cf|left; exact St|]. unfold ush_autocomp_service. rewrite St. rewrite (suffix_at _ _ _ _ _ _ _ _ Tb N Ez Lz).
  destruct z as [|c z]; [rewrite app_nil_r in Ez; congruence|]. cbn [length Nat.ltb Nat.leb]. rewrite Ws. reflexivity.
Qed.

Lemma tab_list : forall a own w cwd k l s, let cs := candidates w cwd (last_word l) in at_tab own w cwd k l s -> tab_room (o_desc s) cwd l cs -> 2 <= length cs ->
  common cs = last_word l ->
  answers a (19 + 2 * pass w cwd + S (length (common cs) - length (last_word l)) * S (pass w cwd) + length (CRLF ++ flat_map (fun n => n ++ CRLF) cs ++ prompt (o_desc s) (show cwd) ++ l)) s.
Proof.
  intros a own w cwd k l s cs At Rm L2 Eq. destruct (tab_manyn a _ _ _ _ _ _ At Rm L2) as (s2 & Tk & G & Tb & N & St & Sf & Pf). fold cs in Tb, N, Sf, Pf. rewrite Eq in Tb, N, Sf. clear Pf.
  destruct (tabbing_env _ _ _ _ _ _ _ _ _ Tb G) as (Cu & Cf). assert (Lz : o_acsuf s2 = 0) by lia.
  pose (s3 := after_write (WStr CRLF) CRLF S_AC_PRINT (ush_autocomp_prepare_candidates s2)).
  assert (W3 : pays a (4 + 0) s2 s3).
  { change (4 + 0) with (1 + S (length CRLF)). eapply pays_trans; [|apply pays_write_str; exact Cu]. apply acn_svc; [exact Cu|exact Cf|left; exact St|]. unfold ush_autocomp_service. rewrite St.
    rewrite (suffix_at _ _ _ _ _ _ (last_word l) [] Tb N); [reflexivity|rewrite app_nil_r; reflexivity|exact Lz]. }
  assert (Tb3 : tabbing k (before_word l) (last_word l) s s3 ([EvIn TAB] ++ map EvOut CRLF)).
  { apply (tabbing_still _ _ _ _ s2); [exact Tb|reflexivity|reflexivity]. }
  assert (En3 : enum s3 = (S_AC_PRINT, 0, o_cmds s3, 0, 0, 0, o_accand s2)) by reflexivity.
  clearbody s3.
  destruct (enum_tabn a own w cwd s k _ _ s3 _ S_AC_PRINT (o_accand s2) G Tb3 N (room_word _ _ _ _ _ _ At Rm)) as (s4 & W4 & Tb4 & St4 & _ & _ & Pv4 & _); [right; right; reflexivity|exact En3|].
  fold cs in Tb4. cbv zeta in W4, Tb4. fold cs in W4. change (shown S_AC_PRINT ?t) with t in W4, Tb4. destruct (tabbing_env _ _ _ _ _ _ _ _ _ Tb4 G) as (Cu4 & Cf4).
  pose (s5 := set_state S_AC_PROMPT s4). assert (W5 : pays a 1 s4 s5) by (apply at_finishn; auto; unfold ush_autocomp_state_candidates_finish; rewrite Pv4; reflexivity).
  pose (s6 := ush_prompt_start S_AC_RECALL s5).
  assert (W6 : pays a 1 s5 s6) by (apply acn_svc; [exact Cu4|exact Cf4|right; left; reflexivity|reflexivity]).
  assert (Cw : cwd_is s6 (show cwd)).
  { pose proof G as (Kn & Cw & _). eapply cwd_show; [eapply knows_core; [|exact Kn]|exact Cw]. exact (proj1 Tb4). }
  pose (s7 := after_prompt (show cwd) s6). assert (W7 : pays a (10 + length (prompt (o_desc s) (show cwd))) s6 s7) by (assert (De : o_desc s6 = o_desc s) by (destruct Tb4 as (C4 & _); unfold core in C4; injection C4 as C4 _ _ _ _ _; exact C4); rewrite <- De; apply pays_prompt; [reflexivity|exact Cw]).
  assert (Tb7 : tabbing k (before_word l) (last_word l) s s7 ((([EvIn TAB] ++ map EvOut CRLF) ++ map EvOut (flat_map (fun n => n ++ CRLF) cs)) ++ map EvOut (prompt (o_desc s) (show cwd)))).
  { apply (tabbing_still _ _ _ _ s4); [exact Tb4|reflexivity|]. replace (o_desc s) with (o_desc s4) by (destruct Tb4 as (C4 & _); unfold core in C4; congruence).
    unfold s7, after_prompt, after_write, s6, s5, ush_prompt_start, prompt. rewrite <- path_last_label. cbv zeta. sfields. rewrite <- app_assoc, <- map_app, <- !app_assoc. reflexivity. }
  assert (St7 : o_state s7 = S_AC_RECALL) by reflexivity.
  clearbody s7. destruct (tabbing_env _ _ _ _ _ _ _ _ _ Tb7 G) as (Cu7 & Cf7).
  pose proof At as (_ & _ & _ & _ & Nl & _).
  assert (Ws : wptr_str (WIn 0) s7 = Ok l).
  { destruct Tb7 as (_ & _ & _ & _ & (r & Ib) & _). cbn [wptr_str]. rewrite Ib, app_assoc, <- before_last. apply c_str_0. exact Nl. }
  eapply answers_le; [apply (tab_endn _ _ _ (after_write (WIn 0) l S_READ_CHAR s7)); [|reflexivity|exact (proj1 Tb7)]|].
  - eapply takes_pays; [exact Tk|]. eapply pays_trans; [exact W3|]. eapply pays_trans; [exact W4|]. eapply pays_trans; [exact W5|]. eapply pays_trans; [exact W6|]. eapply pays_trans; [exact W7|].
    eapply pays_trans; [|apply pays_wpb; [exact Cu7|apply points_str; exact Ws]]. apply acn_svc; [exact Cu7|exact Cf7|right; right; exact St7|].
    unfold ush_autocomp_service. rewrite St7. rewrite (wp_eq _ _ _ _ Ws). reflexivity.
  - fold cs. rewrite !app_length. change (length CRLF) with 2. lia.
Qed.

(** ** All cases *)
Lemma tab_time : forall a own w k l s, at_tab own w (here w) k l s -> tab_room (o_desc s) (here w) l (candidates w (here w) (last_word l)) ->
  answers a (1 + length (fst (complete (o_desc s) w l)) + search w l) s.
Proof.
  intros a own w k l s At Rm. unfold complete, search. replace (one_pass w) with (S (pass w (here w))) by (unfold one_pass, pass; lia).
  destruct (candidates w (here w) (last_word l)) as [|n1 [|n2 cs]] eqn:C.
  - cbn [fst]. eapply answers_le; [eapply tab_none; eauto; exact (proj1 Rm)|]. cbn [length]. nia.
  - cbn [fst]. eapply answers_le; [eapply tab_one; eauto|]. nia.
  - rewrite <- C in *. assert (Len : 2 <= length (candidates w (here w) (last_word l))) by (rewrite C; cbn; lia).
    destruct (beq _ _) eqn:Eq; cbn [fst].
    + eapply answers_le; [eapply tab_list; eauto; apply beq_true; exact Eq|]. lia.
    + eapply answers_le; [eapply tab_extend; eauto; apply beq_false; exact Eq|]. lia.
Qed.
