(** * CompleteFacts: enumeration of the candidates. *)
From Coq Require Import Arith.
From Verif Require Import Shell BaseFacts LogFacts Sched ServiceFacts SchedFacts Macro Editor EditFacts Words Line SchedProofs Spec PathFacts CollapseFacts PathProofs Tree TreeFacts TreeOps Cmds Complete.

(** The part of the state an enumeration does not change, and its counters. *)
Definition still (s : st) := (core s, inb s, outb s, o_inpos s, o_esc s, o_acin s, o_acsuf s, o_acprevc s).
Definition enum (s : st) := (o_state s, o_pstage s, o_pnode s, o_pitem s, o_pidx s, o_account s, o_accand s).

Definition ac_state (x : fsm) : Prop := x = S_AC_COUNT \/ x = S_AC_OPTIMISE \/ x = S_AC_PRINT.

Definition goes (e : env) (s : st) (t : bytes) (s' : st) : Prop := works e s s' /\ still s' = still s /\ lg s' = lg s ++ map EvOut t.

Lemma goes_refl : forall e s, goes e s [] s.
Proof. intros. split; [constructor|]. split; [reflexivity|]. rewrite app_nil_r. reflexivity. Qed.
Lemma goes_trans : forall e a x b y c, goes e a x b -> goes e b y c -> goes e a (x ++ y) c.
Proof.
  intros e a x b y c (W1 & K1 & L1) (W2 & K2 & L2). split; [eapply works_trans; eauto|]. split; [congruence|].
  rewrite L2, L1, map_app, app_assoc. reflexivity.
Qed.

(** The word that is being completed, at its offset in the input buffer. *)
Definition has_word (off : nat) (w : bytes) (s : st) : Prop :=
  o_acin s = Some off /\ c_str (inb s) off = Ok w /\ o_cur s <> None /\ cfg_autocomp (d_cfg (o_desc s)) = true.

Lemma still_word : forall s s' off w, still s' = still s -> has_word off w s -> has_word off w s'.
Proof.
  intros s s' off w K (A & B & C & D). unfold still in K. injection K as C1 C2 C3 C4 C5 C6 K2 K3 K4 K5 K6 K7 K8.
  unfold has_word. rewrite K6, K2, C4, C1. auto.
Qed.
Lemma still_hp : forall s s', still s' = still s -> hp s' = hp s.
Proof. intros s s' K. unfold still, core in *. congruence. Qed.
Lemma still_core : forall s s', still s' = still s -> core s' = core s.
Proof. intros s s' K. unfold still, core in *. congruence. Qed.

Lemma ac_go : forall e s s1 off w, has_word off w s -> ac_state (o_state s) -> ush_autocomp_state_candidates_process s = Ok s1 -> works e s s1.
Proof.
  intros e s s1 off w (_ & _ & C & D) A E. eapply (works_svc e s true s1); [exact C| | |constructor].
  - intros P. unfold polling in P. destruct A as [A|[A|A]]; congruence.
  - unfold svc. destruct A as [A|[A|A]]; rewrite A, D; unfold ush_autocomp_service; rewrite A, E; reflexivity.
Qed.

(** What is printed for a name. *)
Definition shown (x : fsm) (t : bytes) : bytes := if fsm_eqb x S_AC_PRINT then t else [].

Lemma shown_app : forall x a b, shown x (a ++ b) = shown x a ++ shown x b.
Proof. intros x a b. unfold shown. destruct (fsm_eqb x S_AC_PRINT); reflexivity. Qed.
Lemma shown_nil : forall x, shown x [] = [].
Proof. intros x. unfold shown. destruct (fsm_eqb x S_AC_PRINT); reflexivity. Qed.

Lemma ac_put : forall e x t s0, o_cur s0 <> None -> o_state s0 = x ->
  exists s2, works e (if fsm_eqb x S_AC_PRINT then write_str t x s0 else s0) s2 /\ still s2 = still s0 /\ enum s2 = enum s0 /\ lg s2 = lg s0 ++ map EvOut (shown x t).
Proof.
  intros e x t s0 C St. unfold shown. destruct (fsm_eqb x S_AC_PRINT).
  - exists (after_write (WStr t) t x s0). split; [apply works_write_str; exact C|]. split; [reflexivity|]. split; [|reflexivity].
    unfold enum. rewrite St. reflexivity.
  - exists s0. split; [constructor|]. split; [reflexivity|]. split; [reflexivity|]. rewrite app_nil_r. reflexivity.
Qed.

(** One step that prints [t] (in state PRINT) and then is like [s0]. *)
Lemma ac_say : forall e x off w s s0 t, has_word off w s -> ac_state x -> o_state s = x -> o_state s0 = x -> still s0 = still s -> lg s0 = lg s ->
  ush_autocomp_state_candidates_process s = Ok (if fsm_eqb x S_AC_PRINT then write_str t x s0 else s0) ->
  exists s2, goes e s (shown x t) s2 /\ enum s2 = enum s0.
Proof.
  intros e x off w s s0 t W A St S0 K L E.
  assert (C0 : o_cur s0 <> None) by (destruct (still_word _ _ _ _ K W) as (_ & _ & C & _); exact C).
  destruct (ac_put e x t s0 C0 S0) as (s2 & Wk & K2 & En & L2). exists s2. split; [|exact En]. split; [|split].
  - eapply works_trans; [|exact Wk]. eapply ac_go; eauto. rewrite St. exact A.
  - congruence.
  - rewrite L2, L. reflexivity.
Qed.

Lemma ac_silent : forall e x off w s s0, has_word off w s -> ac_state x -> o_state s = x -> still s0 = still s -> lg s0 = lg s ->
  ush_autocomp_state_candidates_process s = Ok s0 -> goes e s [] s0.
Proof.
  intros e x off w s s0 W A St K L E. split; [eapply ac_go; eauto; rewrite St; exact A|]. split; [exact K|]. rewrite app_nil_r. exact L.
Qed.

Lemma ac_then : forall e s x y (P Q : st -> Prop), (exists s1, goes e s x s1 /\ P s1) -> (forall s1, still s1 = still s -> P s1 -> exists s2, goes e s1 y s2 /\ Q s2) ->
  exists s2, goes e s (x ++ y) s2 /\ Q s2.
Proof.
  intros e s x y P Q (s1 & G1 & P1) H. destruct (H s1) as (s2 & G2 & Q2); [apply G1|exact P1|]. exists s2. split; [eapply goes_trans; eauto|exact Q2].
Qed.

(** Counting names. *)
Definition counted (x : fsm) (w : bytes) (ns : list bytes) : bytes := shown x (flat_map (fun n => n ++ CRLF) (filter (prefixb w) ns)).
Fixpoint last_of (c : option bytes) (ns : list bytes) : option bytes := match ns with [] => c | n :: r => last_of (Some n) r end.
Definition count_of (w : bytes) (ns : list bytes) (n : nat) : nat := n + length (filter (prefixb w) ns).

Lemma last_of_app : forall a b c, last_of c (a ++ b) = last_of (last_of c a) b.
Proof. induction a as [|x a IH]; intros b c; [reflexivity|]. cbn [app last_of]. apply IH. Qed.
Lemma counted_app : forall x w a b, counted x w (a ++ b) = counted x w a ++ counted x w b.
Proof. intros. unfold counted. rewrite filter_app, flat_map_app, shown_app. reflexivity. Qed.
Lemma count_app : forall w a b n, count_of w (a ++ b) n = count_of w b (count_of w a n).
Proof. intros. unfold count_of. rewrite filter_app, app_length. lia. Qed.
Lemma last_of_filter_app : forall w a b c, last_of c (filter (prefixb w) (a ++ b)) = last_of (last_of c (filter (prefixb w) a)) (filter (prefixb w) b).
Proof. intros. rewrite filter_app. apply last_of_app. Qed.

Ltac en H := unfold enum in H; injection H as ? ? ? ? ? ? ?.

(** A matching name in any stage: three service calls. *)
Lemma ac_file : forall e x off w st i k n c s nd f, has_word off w s -> ac_state x -> st = 0 \/ st = 1 ->
  enum s = (x, st, Some i, k, 0, n, c) -> nth_error (hp s) i = Some nd -> nth_error (n_files nd) k = Some f ->
  exists s', goes e s (counted x w [f_name f]) s' /\ enum s' = (x, st, Some i, S k, 0, count_of w [f_name f] n, last_of c (filter (prefixb w) [f_name f])).
Proof.
  intros e x off w st i k n c s nd f W A S01 E Hn F.
  assert (Step : forall s1 j n1 c1, still s1 = still s -> enum s1 = (x, st, Some i, k, j, n1, c1) ->
    ush_autocomp_state_candidates_process s1 = if prefixb w (f_name f) then ush_autocomp_process_file_index (Some f) s1 else Ok (set_pidx 0 (set_pitem (S k) s1))).
  { intros s1 j n1 c1 K E1. en E1. pose proof (still_word _ _ _ _ K W) as (W1 & W2 & W3 & W4).
    assert (G : getp (hp s1) (Some i) = Ok nd) by (cbn [getp]; rewrite (still_hp _ _ K); apply getn_ok; exact Hn).
    assert (Lk : k < length (n_files nd)) by (apply nth_error_Some; congruence).
    assert (N1 : ush_autocomp_check_for_next s1 = Ok (false, s1)).
    { unfold ush_autocomp_check_for_next. rewrite H0, H1, H2. destruct S01 as [-> | ->]; rewrite G; cbn [bind]; destruct (Nat.leb_spec (length (n_files nd)) k); (lia || reflexivity). }
    assert (N2 : ush_autocomp_process_file_prepare s1 = if prefixb w (f_name f) then Ok (false, Some f, s1) else Ok (true, Some f, set_pidx 0 (set_pitem (S k) s1))).
    { unfold ush_autocomp_process_file_prepare, ac_input, ush_utils_startswith. rewrite W1, W2. cbn [bind]. rewrite H0, H1, H2. unfold rd. destruct S01 as [-> | ->]; rewrite G; cbn [bind]; rewrite F; reflexivity. }
    unfold ush_autocomp_state_candidates_process. rewrite H1, N1. cbn [bind]. rewrite N2. destruct (prefixb w (f_name f)); reflexivity. }
  unfold counted, count_of. cbn [filter]. destruct (prefixb w (f_name f)) eqn:Pf.
  - cbn [flat_map length last_of]. rewrite app_nil_r, shown_app. rewrite <- (app_nil_r (shown x CRLF)).
    eapply ac_then with (P := fun s1 => enum s1 = (x, st, Some i, k, 1, S n, Some (f_name f))).
    { destruct (ac_say e x off w s (set_accand (Some (f_name f)) (set_account (S n) (set_pidx 1 s))) (f_name f) W A) as (s2 & G & E2); try reflexivity.
      - en E. assumption.
      - en E. assumption.
      - rewrite (Step s 0 n c eq_refl E). en E. unfold ush_autocomp_process_file_index. rewrite H3, H0, H. destruct S01 as [-> | ->]; cbn [deref bind]; destruct (fsm_eqb x S_AC_PRINT); cbn [o_account set_state set_wnext set_wbuf set_wsize set_wpos write_str ush_write_pointer_bin]; rewrite H4; reflexivity.
      - exists s2. split; [exact G|]. rewrite E2. en E. unfold enum. cbn [o_state o_pstage o_pnode o_pitem o_pidx o_account o_accand set_accand set_account set_pidx]. congruence. }
    intros s1 K1 E1. pose proof (still_word _ _ _ _ K1 W) as W1.
    eapply ac_then with (P := fun s1 => enum s1 = (x, st, Some i, k, 2, S n, Some (f_name f))).
    { destruct (ac_say e x off w s1 (set_pidx 2 s1) CRLF W1 A) as (s2 & G & E2); try reflexivity.
      - en E1. assumption.
      - en E1. assumption.
      - rewrite (Step s1 1 _ _ K1 E1). en E1. unfold ush_autocomp_process_file_index. rewrite H3, H. destruct (fsm_eqb x S_AC_PRINT); reflexivity.
      - exists s2. split; [exact G|]. rewrite E2. en E1. unfold enum. cbn [o_state o_pstage o_pnode o_pitem o_pidx o_account o_accand set_pidx]. congruence. }
    intros s2 K2 E2. pose proof (eq_trans K2 K1) as K. pose proof (still_word _ _ _ _ K W) as W2.
    exists (set_pidx 0 (set_pitem (S k) s2)). split.
    + apply (ac_silent e x off w); auto; [en E2; assumption|]. rewrite (Step s2 2 _ _ K E2). en E2. unfold ush_autocomp_process_file_index. rewrite H3, H0, H2. destruct S01 as [-> | ->]; reflexivity.
    + en E2. unfold enum. cbn [o_state o_pstage o_pnode o_pitem o_pidx o_account o_accand set_pidx set_pitem]. repeat f_equal; auto; lia.
  - cbn [flat_map length last_of]. rewrite shown_nil, Nat.add_0_r. exists (set_pidx 0 (set_pitem (S k) s)). split.
    + apply (ac_silent e x off w); auto; [en E; assumption|]. apply (Step s 0 n c eq_refl E).
    + en E. unfold enum. cbn [o_state o_pstage o_pnode o_pitem o_pidx o_account o_accand set_pidx set_pitem]. congruence.
Qed.

Lemma ac_files : forall e x off w st i nd fl pre n c s, has_word off w s -> ac_state x -> st = 0 \/ st = 1 ->
  enum s = (x, st, Some i, length pre, 0, n, c) -> nth_error (hp s) i = Some nd -> n_files nd = pre ++ fl ->
  exists s', goes e s (counted x w (map f_name fl)) s' /\
    enum s' = (x, st, Some i, length (n_files nd), 0, count_of w (map f_name fl) n, last_of c (filter (prefixb w) (map f_name fl))).
Proof.
  intros e x off w st i nd fl. induction fl as [|f fl IH]; intros pre n c s W A S01 E Hn F.
  - exists s. cbn [map]. unfold counted, count_of. cbn [filter flat_map length last_of]. rewrite shown_nil, Nat.add_0_r. rewrite app_nil_r in F. rewrite F. split; [apply goes_refl|exact E].
  - change (map f_name (f :: fl)) with ([f_name f] ++ map f_name fl). rewrite counted_app, count_app, last_of_filter_app.
    eapply ac_then; [eapply (ac_file e x off w st i (length pre) n c s nd f); eauto; rewrite F, nth_error_app2, Nat.sub_diag by lia; reflexivity|].
    intros s1 K1 E1. apply (IH (pre ++ [f])); auto.
    + eapply still_word; eauto.
    + cbv beta in E1. rewrite E1, app_length. cbn [length]. rewrite Nat.add_1_r. reflexivity.
    + rewrite (still_hp _ _ K1). exact Hn.
    + rewrite <- app_assoc. exact F.
Qed.

(** The command groups (stage 0), up to the start of stage 1. *)
Lemma ac_groups : forall e x off w gs p n c s, has_word off w s -> ac_state x -> enum s = (x, 0, p, 0, 0, n, c) -> chain (hp s) p (map fst gs) ->
  (forall i fl, In (i, fl) gs -> exists nd, nth_error (hp s) i = Some nd /\ n_files nd = fl) ->
  let ns := map f_name (flat_map snd gs) in
  exists s', goes e s (counted x w ns) s' /\ enum s' = (x, 1, o_cur s, 0, 0, count_of w ns n, last_of c (filter (prefixb w) ns)).
Proof.
  intros e x off w gs. cbv zeta. induction gs as [|(i, fl) gs IH]; intros p n c s W A E C G.
  - cbn in C. subst p. cbn [flat_map map]. unfold counted, count_of. cbn [filter flat_map length last_of]. rewrite shown_nil, Nat.add_0_r.
    exists (set_pstage 1 (set_pitem 0 (set_pidx 0 (set_pnode (o_cur s) s)))). en E. split.
    + apply (ac_silent e x off w); auto. unfold ush_autocomp_state_candidates_process, ush_autocomp_check_for_finish. rewrite H1, H0. reflexivity.
    + unfold enum. cbn [o_state o_pstage o_pnode o_pitem o_pidx o_account o_accand set_pidx set_pitem set_pstage set_pnode]. congruence.
  - cbn [map fst chain] in C. destruct C as (-> & nd & Hn & C). destruct (G i fl (or_introl eq_refl)) as (nd' & Hn' & Nf).
    assert (nd' = nd) by congruence. subst nd'. cbn [flat_map snd]. rewrite map_app. rewrite counted_app, count_app, last_of_filter_app.
    eapply ac_then; [apply (ac_files e x off w 0 i nd fl [] n c s); auto|]. intros s1 K1 E1. cbv beta in E1. pose proof (still_word _ _ _ _ K1 W) as W1.
    rewrite <- (app_nil_l (counted x w (map f_name (flat_map snd gs)))).
    eapply ac_then with (P := fun s2 => enum s2 = (x, 0, n_next nd, 0, 0, count_of w (map f_name fl) n, last_of c (filter (prefixb w) (map f_name fl)))).
    { exists (set_pnode (n_next nd) (set_pitem 0 s1)). en E1. split.
      - apply (ac_silent e x off w); auto. unfold ush_autocomp_state_candidates_process. rewrite H1. unfold ush_autocomp_check_for_next.
        rewrite H0, H1, (still_hp _ _ K1). cbn [getp]. rewrite (getn_ok _ _ _ Hn). cbn [bind]. rewrite H2, Nat.leb_refl. reflexivity.
      - unfold enum. cbn [o_state o_pstage o_pnode o_pitem o_pidx o_account o_accand set_pitem set_pnode]. congruence. }
    intros s2 K2 E2. pose proof (eq_trans K2 K1) as K. destruct (IH (n_next nd) (count_of w (map f_name fl) n) (last_of c (filter (prefixb w) (map f_name fl))) s2) as (s3 & G3 & E3); auto.
    + eapply still_word; eauto.
    + rewrite (still_hp _ _ K). exact C.
    + intros j gl I. rewrite (still_hp _ _ K). apply G. right; exact I.
    + exists s3. split; [exact G3|]. cbv beta zeta in E3. rewrite E3. pose proof (still_core _ _ K) as Kc. unfold core in Kc. injection Kc as _ _ _ Kc _ _. rewrite Kc. reflexivity.
Qed.

(** ** Which directory is consulted *)
Lemma prefix_In : forall p s c, prefixb p s = true -> In c p -> In c s.
Proof. intros p s c H I. apply prefixb_spec in H as (r & ->). apply in_or_app. left. exact I. Qed.

Lemma filter_none : forall A (f : A -> bool) l, (forall x, In x l -> f x = false) -> filter f l = [].
Proof. intros A f l H. induction l as [|a l IH]; [reflexivity|]. cbn [filter]. rewrite H by (left; reflexivity). apply IH. intros x I. apply H. right; exact I. Qed.

Lemma dir_name_ok : forall fs d, fs_ok fs -> In d fs -> de_path d <> [] -> comp_ok (dir_name d).
Proof.
  intros fs d (F & _) I N. rewrite Forall_forall in F. specialize (F d I). unfold dir_name. rewrite (snoc_form _ N) in F. apply Forall_app in F as (_ & F). inversion F; auto.
Qed.

Lemma sub_names_none : forall w p x, fs_ok (w_fs w) -> tidy w -> In SL x \/ (exists r, x = "."%char :: r) -> filter (prefixb x) (map dir_name (children p (w_fs w))) = [].
Proof.
  intros w p x F (_ & _ & T) H. apply filter_none. intros n I. apply in_map_iff in I as (d & <- & I). apply children_in in I as (I & N & _).
  destruct (prefixb x (dir_name d)) eqn:P; [|reflexivity]. exfalso. destruct H as [H|(r & ->)].
  - apply (prefix_In _ _ _ P) in H. destruct (dir_name_ok _ _ F I N) as (_ & X & _). contradiction.
  - apply prefixb_spec in P as (q & P). apply (T d (r ++ q) I P).
Qed.

Lemma no_dots_cwd : forall w p d, fs_ok (w_fs w) -> tidy w -> dir_at p (w_fs w) = Some d -> Forall no_dots p.
Proof.
  intros w p. induction p as [|c p IH] using rev_ind; intros d F T D; [constructor|]. apply Forall_app. pose proof F as (_ & Nd & _ & Pa). apply dir_at_some in D as (I & E).
  split.
  - specialize (Pa d I). rewrite E in Pa. assert (X : p ++ [c] <> []) by (destruct p; discriminate). specialize (Pa X). rewrite removelast_last in Pa. apply in_map_iff in Pa as (d' & E' & I').
    apply (IH d' F T). rewrite <- E'. apply dir_at_in; auto.
  - constructor; [|constructor]. destruct T as (_ & _ & T). assert (X : dir_name d = c) by (unfold dir_name; rewrite E, last_last; reflexivity). split; intros Y; apply (T d (tl c) I); rewrite X, Y; reflexivity.
Qed.

Lemma tab_dir : forall own s w cwd off x, knows own s w -> w_cwd w = Some cwd -> tidy w -> has_word off x s -> no_nul x -> length (full_text cwd x) < d_pathmax (o_desc s) -> o_pstage s = 1 ->
  exists d nd, In d (w_fs w) /\ nth_error (hp s) (de_node d) = Some nd /\
    ush_autocomp_check_for_finish s = Ok (set_pstage 2 (set_pitem 0 (set_pidx 0 (set_pnode (n_children nd) s)))) /\
    filter (prefixb x) (map dir_name (children (de_path d) (w_fs w))) = filter (prefixb x) (map dir_name (children cwd (w_fs w))).
Proof.
  intros own s w cwd off x Kn Cw T (W1 & W2 & W3 & W4) N L Ps.
  pose proof Kn as (R & _ & _ & _ & _ & Wc). rewrite Cw in Wc. destruct Wc as (dc & Dc & Ec). pose proof R as (Fo & St & _).
  pose proof (dir_at_some _ _ _ Dc) as (Ic & Pc). destruct (St dc Ic) as (ndc & Enc & _).
  destruct (abs_path_world own s w x Kn N) as (Ab & _ & Okc); [rewrite Cw; discriminate|]. unfold here in *. rewrite Cw in *. specialize (Ab L).
  assert (Fin : forall pn d nd, (match x with [] => Ok (o_cur s) | _ => r <- ush_node_get_parent_by_path (d_pathmax (o_desc s)) (hp s) (o_root s) (show (resolve_text cwd x)) ;;
      match r with None => Ok (o_cur s) | Some i => Ok (Some i) end end) = Ok pn -> pn = Some (de_node d) -> nth_error (hp s) (de_node d) = Some nd ->
      ush_autocomp_check_for_finish s = Ok (set_pstage 2 (set_pitem 0 (set_pidx 0 (set_pnode (n_children nd) s))))).
  { intros pn d nd E1 E2 E3. unfold ush_autocomp_check_for_finish, ac_input. rewrite Ps, W1, W2. cbn [bind]. rewrite Ab. cbn [bind]. rewrite E1. cbn [bind]. rewrite E2. cbn [getp]. rewrite (getn_ok _ _ _ E3). reflexivity. }
  destruct x as [|c r] eqn:Ex.
  { exists dc, ndc. split; [exact Ic|]. split; [exact Enc|]. split; [eapply Fin; eauto|]. rewrite Pc. reflexivity. }
  rewrite <- Ex in *. assert (Nx : x <> []) by (rewrite Ex; discriminate).
  assert (Nr : no_nul (show (resolve_text cwd x))) by (apply resolve_text_no_nul; auto).
  assert (Lr : length (show (resolve_text cwd x)) < d_pathmax (o_desc s)) by (pose proof (resolve_text_length cwd x); lia).
  assert (Gen : exists d nd, In d (w_fs w) /\ nth_error (hp s) (de_node d) = Some nd /\ ush_autocomp_check_for_finish s = Ok (set_pstage 2 (set_pitem 0 (set_pidx 0 (set_pnode (n_children nd) s))))).
  { destruct (path_upper_any _ Nr) as (b & u & U1 & U2 & U3 & U4).
    assert (G : ush_node_get_parent_by_path (d_pathmax (o_desc s)) (hp s) (o_root s) (show (resolve_text cwd x)) = Ok (match u with [] => None | _ => option_map de_node (dir_named u (w_fs w)) end))
      by (eapply parent_by_text; eauto; lia).
    remember (match u with [] => None | _ => option_map de_node (dir_named u (w_fs w)) end) as r0 eqn:Er. destruct r0 as [i|].
    - assert (exists d, In d (w_fs w) /\ de_node d = i) as (d & Id & <-).
      { destruct u as [|c0 u]; [discriminate|]. destruct (dir_named (c0 :: u) (w_fs w)) as [d|] eqn:Dn; [|discriminate]. injection Er as ->. exists d. split; [|reflexivity]. apply (dir_named_some _ _ _ Fo Dn). }
      destruct (St d Id) as (nd & En & _). exists d, nd. split; [exact Id|]. split; [exact En|]. apply (Fin (Some (de_node d)) d nd); auto. rewrite Ex in G |- *. rewrite G. reflexivity.
    - exists dc, ndc. split; [exact Ic|]. split; [exact Enc|]. apply (Fin (o_cur s) dc ndc); auto. rewrite Ex in G |- *. rewrite G. reflexivity. }
  destruct (existsb (ceq SL) x) eqn:Sl.
  { apply existsb_exists in Sl as (y & Iy & Ey). apply ceq_true in Ey. subst y. destruct Gen as (d & nd & G1 & G2 & G3). exists d, nd. split; [exact G1|]. split; [exact G2|]. split; [exact G3|].
    rewrite !sub_names_none; auto. }
  assert (Ns : ~ In SL x) by (intros I; assert (existsb (ceq SL) x = true) by (apply existsb_exists; exists SL; split; [exact I|apply ceq_refl]); congruence).
  destruct (ceq c "."%char) eqn:Dot.
  { apply ceq_true in Dot. subst c. destruct Gen as (d & nd & G1 & G2 & G3). exists d, nd. split; [exact G1|]. split; [exact G2|]. split; [exact G3|].
    rewrite !sub_names_none; auto; right; exists r; exact Ex. }
  exists dc, ndc. split; [exact Ic|]. split; [exact Enc|]. split; [|rewrite Pc; reflexivity].
  assert (Hx : comp_ok x) by (split; [exact Nx|split; assumption]).
  assert (Hr : resolve_text cwd x = cwd ++ [x]).
  { destruct (resolve_text_typed cwd [x]) as (Rt & _); auto; try discriminate.
    - exact (no_dots_cwd w cwd dc Fo T Dc).
    - constructor; [exact Hx|constructor].
    - replace (typed [x]) with x in Rt by (cbn; rewrite ?app_nil_r; reflexivity). rewrite Rt. unfold resolve. cbn [fold_left]. unfold walk.
      rewrite !beq_neq; [reflexivity| |]; intros Y; rewrite Ex in Y; injection Y as Y _; rewrite Y, ceq_refl in Dot; discriminate. }
  assert (Sh : show (cwd ++ [x]) = slashed (cwd ++ [x])) by (destruct cwd; reflexivity).
  rewrite Hr, Sh in *.
  assert (G : ush_node_get_parent_by_path (d_pathmax (o_desc s)) (hp s) (o_root s) (slashed (cwd ++ [x])) = Ok (Some (de_node dc))).
  { rewrite (parent_snoc _ _ _ _ _ _ R Ns Nr).
    - rewrite dir_named_show; auto; [rewrite Dc; reflexivity|]. apply Fo.
    - apply slashed_not_root; [destruct cwd; discriminate|]. intros Y. destruct cwd as [|a [|b q]]; cbn in Y; try discriminate. injection Y as Y. congruence.
    - rewrite slashed_snoc, app_length in Lr. cbn [length] in Lr. destruct cwd as [|a q]; [cbn [show length]; lia|]. change (show (a :: q)) with (slashed (a :: q)). lia. }
  apply (Fin (Some (de_node dc)) dc ndc); auto. rewrite Ex in G |- *. rewrite G. reflexivity.
Qed.

Lemma stands_chain : forall h fs d nd, fs_ok fs -> (forall d, In d fs -> stands h fs d) -> In d fs -> nth_error h (de_node d) = Some nd ->
  chain h (n_children nd) (map de_node (children (de_path d) fs)) /\
  forall d', In d' (children (de_path d) fs) -> de_path d' <> [] /\ path_ok (de_path d') /\ exists nd', nth_error h (de_node d') = Some nd' /\ n_path nd' = Some (show (de_path d')).
Proof.
  intros h fs d nd (F & _) St I En. split.
  - destruct (St d I) as (nd' & En' & _ & _ & _ & C). congruence.
  - intros d' I'. apply children_in in I' as (I' & N & _). split; [exact N|]. split; [rewrite Forall_forall in F; auto|]. destruct (St d' I') as (nd' & En' & P & _). exists nd'. auto.
Qed.

(** A sub-directory (stage 2). *)
Lemma ac_child : forall e x off w i n c s nd q, has_word off w s -> ac_state x -> enum s = (x, 2, Some i, 0, 0, n, c) -> nth_error (hp s) i = Some nd ->
  n_path nd = Some (show q) -> path_ok q -> q <> [] ->
  exists s', goes e s (counted x w [last q []]) s' /\ enum s' = (x, 2, n_next nd, 0, 0, count_of w [last q []] n, last_of c (filter (prefixb w) [last q []])).
Proof.
  intros e x off w i n c s nd q W A E Hn Pq Qo Qn. set (nm := last q []).
  assert (Pl : ush_utils_path_last (show q) = nm) by (rewrite path_last_show by exact Qo; destruct q; [congruence|reflexivity]).
  assert (Step : forall s1 j n1 c1, still s1 = still s -> enum s1 = (x, 2, Some i, 0, j, n1, c1) ->
    ush_autocomp_state_candidates_process s1 = if prefixb w nm then ush_autocomp_process_file_index None (set_acname (Some nm) s1) else Ok (set_pidx 0 (set_pnode (n_next nd) (set_acname (Some nm) s1)))).
  { intros s1 j n1 c1 K E1. en E1. pose proof (still_word _ _ _ _ K W) as (W1 & W2 & W3 & W4).
    assert (G : getp (hp s1) (Some i) = Ok nd) by (cbn [getp]; rewrite (still_hp _ _ K); apply getn_ok; exact Hn).
    assert (N1 : ush_autocomp_check_for_next s1 = Ok (false, s1)) by (unfold ush_autocomp_check_for_next; rewrite H0; reflexivity).
    assert (N2 : ush_autocomp_process_file_prepare s1 = if prefixb w nm then Ok (false, None, set_acname (Some nm) s1) else Ok (true, None, set_pidx 0 (set_pnode (n_next nd) (set_acname (Some nm) s1)))).
    { unfold ush_autocomp_process_file_prepare, ac_input, ush_utils_startswith. rewrite W1, W2. cbn [bind]. rewrite H0, H1, G. cbn [bind]. unfold path_of. rewrite Pq. cbn [bind]. rewrite Pl. reflexivity. }
    unfold ush_autocomp_state_candidates_process. rewrite H1, N1. cbn [bind]. rewrite N2. destruct (prefixb w nm); reflexivity. }
  unfold counted, count_of. cbn [filter]. destruct (prefixb w nm) eqn:Pf.
  - cbn [flat_map length last_of]. rewrite app_nil_r, shown_app. rewrite <- (app_nil_r (shown x CRLF)).
    eapply ac_then with (P := fun s1 => enum s1 = (x, 2, Some i, 0, 1, S n, Some nm)).
    { destruct (ac_say e x off w s (set_accand (Some nm) (set_account (S n) (set_pidx 1 (set_acname (Some nm) s)))) nm W A) as (s2 & G & E2); try reflexivity.
      - en E. assumption.
      - en E. assumption.
      - rewrite (Step s 0 n c eq_refl E). en E. unfold ush_autocomp_process_file_index. cbn [o_pidx o_pstage o_state o_acname set_acname]. rewrite H3, H0, H. cbn [deref bind]. destruct (fsm_eqb x S_AC_PRINT); cbn [bind]; cbn [o_account set_state set_wnext set_wbuf set_wsize set_wpos write_str ush_write_pointer_bin set_acname]; rewrite H4; reflexivity.
      - exists s2. split; [exact G|]. rewrite E2. en E. unfold enum. cbn [o_state o_pstage o_pnode o_pitem o_pidx o_account o_accand set_accand set_account set_pidx set_acname]. congruence. }
    intros s1 K1 E1. pose proof (still_word _ _ _ _ K1 W) as W1.
    eapply ac_then with (P := fun s1 => enum s1 = (x, 2, Some i, 0, 2, S n, Some nm)).
    { destruct (ac_say e x off w s1 (set_pidx 2 (set_acname (Some nm) s1)) CRLF W1 A) as (s2 & G & E2); try reflexivity.
      - en E1. assumption.
      - en E1. assumption.
      - rewrite (Step s1 1 _ _ K1 E1). en E1. unfold ush_autocomp_process_file_index. cbn [o_pidx o_state set_acname]. rewrite H3, H. destruct (fsm_eqb x S_AC_PRINT); reflexivity.
      - exists s2. split; [exact G|]. rewrite E2. en E1. unfold enum. cbn [o_state o_pstage o_pnode o_pitem o_pidx o_account o_accand set_pidx set_acname]. congruence. }
    intros s2 K2 E2. pose proof (eq_trans K2 K1) as K. pose proof (still_word _ _ _ _ K W) as W2.
    exists (set_pidx 0 (set_pnode (n_next nd) (set_acname (Some nm) s2))). split.
    + apply (ac_silent e x off w); auto; [en E2; assumption|]. rewrite (Step s2 2 _ _ K E2). en E2. unfold ush_autocomp_process_file_index. cbn [o_pidx o_pstage o_pnode hp set_acname]. rewrite H3, H0, H1.
      cbn [getp]. rewrite (still_hp _ _ K), (getn_ok _ _ _ Hn). reflexivity.
    + en E2. unfold enum. cbn [o_state o_pstage o_pnode o_pitem o_pidx o_account o_accand set_pidx set_pnode set_acname]. repeat f_equal; auto; lia.
  - cbn [flat_map length last_of]. rewrite shown_nil, Nat.add_0_r. exists (set_pidx 0 (set_pnode (n_next nd) (set_acname (Some nm) s))). split.
    + apply (ac_silent e x off w); auto; [en E; assumption|]. apply (Step s 0 n c eq_refl E).
    + en E. unfold enum. cbn [o_state o_pstage o_pnode o_pitem o_pidx o_account o_accand set_pidx set_pnode set_acname]. congruence.
Qed.

(** The sub-directories, up to the end of the enumeration. *)
Lemma ac_children : forall e x off w ds p n c s, has_word off w s -> ac_state x -> enum s = (x, 2, p, 0, 0, n, c) -> chain (hp s) p (map de_node ds) ->
  (forall d, In d ds -> de_path d <> [] /\ path_ok (de_path d) /\ exists nd, nth_error (hp s) (de_node d) = Some nd /\ n_path nd = Some (show (de_path d))) ->
  let ns := map dir_name ds in
  exists s', goes e s (counted x w ns) s' /\ enum s' = (S_AC_FINISH, 2, None, 0, 0, count_of w ns n, last_of c (filter (prefixb w) ns)) /\ o_acprev s' = x.
Proof.
  intros e x off w ds. cbv zeta. induction ds as [|d ds IH]; intros p n c s W A E C G.
  - cbn in C. subst p. cbn [map]. unfold counted, count_of. cbn [filter flat_map length last_of]. rewrite shown_nil, Nat.add_0_r.
    exists (set_state S_AC_FINISH (set_acprev (o_state s) s)). en E. split; [|split].
    + apply (ac_silent e x off w); auto. unfold ush_autocomp_state_candidates_process, ush_autocomp_check_for_finish. rewrite H1, H0. reflexivity.
    + unfold enum. cbn [o_state o_pstage o_pnode o_pitem o_pidx o_account o_accand set_state set_acprev]. congruence.
    + exact H.
  - cbn [map chain] in C. destruct C as (-> & nd & Hn & C). destruct (G d (or_introl eq_refl)) as (Dn & Dk & nd' & Hn' & Dp). assert (nd' = nd) by congruence. subst nd'.
    change (map dir_name (d :: ds)) with ([dir_name d] ++ map dir_name ds). rewrite counted_app, count_app, last_of_filter_app.
    eapply ac_then; [apply (ac_child e x off w (de_node d) n c s nd (de_path d)); auto|]. intros s1 K1 E1. cbv beta in E1.
    apply (IH (n_next nd)); auto.
    + eapply still_word; eauto.
    + rewrite (still_hp _ _ K1). exact C.
    + intros d' I. rewrite (still_hp _ _ K1). apply G. right; exact I.
Qed.

Lemma counted_filter : forall x w a b, filter (prefixb w) a = filter (prefixb w) b -> counted x w a = counted x w b /\ (forall n, count_of w a n = count_of w b n).
Proof. intros x w a b E. unfold counted, count_of. rewrite E. auto. Qed.

(** Commands and files of the current directory. *)
Lemma enum_half : forall e x off w own wd cwd s c, has_word off w s -> ac_state x -> knows own s wd -> w_cwd wd = Some cwd ->
  enum s = (x, 0, o_cmds s, 0, 0, 0, c) -> exists dc, dir_at cwd (w_fs wd) = Some dc /\
  let A1 := map f_name (flat_map snd (w_groups wd)) in let A2 := map f_name (de_files dc) in
  exists s3, goes e s (counted x w A1 ++ counted x w A2) s3 /\ has_word off w s3 /\ knows own s3 wd /\
    enum s3 = (x, 1, None, 0, 0, count_of w A2 (count_of w A1 0), last_of (last_of c (filter (prefixb w) A1)) (filter (prefixb w) A2)).
Proof.
  intros e x off w own wd cwd s c W A Kn Cw E. pose proof Kn as (R & (Gn & Gc & Gf) & _ & _ & _ & Wc). rewrite Cw in Wc. destruct Wc as (dc & Dc & Ec).
  exists dc. split; [exact Dc|]. cbv zeta.
  pose proof (dir_at_some _ _ _ Dc) as (Ic & Pc). pose proof R as (Fo & St & _). destruct (St dc Ic) as (ndc & Enc & _ & Fc & _).
  set (A1 := map f_name (flat_map snd (w_groups wd))). set (A2 := map f_name (de_files dc)).
  destruct (ac_groups e x off w (w_groups wd) (o_cmds s) 0 c s W A E Gc Gf) as (s1 & G1 & E1). cbv zeta in E1. fold A1 in G1, E1. pose proof G1 as (_ & K1 & _).
  pose proof (still_word _ _ _ _ K1 W) as W1. rewrite Ec in E1.
  destruct (ac_files e x off w 1 (de_node dc) ndc (de_files dc) [] (count_of w A1 0) (last_of c (filter (prefixb w) A1)) s1 W1 A (or_intror eq_refl) E1) as (s2 & G2 & E2); [rewrite (still_hp _ _ K1); exact Enc|exact Fc|].
  fold A2 in G2, E2. pose proof G2 as (_ & K2 & _). pose proof (eq_trans K2 K1) as K. pose proof (still_word _ _ _ _ K W) as W2.
  pose (s3 := set_pnode None (set_pitem 0 s2)).
  assert (G3 : goes e s2 [] s3).
  { en E2. apply (ac_silent e x off w); auto. unfold ush_autocomp_state_candidates_process. rewrite H1. unfold ush_autocomp_check_for_next. rewrite H0, H1, (still_hp _ _ K). cbn [getp].
    rewrite (getn_ok _ _ _ Enc). cbn [bind]. rewrite H2, Nat.leb_refl. reflexivity. }
  pose proof (still_word _ _ _ _ (proj1 (proj2 G3)) W2) as W3. assert (K3 : still s3 = still s) by exact K.
  assert (E3 : enum s3 = (x, 1, None, 0, 0, count_of w A2 (count_of w A1 0), last_of (last_of c (filter (prefixb w) A1)) (filter (prefixb w) A2))).
  { en E2. unfold s3, enum. cbn [o_state o_pstage o_pnode o_pitem o_pidx o_account o_accand set_pitem set_pnode]. congruence. }
  clearbody s3. exists s3. split; [|split; [exact W3|split; [|exact E3]]].
  - rewrite <- (app_nil_r (counted x w A2)). eapply goes_trans; [exact G1|]. eapply goes_trans; [exact G2|exact G3].
  - pose proof (still_core _ _ K3) as Kc; unfold core in Kc; injection Kc as C1 C2 C3 C4 C5 C6; unfold knows in *; rewrite C2, C3, C4, C6; exact Kn.
Qed.

(** The whole enumeration. *)
Lemma enumerate : forall e x off w own wd cwd s c, has_word off w s -> ac_state x -> knows own s wd -> w_cwd wd = Some cwd -> tidy wd -> no_nul w ->
  length (full_text cwd w) < d_pathmax (o_desc s) -> enum s = (x, 0, o_cmds s, 0, 0, 0, c) ->
  exists s', goes e s (shown x (flat_map (fun n => n ++ CRLF) (candidates wd cwd w))) s' /\
    enum s' = (S_AC_FINISH, 2, None, 0, 0, length (candidates wd cwd w), last_of c (candidates wd cwd w)) /\ o_acprev s' = x.
Proof.
  intros e x off w own wd cwd s c W A Kn Cw T N L E. pose proof Kn as ((Fo & St & _) & _).
  destruct (enum_half e x off w own wd cwd s c W A Kn Cw E) as (dc & Dc & s3 & G3 & W3 & Kn3 & E3).
  set (A1 := map f_name (flat_map snd (w_groups wd))) in *. set (A2 := map f_name (de_files dc)) in *.
  pose proof G3 as (_ & K3 & _).
  destruct (tab_dir own s3 wd cwd off w Kn3 Cw T W3 N) as (d & nd & Id & Hd & Fin & Fe).
  { pose proof (still_core _ _ K3) as Kc. rewrite (core_desc _ _ Kc). exact L. }
  { en E3. assumption. }
  set (s4 := set_pstage 2 (set_pitem 0 (set_pidx 0 (set_pnode (n_children nd) s3)))) in *.
  assert (G4 : goes e s3 [] s4).
  { en E3. apply (ac_silent e x off w); auto. unfold ush_autocomp_state_candidates_process. rewrite H1. exact Fin. }
  pose proof (still_word _ _ _ _ (proj1 (proj2 G4)) W3) as W4. assert (K4 : still s4 = still s) by exact K3.
  destruct (stands_chain (hp s) (w_fs wd) d nd) as (Ch & Cd); [exact Fo|apply St|exact Id| |].
  { rewrite <- (still_hp _ _ K3). exact Hd. }
  destruct (ac_children e x off w (children (de_path d) (w_fs wd)) (n_children nd) (count_of w A2 (count_of w A1 0)) (last_of (last_of c (filter (prefixb w) A1)) (filter (prefixb w) A2)) s4 W4 A) as (s5 & G5 & E5 & P5).
  { en E3. unfold s4, enum. cbn [o_state o_pstage o_pnode o_pitem o_pidx o_account o_accand set_pitem set_pnode set_pidx set_pstage]. congruence. }
  { rewrite (still_hp _ _ K4). exact Ch. }
  { intros d' I'. rewrite (still_hp _ _ K4). apply Cd. exact I'. }
  cbv zeta in E5. rewrite Fe in E5. destruct (counted_filter x w _ _ Fe) as (F1 & F2). rewrite F1 in G5. rewrite F2 in E5.
  assert (Cs : candidates wd cwd w = filter (prefixb w) (A1 ++ A2 ++ map dir_name (children cwd (w_fs wd)))) by (unfold candidates, names_in; rewrite Dc; reflexivity).
  exists s5. split; [|split; [|exact P5]].
  - assert (Z : shown x (flat_map (fun n => n ++ CRLF) (candidates wd cwd w)) = counted x w A1 ++ counted x w A2 ++ [] ++ counted x w (map dir_name (children cwd (w_fs wd)))).
    { rewrite Cs. fold (counted x w (A1 ++ A2 ++ map dir_name (children cwd (w_fs wd)))). rewrite !counted_app. reflexivity. }
    rewrite Z, app_assoc. eapply goes_trans; [exact G3|]. eapply (goes_trans e s3 []); [exact G4|exact G5].
  - rewrite E5, Cs. rewrite !last_of_filter_app. unfold count_of. rewrite !filter_app, !app_length. rewrite Nat.add_0_l, Nat.add_assoc. reflexivity.
Qed.

(** ** Enumerations that fail *)

Lemma works_stuck : forall e x s s1, works e s s1 -> stuck e x s1 -> stuck e x s.
Proof. intros e x s s1 W. induction W; auto. intros S. eapply stuck_step; eauto. Qed.

Lemma ac_err : forall e s x, o_cur s <> None -> cfg_autocomp (d_cfg (o_desc s)) = true -> ac_state (o_state s) -> ush_autocomp_state_candidates_process s = Err x -> stuck e x s.
Proof.
  intros e s x C D A F. apply stuck_here; [intros P; unfold polling in P; destruct A as [A|[A|A]]; congruence|].
  rewrite service_eq. destruct (o_cur s) eqn:Ec; [|congruence]. unfold svc. rewrite D. unfold ush_autocomp_service. destruct A as [A|[A|A]]; rewrite A, F; reflexivity.
Qed.

(** The path of the word is too long. *)
Lemma enum_long : forall e x off w own wd cwd s c, has_word off w s -> ac_state x -> knows own s wd -> w_cwd wd = Some cwd -> no_nul w ->
  d_pathmax (o_desc s) <= length (full_text cwd w) -> enum s = (x, 0, o_cmds s, 0, 0, 0, c) -> stuck e EOob s.
Proof.
  intros e x off w own wd cwd s c W A Kn Cw N L E. destruct (enum_half e x off w own wd cwd s c W A Kn Cw E) as (dc & Dc & s3 & (Wk & K3 & _) & W3 & Kn3 & E3).
  eapply works_stuck; [exact Wk|]. destruct W3 as (W1 & W2 & W3 & W4). en E3. apply ac_err; auto; [congruence|].
  unfold ush_autocomp_state_candidates_process, ush_autocomp_check_for_finish, ac_input. rewrite H1, H0, W1, W2. cbn [bind].
  destruct (abs_path_world own s3 wd w Kn3 N) as (_ & Ab & _); [rewrite Cw; discriminate|]. unfold here in Ab. rewrite Cw in Ab. rewrite Ab; [reflexivity|].
  rewrite (core_desc _ _ (still_core _ _ K3)). exact L.
Qed.

(** The word is not terminated within the buffer. *)
Definition lost_word (off : nat) (s : st) : Prop :=
  o_acin s = Some off /\ c_str (inb s) off = Err EOob /\ o_cur s <> None /\ cfg_autocomp (d_cfg (o_desc s)) = true.
Lemma enum_lost : forall e x off own wd cwd s, lost_word off s -> ac_state x -> knows own s wd -> w_cwd wd = Some cwd ->
  o_state s = x -> o_pstage s = 0 -> o_pnode s = o_cmds s -> o_pitem s = 0 -> o_pidx s = 0 -> stuck e EOob s.
Proof.
  intros e x off own wd cwd s W A Kn Cw E1 E2 E3 E4 E5. pose proof Kn as ((Fo & St & _) & (Gn & Gc & Gf) & _ & _ & _ & Wc). rewrite Cw in Wc. destruct Wc as (dc & Dc & Ec).
  pose proof (dir_at_some _ _ _ Dc) as (Ic & Pc). destruct (St dc Ic) as (ndc & Enc & _ & Fc & _). clear St Fc Pc Fo Gn Kn.
  assert (Dead : forall s1 st i nd f, lost_word off s1 -> o_state s1 = x -> st = 0 \/ st = 1 -> o_pstage s1 = st -> o_pnode s1 = Some i -> o_pitem s1 = 0 -> nth_error (hp s1) i = Some nd -> nth_error (n_files nd) 0 = Some f -> stuck e EOob s1).
  { intros s1 st i nd f (W1 & W2 & W3 & W4) S1 S01 S2 S3 S4 Hn F. apply ac_err; auto; [congruence|].
    assert (Lk : length (n_files nd) <=? 0 = false) by (destruct (n_files nd); [discriminate F|reflexivity]).
    unfold ush_autocomp_state_candidates_process. rewrite S3. unfold ush_autocomp_check_for_next. rewrite S2, S3, S4. cbn [getp].
    unfold ush_autocomp_process_file_prepare, ac_input. destruct S01 as [-> | ->]; rewrite (getn_ok _ _ _ Hn); cbn [bind]; rewrite Lk; cbn [bind]; rewrite W1, W2; reflexivity. }
  assert (Step : forall s1 s2, lost_word off s1 -> o_state s1 = x -> ush_autocomp_state_candidates_process s1 = Ok s2 -> stuck e EOob s2 -> stuck e EOob s1).
  { intros s1 s2 (W1 & W2 & W3 & W4) S1 F Sk. eapply stuck_step; [| |exact Sk].
    - intros P. unfold polling in P. destruct A as [A|[A|A]]; congruence.
    - rewrite service_eq. destruct (o_cur s1) eqn:Ec1; [|congruence]. unfold svc. rewrite W4. unfold ush_autocomp_service. destruct A as [A|[A|A]]; rewrite S1, A, F; reflexivity. }
  revert E3 Gc Gf. generalize (o_cmds s). revert Enc Ec. generalize (w_groups wd). clear Dc Ic Cw wd. intros gs. revert s W E1 E2 E4 E5.
  induction gs as [|(i, fl) gs IH]; intros s W E1 E2 E4 E5 Enc Ec p E3 Gc Gf.
  - cbn in Gc. rewrite Gc in E3. eapply Step; [exact W|exact E1|unfold ush_autocomp_state_candidates_process, ush_autocomp_check_for_finish; rewrite E3, E2; reflexivity|].
    set (s1 := set_pstage 1 _). assert (W1 : lost_word off s1) by exact W. assert (P1 : o_pnode s1 = Some (de_node dc)) by exact Ec. assert (H1 : nth_error (hp s1) (de_node dc) = Some ndc) by exact Enc.
    assert (S1 : o_state s1 = x) by exact E1. assert (T1 : o_pstage s1 = 1) by reflexivity. assert (I1 : o_pitem s1 = 0) by reflexivity. clearbody s1.
    destruct (n_files ndc) as [|f r] eqn:Nf.
    + eapply Step; [exact W1|exact S1| |].
      { unfold ush_autocomp_state_candidates_process. rewrite P1. unfold ush_autocomp_check_for_next. rewrite T1, P1. cbn [getp]. rewrite (getn_ok _ _ _ H1). cbn [bind]. rewrite Nf, I1. reflexivity. }
      destruct W1 as (W1 & W2 & W3 & W4). apply ac_err; [exact W3|exact W4|cbn; rewrite S1; exact A|].
      unfold ush_autocomp_state_candidates_process, ush_autocomp_check_for_finish, ac_input. cbn [o_pnode o_pstage o_acin inb set_pnode set_pitem]. rewrite T1, W1, W2. reflexivity.
    + apply (Dead s1 1 (de_node dc) ndc f); auto. rewrite Nf. reflexivity.
  - cbn [map fst chain] in Gc. destruct Gc as (-> & nd & Hn & C). destruct (Gf i fl (or_introl eq_refl)) as (nd' & Hn' & Nf). assert (nd' = nd) by congruence. subst nd'.
    destruct fl as [|f r]; [|apply (Dead s 0 i nd f); auto; rewrite Nf; reflexivity].
    eapply Step; [exact W|exact E1| |].
    { unfold ush_autocomp_state_candidates_process. rewrite E3. unfold ush_autocomp_check_for_next. rewrite E2, E3. cbn [getp]. rewrite (getn_ok _ _ _ Hn). cbn [bind]. rewrite Nf, E4. reflexivity. }
    apply (IH (set_pnode (n_next nd) (set_pitem 0 s)) W E1 E2 eq_refl E5 Enc Ec (n_next nd) eq_refl C). intros j gl I. apply (Gf j gl). right; exact I.
Qed.
