(** * CmdFacts: running the built-in commands. *)
From Coq Require Import Arith.
From Verif Require Import Shell BaseFacts LogFacts Sched ServiceFacts SchedFacts Macro Editor EditFacts Words ParseFacts PromptFacts PhaseFacts Line LineFacts SchedProofs LineProofs Spec PathFacts Tree TreeFacts Cmds.

(** What a command keeps while it emits. *)
Definition kept (s s' : st) : Prop :=
  core s' = core s /\ inb s' = inb s /\ o_argc s' = o_argc s /\ o_pfile s' = o_pfile s /\ length (outb s') = length (outb s).

Definition emits (e : env) (s : st) (evs : list event) (s' : st) : Prop :=
  works e s s' /\ kept s s' /\ lg s' = lg s ++ evs.

Lemma kept_refl : forall s, kept s s.
Proof. repeat split. Qed.
Lemma kept_trans : forall a b c, kept a b -> kept b c -> kept a c.
Proof. intros a b c (A1 & A2 & A3 & A4 & A5) (B1 & B2 & B3 & B4 & B5). repeat split; congruence. Qed.
Lemma emits_refl : forall e s, emits e s [] s.
Proof. intros. split; [constructor|]. split; [apply kept_refl|rewrite app_nil_r; reflexivity]. Qed.
Lemma emits_trans : forall e a x b y c, emits e a x b -> emits e b y c -> emits e a (x ++ y) c.
Proof.
  intros e a x b y c (W1 & K1 & L1) (W2 & K2 & L2). split; [eapply works_trans; eauto|]. split; [eapply kept_trans; eauto|].
  rewrite L2, L1, app_assoc. reflexivity.
Qed.
Lemma kept_bufs : forall s s', kept s s' -> bufs_ok s -> bufs_ok s'.
Proof. intros s s' (A1 & A2 & _ & _ & A5) (B1 & B2 & B3 & B4). unfold bufs_ok. rewrite (core_desc _ _ A1), A2, A5. auto. Qed.
Lemma kept_cur : forall s s', kept s s' -> o_cur s <> None -> o_cur s' <> None.
Proof. intros s s' (A & _) C. unfold core in A. injection A as _ _ _ A _ _. congruence. Qed.

(** ** One service call of a process *)
Definition process_state (x : fsm) : Prop := x = S_PROCESS_START \/ x = S_PROCESS_SERVICE \/ x = S_PROCESS_FINISH.

Definition proc (e : env) (p : proc_cb) (s : st) : res st :=
  match p with
  | PHelp => help_service s
  | PLs => ls_service s
  | PCat => cat_service e s
  | PXxd => xxd_service s
  | PUser n => Err EAssert
  end.

(** The shell runs process [p]. *)
Definition running (p : proc_cb) (s : st) : Prop :=
  o_cur s <> None /\ exists f, o_pfile s = Some f /\ f_proc f = Some p.

Lemma proc_works : forall e p s s1, running p s -> process_state (o_state s) -> proc e p s = Ok s1 -> works e s s1.
Proof.
  intros e p s s1 (C & f & Pf & Fp) St P. eapply (works_svc e s true s1).
  - exact C.
  - intros X. unfold polling in X. destruct St as [St|[St|St]]; congruence.
  - unfold svc. destruct St as [St|[St|St]]; rewrite St; unfold ush_process_service; rewrite St, Pf, Fp;
      destruct p; cbn [proc] in P; try discriminate; cbn [io_env tick]; rewrite P; reflexivity.
  - constructor.
Qed.

Lemma kept_running : forall p s s', kept s s' -> running p s -> running p s'.
Proof. intros p s s' K (C & f & Pf & Fp). split; [eapply kept_cur; eauto|]. exists f. split; [|exact Fp]. destruct K as (_ & _ & _ & -> & _). exact Pf. Qed.

(** Service step that only changes counters and states. *)
Lemma proc_silent : forall e p s s1, running p s -> process_state (o_state s) -> proc e p s = Ok s1 -> kept s s1 -> lg s1 = lg s -> emits e s [] s1.
Proof. intros. split; [eapply proc_works; eauto|]. split; [auto|]. rewrite app_nil_r. auto. Qed.

(** Service step that hands over a text. *)
Lemma proc_text : forall e p s s0 w t next, running p s -> process_state (o_state s) ->
  proc e p s = Ok (ush_write_pointer_bin w (length t) next s0) -> points s0 w t -> kept s s0 -> lg s0 = lg s ->
  emits e s (map EvOut t) (after_write w t next s0).
Proof.
  intros e p s s0 w t next R St P Po K L. assert (C : o_cur s0 <> None) by (eapply kept_cur; [exact K|apply R]). split; [|split].
  - eapply works_trans; [eapply proc_works; eauto|apply works_wpb; auto].
  - exact K.
  - unfold after_write. cbn [lg set_state set_wnext set_wbuf set_wsize set_wpos set_lg]. change (lg s0 ++ map EvOut t = lg s ++ map EvOut t). rewrite L. reflexivity.
Qed.

(** The counters of a running process. *)
Definition counters : Type := option nat * option nat * nat * nat * option bytes * nat.
Definition cnt (s : st) : counters := (o_pnode s, o_pchild s, o_pitem s, o_pidx s, o_pdata s, o_pdsize s).

Definition at_ (p : proc_cb) (x : fsm) (c : counters) (s : st) : Prop :=
  running p s /\ o_state s = x /\ cnt s = c /\ bufs_ok s.

Lemma say_nothing : forall e p x c s s1 next c', at_ p x c s -> process_state x -> proc e p s = Ok s1 -> kept s s1 -> lg s1 = lg s ->
  o_state s1 = next -> cnt s1 = c' -> exists s1, emits e s [] s1 /\ at_ p next c' s1.
Proof.
  intros e p x c s s1 next c' (R & St & C & B) P E K L N C'. exists s1. split; [apply (proc_silent e p); auto; rewrite St; exact P|].
  split; [eapply kept_running; eauto|]. split; [exact N|]. split; [exact C'|]. eapply kept_bufs; eauto.
Qed.

Lemma say_text : forall e p x c s s0 w t next c', at_ p x c s -> process_state x ->
  proc e p s = Ok (ush_write_pointer_bin w (length t) next s0) -> points s0 w t -> kept s s0 -> lg s0 = lg s -> cnt s0 = c' ->
  exists s1, emits e s (map EvOut t) s1 /\ at_ p next c' s1.
Proof.
  intros e p x c s s0 w t next c' (R & St & C & B) P E Po K L C'. exists (after_write w t next s0).
  assert (Em : emits e s (map EvOut t) (after_write w t next s0)) by (apply (proc_text e p); auto; rewrite St; exact P).
  split; [exact Em|]. split; [eapply kept_running; [apply Em|exact R]|]. split; [reflexivity|]. split; [exact C'|]. eapply kept_bufs; [apply Em|exact B].
Qed.

Lemma say_str : forall e p x c s s0 t next c', at_ p x c s -> process_state x ->
  proc e p s = Ok (write_str t next s0) -> kept s s0 -> lg s0 = lg s -> cnt s0 = c' ->
  exists s1, emits e s (map EvOut t) s1 /\ at_ p next c' s1.
Proof. intros. eapply say_text; eauto using points_WStr. Qed.

(** A text that passes through the output buffer. *)
Lemma print_out_eq : forall t next s, length t < length (outb s) -> ~ In NUL t ->
  exists b, let s0 := set_outb b s in
  print_out t next s = Ok (ush_write_pointer_bin WOut (length t) next s0) /\ points s0 WOut t /\ kept s s0.
Proof.
  intros t next s L N. exists (t ++ NUL :: skipn (S (length t)) (outb s)). intros s0. unfold print_out. rewrite c_strcpy_0 by exact L. cbn [bind]. fold s0.
  assert (E : wptr_str WOut s0 = Ok t) by (apply c_str_0; exact N).
  split; [apply wp_eq; exact E|]. split; [apply points_str; exact E|]. repeat split.
  unfold s0. cbn [outb set_outb]. rewrite app_length. cbn [length]. rewrite skipn_length. lia.
Qed.

Lemma say_out : forall e p x c s s0 t next c', at_ p x c s -> process_state x ->
  proc e p s = print_out t next s0 -> length t < d_outsize (o_desc s) -> ~ In NUL t -> kept s s0 -> lg s0 = lg s -> cnt s0 = c' ->
  exists s1, emits e s (map EvOut t) s1 /\ at_ p next c' s1.
Proof.
  intros e p x c s s0 t next c' A P E L N K Lg C. destruct (print_out_eq t next s0) as (b & Eq & Po & Kb); auto.
  { destruct A as (_ & _ & _ & _ & B & _). destruct K as (_ & _ & _ & _ & K). rewrite K, B. exact L. }
  rewrite Eq in E. eapply say_text; eauto. eapply kept_trans; [exact K|exact Kb].
Qed.

Lemma say_out_then : forall e p x c s t next j c', at_ p x c s -> process_state x ->
  proc e p s = (s1 <- print_out t next s ;; Ok (set_pidx j s1)) -> length t < d_outsize (o_desc s) -> ~ In NUL t -> cnt (set_pidx j s) = c' ->
  exists s1, emits e s (map EvOut t) s1 /\ at_ p next c' s1.
Proof.
  intros e p x c s t next j c' A P E L N C. destruct (print_out_eq t next s) as (b & Eq & Po & Kb); auto.
  { destruct A as (_ & _ & _ & _ & B & _). rewrite B. exact L. }
  rewrite Eq in E. cbn [bind] in E. eapply (say_text e p x c s (set_pidx j (set_outb b s)) WOut); eauto.
Qed.

Lemma and_then : forall e s x (P : st -> Prop) y (Q : st -> Prop), (exists s1, emits e s x s1 /\ P s1) ->
  (forall s1, kept s s1 -> P s1 -> exists s2, emits e s1 y s2 /\ Q s2) -> exists s2, emits e s (x ++ y) s2 /\ Q s2.
Proof.
  intros e s x P y Q (s1 & E1 & P1) H. destruct (H s1) as (s2 & E2 & Q2); auto; [apply E1|]. exists s2. split; [eapply emits_trans; eauto|exact Q2].
Qed.

Lemma kept_hp : forall s s', kept s s' -> hp s' = hp s.
Proof. intros s s' (K & _). unfold core in K. congruence. Qed.
Lemma kept_desc : forall s s', kept s s' -> o_desc s' = o_desc s.
Proof. intros s s' (K & _). apply core_desc. exact K. Qed.

Lemma blanks_no_nul : forall n, ~ In NUL (blanks n).
Proof. intros n I. apply repeat_spec in I. discriminate. Qed.
Lemma sty_no_nul : forall c, ~ In NUL (sty_yellow c) /\ ~ In NUL (sty_reset c) /\ ~ In NUL (sty_green c).
Proof. intros c. unfold sty_yellow, sty_reset, sty_green, sty. destruct (cfg_styles c); repeat split; cbn; intuition discriminate. Qed.

Lemma name_column_no_nul : forall c n, ~ In NUL n -> ~ In NUL (name_column c n).
Proof.
  intros c n N. unfold name_column, fmt_left. rewrite !in_app_iff. destruct (sty_no_nul c) as (Y & _). pose proof (blanks_no_nul (cfg_align c - length n)).
  unfold blanks in *. cbn. intuition discriminate.
Qed.
Lemma name_column_length : forall c f d, f_desc f = Some d -> length (name_column c (f_name f)) = name_room c f.
Proof.
  intros c f d E. unfold name_column, fmt_left, name_room. rewrite E. change (colour c "[33m") with (sty_yellow c). rewrite !app_length, repeat_length. cbn [length lit list_ascii_of_string].
  lia.
Qed.

Lemma name_text_split : forall c f, name_text c f ++ crlf =
  match f_desc f with
  | Some d => name_column c (f_name f) ++ d ++ (sty_reset c ++ CRLF)
  | None => f_name f ++ CRLF
  end.
Proof.
  intros c f. unfold name_text, name_column, fmt_left, blanks. destruct (f_desc f); rewrite <- ?app_assoc; reflexivity.
Qed.

(** ** help *)
Definition cn (pn pc : option nat) (pi px : nat) : option bytes -> nat -> counters := fun pd ps => (pn, pc, pi, px, pd, ps).

Ltac at_fields A := let R := fresh "R" in let St := fresh "St" in let C := fresh "C" in let B := fresh "B" in
  pose proof A as (R & St & C & B); unfold cnt in C; injection C as ? ? ? ? ? ?.
Ltac put := unfold cnt; cbn [o_pnode o_pchild o_pitem o_pidx o_pdata o_pdsize set_pnode set_pchild set_pitem set_pidx set_pdata set_pdsize set_outb set_state emit set_lg]; congruence.

Lemma help_file : forall e i k s nd f pc pd ps, at_ PHelp S_PROCESS_START (Some i, pc, k, 0, pd, ps) s -> getn (hp s) i = Ok nd -> nth_error (n_files nd) k = Some f ->
  listable (o_desc s) f ->
  exists s', emits e s (map EvOut (name_text (d_cfg (o_desc s)) f ++ crlf)) s' /\ at_ PHelp S_PROCESS_START (Some i, pc, S k, 0, pd, ps) s'.
Proof.
  intros e i k s nd f pc pd ps A G F (L & N). assert (Lk : k < length (n_files nd)) by (apply nth_error_Some; congruence).
  assert (P0 : process_state S_PROCESS_START) by (left; reflexivity).
  assert (Step : forall s1 j, kept s s1 -> at_ PHelp S_PROCESS_START (Some i, pc, k, j, pd, ps) s1 ->
    help_service s1 = match j with
      | 0 => match f_desc f with
             | Some _ => print_out (name_column (d_cfg (o_desc s)) (f_name f)) S_PROCESS_START (set_pidx 1 s1)
             | None => print_out (f_name f) S_PROCESS_START (set_pidx 2 s1) end
      | 1 => d <- deref (f_desc f) ;; Ok (set_pidx 2 (write_str d S_PROCESS_START s1))
      | 2 => Ok (set_pitem (S k) (set_pidx 0 (write_str (match f_desc f with Some _ => sty_reset (d_cfg (o_desc s)) ++ CRLF | None => CRLF end) S_PROCESS_START s1)))
      | _ => Err EAssert
      end).
  { intros s1 j K A1. at_fields A1. unfold help_service. rewrite St, H, (kept_hp _ _ K), G. cbn [bind].
    rewrite H1. destruct (Nat.leb_spec (length (n_files nd)) k); [lia|]. unfold rd. rewrite F. cbn [bind]. rewrite H2, (kept_desc _ _ K). reflexivity. }
  rewrite name_text_split. destruct (f_desc f) as [d|] eqn:Ed.
  - rewrite !map_app. rewrite <- map_app. apply and_then with (P := at_ PHelp S_PROCESS_START (Some i, pc, k, 1, pd, ps)).
    { eapply (say_out e PHelp _ _ s (set_pidx 1 s)); [exact A|exact P0|exact (Step s 0 (kept_refl s) A)| |apply name_column_no_nul; exact N|repeat split|reflexivity|].
      - rewrite (name_column_length _ _ _ Ed). exact L.
      - at_fields A. put. }
    intros s1 K1 A1. apply and_then with (P := at_ PHelp S_PROCESS_START (Some i, pc, k, 2, pd, ps)).
    { eapply (say_str e PHelp _ _ s1 (set_pidx 2 s1)); [exact A1|exact P0|exact (Step s1 1 K1 A1)|repeat split|reflexivity|]. at_fields A1. put. }
    intros s2 K2 A2. assert (K := kept_trans _ _ _ K1 K2).
    eapply (say_str e PHelp _ _ s2 (set_pitem (S k) (set_pidx 0 s2))); [exact A2|exact P0|exact (Step s2 2 K A2)|repeat split|reflexivity|]. at_fields A2. put.
  - rewrite !map_app. apply and_then with (P := at_ PHelp S_PROCESS_START (Some i, pc, k, 2, pd, ps)).
    { eapply (say_out e PHelp _ _ s (set_pidx 2 s)); [exact A|exact P0|exact (Step s 0 (kept_refl s) A)| |exact N|repeat split|reflexivity|].
      - unfold name_room in L. rewrite Ed in L. exact L.
      - at_fields A. put. }
    intros s2 K2 A2.
    eapply (say_str e PHelp _ _ s2 (set_pitem (S k) (set_pidx 0 s2))); [exact A2|exact P0|exact (Step s2 2 K2 A2)|repeat split|reflexivity|]. at_fields A2. put.
Qed.

Lemma help_files : forall e i nd pc pd ps fl pre s, at_ PHelp S_PROCESS_START (Some i, pc, length pre, 0, pd, ps) s -> getn (hp s) i = Ok nd -> n_files nd = pre ++ fl ->
  Forall (listable (o_desc s)) fl ->
  exists s', emits e s (map EvOut (help_text (d_cfg (o_desc s)) fl)) s' /\ at_ PHelp S_PROCESS_START (Some i, pc, length (n_files nd), 0, pd, ps) s'.
Proof.
  intros e i nd pc pd ps fl. induction fl as [|f fl IH]; intros pre s H G Nf F.
  - rewrite app_nil_r in Nf. rewrite Nf. exists s. split; [apply emits_refl|exact H].
  - inversion F as [|? ? Ff Fr]; subst. cbn [help_text flat_map]. rewrite map_app.
    eapply and_then; [apply (help_file e i (length pre) s nd f pc pd ps); auto; rewrite Nf, nth_error_app2, Nat.sub_diag by lia; reflexivity|].
    intros s1 K A1. rewrite <- (kept_desc _ _ K). apply (IH (pre ++ [f]) s1).
    + rewrite app_length. cbn [length]. rewrite Nat.add_1_r. exact A1.
    + rewrite (kept_hp _ _ K). exact G.
    + rewrite <- app_assoc. exact Nf.
    + rewrite (kept_desc _ _ K). exact Fr.
Qed.

Lemma help_groups : forall e pc pd ps gs p s, at_ PHelp S_PROCESS_START (p, pc, 0, 0, pd, ps) s -> chain (hp s) p (map fst gs) ->
  (forall i fl, In (i, fl) gs -> exists nd, nth_error (hp s) i = Some nd /\ n_files nd = fl) ->
  Forall (listable (o_desc s)) (flat_map snd gs) ->
  exists s', emits e s (map EvOut (help_text (d_cfg (o_desc s)) (flat_map snd gs))) s' /\ o_state s' = S_RESET_PROMPT.
Proof.
  intros e pc pd ps gs. assert (P0 : process_state S_PROCESS_START) by (left; reflexivity).
  induction gs as [|(i, fl) gs IH]; intros p s A C G F.
  - cbn in C. subst p. at_fields A. exists (set_state S_RESET_PROMPT s). split; [|reflexivity].
    apply (proc_silent e PHelp); auto; [rewrite St; exact P0| |repeat split]. cbn [proc]. unfold help_service. rewrite St, H. reflexivity.
  - cbn [map fst chain] in C. destruct C as (-> & nd & Hn & C). destruct (G i fl (or_introl eq_refl)) as (nd' & Hn' & Nf).
    assert (nd' = nd) by congruence. subst nd'. cbn [flat_map snd] in F. apply Forall_app in F as (F1 & F2).
    assert (Gn : getn (hp s) i = Ok nd) by (unfold getn, rd; rewrite Hn; reflexivity).
    cbn [flat_map snd]. unfold help_text. rewrite flat_map_app, map_app.
    eapply and_then; [apply (help_files e i nd pc pd ps fl [] s A Gn Nf F1)|]. intros s1 K1 A1.
    change (map EvOut _) with ([] ++ map EvOut (help_text (d_cfg (o_desc s)) (flat_map snd gs))).
    apply and_then with (P := at_ PHelp S_PROCESS_START (n_next nd, pc, 0, 0, pd, ps)).
    { eapply (say_nothing e PHelp _ _ s1 (set_pnode (n_next nd) (set_pitem 0 (set_pidx 0 s1)))); [exact A1|exact P0| |repeat split|reflexivity| |].
      - cbn [proc]. at_fields A1. unfold help_service. rewrite St, H, (kept_hp _ _ K1), Gn. cbn [bind]. rewrite H1, Nat.leb_refl. reflexivity.
      - apply A1.
      - at_fields A1. put. }
    intros s2 K2 A2. pose proof (kept_trans _ _ _ K1 K2) as K. rewrite <- (kept_desc _ _ K). apply (IH (n_next nd) s2 A2).
    + rewrite (kept_hp _ _ K). exact C.
    + intros j gl I. rewrite (kept_hp _ _ K). apply G. right; exact I.
    + rewrite (kept_desc _ _ K). exact F2.
Qed.

(** ** ls *)
Lemma ls_child : forall e i k s nd q pi pd ps, at_ PLs S_PROCESS_SERVICE (i, Some k, pi, 0, pd, ps) s -> nth_error (hp s) k = Some nd -> n_path nd = Some (show q) -> path_ok q -> q <> [] ->
  exists s', emits e s (map EvOut (dir_line (d_cfg (o_desc s)) (last q [] ++ lit "/"))) s' /\ at_ PLs S_PROCESS_SERVICE (i, n_next nd, pi, 0, pd, ps) s'.
Proof.
  intros e i k s nd q pi pd ps A Hn P Ok0 Ne.
  assert (Gn : getn (hp s) k = Ok nd) by (unfold getn, rd; rewrite Hn; reflexivity).
  assert (P0 : process_state S_PROCESS_SERVICE) by (right; left; reflexivity).
  set (c := d_cfg (o_desc s)).
  assert (Step : forall s1 j, kept s s1 -> at_ PLs S_PROCESS_SERVICE (i, Some k, pi, j, pd, ps) s1 ->
    ls_service s1 = match j with
      | 0 => Ok (set_pidx 1 (write_str (lit "d---- " ++ sty_green c) S_PROCESS_SERVICE s1))
      | 1 => Ok (set_pidx 2 (write_str (last q []) S_PROCESS_SERVICE s1))
      | 2 => Ok (set_pidx 3 (write_str (lit "/" ++ sty_reset c ++ CRLF) S_PROCESS_SERVICE s1))
      | 3 => Ok (set_pchild (n_next nd) (set_pidx 0 s1))
      | _ => Err EAssert
      end).
  { intros s1 j K A1. at_fields A1. unfold ls_service. rewrite St, H0, (kept_hp _ _ K), Gn, H2, (kept_desc _ _ K). cbn [bind]. unfold path_of. rewrite P. cbn [bind].
    rewrite (path_last_show q Ok0). destruct q; [congruence|reflexivity]. }
  replace (map EvOut _) with (map EvOut (lit "d---- " ++ sty_green c) ++ map EvOut (last q []) ++ map EvOut (lit "/" ++ sty_reset c ++ CRLF) ++ []).
  2:{ rewrite app_nil_r, <- !map_app. f_equal. unfold dir_line. change crlf with CRLF. rewrite <- !app_assoc. reflexivity. }
  apply and_then with (P := at_ PLs S_PROCESS_SERVICE (i, Some k, pi, 1, pd, ps)).
  { eapply (say_str e PLs _ _ s (set_pidx 1 s)); [exact A|exact P0|exact (Step s 0 (kept_refl s) A)|repeat split|reflexivity|]. at_fields A. put. }
  intros s1 K1 A1. apply and_then with (P := at_ PLs S_PROCESS_SERVICE (i, Some k, pi, 2, pd, ps)).
  { eapply (say_str e PLs _ _ s1 (set_pidx 2 s1)); [exact A1|exact P0|exact (Step s1 1 K1 A1)|repeat split|reflexivity|]. at_fields A1. put. }
  intros s2 K2 A2. pose proof (kept_trans _ _ _ K1 K2) as K. apply and_then with (P := at_ PLs S_PROCESS_SERVICE (i, Some k, pi, 3, pd, ps)).
  { eapply (say_str e PLs _ _ s2 (set_pidx 3 s2)); [exact A2|exact P0|exact (Step s2 2 K A2)|repeat split|reflexivity|]. at_fields A2. put. }
  intros s3 K3 A3. eapply (say_nothing e PLs _ _ s3 (set_pchild (n_next nd) (set_pidx 0 s3))); [exact A3|exact P0|exact (Step s3 3 (kept_trans _ _ _ K K3) A3)|repeat split|reflexivity|apply A3|].
  at_fields A3. put.
Qed.

Lemma ls_children : forall e i pd ps ds p pi s, at_ PLs S_PROCESS_SERVICE (i, p, pi, 0, pd, ps) s -> chain (hp s) p (map de_node ds) ->
  (forall d, In d ds -> exists nd, nth_error (hp s) (de_node d) = Some nd /\ n_path nd = Some (show (de_path d)) /\ path_ok (de_path d) /\ de_path d <> []) ->
  exists s', emits e s (map EvOut (flat_map (fun n => dir_line (d_cfg (o_desc s)) (n ++ lit "/")) (map dir_name ds))) s' /\ at_ PLs S_PROCESS_FINISH (i, None, 0, 0, pd, ps) s'.
Proof.
  intros e i pd ps ds. assert (P0 : process_state S_PROCESS_SERVICE) by (right; left; reflexivity).
  induction ds as [|d ds IH]; intros p pi s A C G.
  - cbn in C. subst p. eapply (say_nothing e PLs _ _ s (set_state S_PROCESS_FINISH (set_pitem 0 (set_pidx 0 s)))); [exact A|exact P0| |repeat split|reflexivity|reflexivity|].
    + cbn [proc]. at_fields A. unfold ls_service. rewrite St, H0. reflexivity.
    + at_fields A. put.
  - cbn [map chain] in C. destruct C as (-> & nd & Hn & C). destruct (G d (or_introl eq_refl)) as (nd' & Hn' & P & O & Ne).
    assert (nd' = nd) by congruence. subst nd'. cbn [map flat_map]. rewrite map_app.
    eapply and_then; [apply (ls_child e i (de_node d) s nd (de_path d) pi pd ps A Hn P O Ne)|]. intros s1 K1 A1.
    rewrite <- (kept_desc _ _ K1). apply (IH (n_next nd) pi s1 A1).
    + rewrite (kept_hp _ _ K1). exact C.
    + intros x I. rewrite (kept_hp _ _ K1). apply G. right; exact I.
Qed.

Lemma flags_no_nul : forall f, ~ In NUL (ls_flags f).
Proof. intros f. unfold ls_flags, ls_flag. destruct (f_get f), (f_set f), (f_exec f), (f_help f); cbn; intuition discriminate. Qed.

Lemma ls_file : forall e i k s nd f pc pd ps, at_ PLs S_PROCESS_FINISH (Some i, pc, k, 0, pd, ps) s -> getn (hp s) i = Ok nd -> nth_error (n_files nd) k = Some f ->
  listable (o_desc s) f -> 6 < d_outsize (o_desc s) ->
  exists s', emits e s (map EvOut (file_flags f ++ name_text (d_cfg (o_desc s)) f ++ crlf)) s' /\ at_ PLs S_PROCESS_FINISH (Some i, pc, S k, 0, pd, ps) s'.
Proof.
  intros e i k s nd f pc pd ps A G F (L & N) L6. assert (Lk : k < length (n_files nd)) by (apply nth_error_Some; congruence).
  assert (P0 : process_state S_PROCESS_FINISH) by (right; right; reflexivity).
  assert (Step : forall s1 j, kept s s1 -> at_ PLs S_PROCESS_FINISH (Some i, pc, k, j, pd, ps) s1 ->
    ls_service s1 = match j with
      | 0 => s <- print_out (ls_flags f) S_PROCESS_FINISH s1 ;; Ok (set_pidx 1 s)
      | 1 => match f_desc f with
             | Some _ => print_out (name_column (d_cfg (o_desc s)) (f_name f)) S_PROCESS_FINISH (set_pidx 2 s1)
             | None => print_out (f_name f) S_PROCESS_FINISH (set_pidx 3 s1) end
      | 2 => d <- deref (f_desc f) ;; Ok (set_pidx 3 (write_str d S_PROCESS_FINISH s1))
      | 3 => Ok (set_pitem (S k) (set_pidx 0 (write_str (match f_desc f with Some _ => sty_reset (d_cfg (o_desc s)) ++ CRLF | None => CRLF end) S_PROCESS_FINISH s1)))
      | _ => Err EAssert
      end).
  { intros s1 j K A1. at_fields A1. unfold ls_service. rewrite St, H. cbn [getp]. rewrite (kept_hp _ _ K), G. cbn [bind].
    rewrite H1. destruct (Nat.leb_spec (length (n_files nd)) k); [lia|]. unfold rd. rewrite F. cbn [bind]. rewrite H2, (kept_desc _ _ K). reflexivity. }
  rewrite name_text_split. rewrite (map_app EvOut (file_flags f)).
  apply and_then with (P := at_ PLs S_PROCESS_FINISH (Some i, pc, k, 1, pd, ps)).
  { eapply (say_out_then e PLs _ _ s (ls_flags f)); [exact A|exact P0|exact (Step s 0 (kept_refl s) A)|cbn [length ls_flags]; lia|apply flags_no_nul|].
    at_fields A. put. }
  intros s1 K1 A1. pose proof (kept_desc _ _ K1) as D1. destruct (f_desc f) as [d|] eqn:Ed.
  - rewrite !map_app. rewrite <- map_app. apply and_then with (P := at_ PLs S_PROCESS_FINISH (Some i, pc, k, 2, pd, ps)).
    { eapply (say_out e PLs _ _ s1 (set_pidx 2 s1)); [exact A1|exact P0|exact (Step s1 1 K1 A1)| |apply name_column_no_nul; exact N|repeat split|reflexivity|].
      - rewrite (name_column_length _ _ _ Ed), D1. exact L.
      - at_fields A1. put. }
    intros s2 K2 A2. pose proof (kept_trans _ _ _ K1 K2) as K. apply and_then with (P := at_ PLs S_PROCESS_FINISH (Some i, pc, k, 3, pd, ps)).
    { eapply (say_str e PLs _ _ s2 (set_pidx 3 s2)); [exact A2|exact P0|exact (Step s2 2 K A2)|repeat split|reflexivity|]. at_fields A2. put. }
    intros s3 K3 A3. assert (K' := kept_trans _ _ _ K K3).
    eapply (say_str e PLs _ _ s3 (set_pitem (S k) (set_pidx 0 s3))); [exact A3|exact P0|exact (Step s3 3 K' A3)|repeat split|reflexivity|]. at_fields A3. put.
  - rewrite !map_app. apply and_then with (P := at_ PLs S_PROCESS_FINISH (Some i, pc, k, 3, pd, ps)).
    { eapply (say_out e PLs _ _ s1 (set_pidx 3 s1)); [exact A1|exact P0|exact (Step s1 1 K1 A1)| |exact N|repeat split|reflexivity|].
      - unfold name_room in L. rewrite Ed in L. rewrite D1. exact L.
      - at_fields A1. put. }
    intros s3 K3 A3. assert (K' := kept_trans _ _ _ K1 K3).
    eapply (say_str e PLs _ _ s3 (set_pitem (S k) (set_pidx 0 s3))); [exact A3|exact P0|exact (Step s3 3 K' A3)|repeat split|reflexivity|]. at_fields A3. put.
Qed.

Lemma ls_files : forall e i nd pc pd ps fl pre s, at_ PLs S_PROCESS_FINISH (Some i, pc, length pre, 0, pd, ps) s -> getn (hp s) i = Ok nd -> n_files nd = pre ++ fl ->
  Forall (listable (o_desc s)) fl -> 6 < d_outsize (o_desc s) \/ fl = [] ->
  exists s', emits e s (map EvOut (flat_map (fun f => file_flags f ++ name_text (d_cfg (o_desc s)) f ++ crlf) fl)) s' /\ o_state s' = S_RESET_PROMPT.
Proof.
  intros e i nd pc pd ps fl. induction fl as [|f fl IH]; intros pre s A G Nf F L6.
  - rewrite app_nil_r in Nf. at_fields A. exists (set_state S_RESET_PROMPT s). split; [|reflexivity].
    apply (proc_silent e PLs); auto; [rewrite St; right; right; reflexivity| |repeat split]. cbn [proc]. unfold ls_service. rewrite St, H. cbn [getp]. rewrite G.
    cbn [bind]. rewrite H1, Nf, Nat.leb_refl. reflexivity.
  - inversion F as [|? ? Ff Fr]; subst. destruct L6 as [L6|L6]; [|discriminate]. cbn [flat_map]. rewrite map_app.
    eapply and_then; [apply (ls_file e i (length pre) s nd f pc pd ps); auto; rewrite Nf, nth_error_app2, Nat.sub_diag by lia; reflexivity|].
    intros s1 K A1. rewrite <- (kept_desc _ _ K). apply (IH (pre ++ [f]) s1).
    + rewrite app_length. cbn [length]. rewrite Nat.add_1_r. exact A1.
    + rewrite (kept_hp _ _ K). exact G.
    + rewrite <- app_assoc. exact Nf.
    + rewrite (kept_desc _ _ K). exact Fr.
    + rewrite (kept_desc _ _ K). auto.
Qed.

Lemma ls_run : forall e s root fs d pc pi px pd ps, at_ PLs S_PROCESS_START (Some (de_node d), pc, pi, px, pd, ps) s ->
  rep (hp s) root fs -> In d fs -> Forall (listable (o_desc s)) (de_files d) -> 6 < d_outsize (o_desc s) \/ de_files d = [] ->
  exists s', emits e s (map EvOut (ls_dir (d_cfg (o_desc s)) d fs)) s' /\ o_state s' = S_RESET_PROMPT.
Proof.
  intros e s root fs d pc pi px pd ps A Rep Id F L6. pose proof Rep as (O & Sd & _). pose proof O as (Pk & Np & Nn & Cl).
  destruct (Sd d Id) as (nd & Hn & P & Nf & Par & Ch).
  assert (Gn : getn (hp s) (de_node d) = Ok nd) by (unfold getn, rd; rewrite Hn; reflexivity).
  set (c := d_cfg (o_desc s)).
  set (t := dir_line c (lit ".") ++ (if is_root d then [] else dir_line c (lit ".."))).
  assert (Et : match n_parent nd with Some _ => ls_dot c ++ ls_dotdot c | None => ls_dot c end = t).
  { unfold t, is_root. rewrite Par. destruct (de_path d) as [|x p] eqn:Ep; [rewrite app_nil_r; reflexivity|].
    assert (I : In (removelast (x :: p)) (map de_path fs)) by (rewrite <- Ep; apply Cl; [exact Id|congruence]).
    destruct (node_at (removelast (x :: p)) fs) as [j|] eqn:Nd; [|apply node_at_none in Nd; contradiction]. reflexivity. }
  unfold ls_dir, ls_text. fold c. rewrite app_assoc. fold t. rewrite !map_app.
  apply and_then with (P := at_ PLs S_PROCESS_SERVICE (Some (de_node d), n_children nd, pi, 0, pd, ps)).
  { eapply (say_str e PLs _ _ s (set_pidx 0 (set_pchild (n_children nd) s))); [exact A|left; reflexivity| |repeat split|reflexivity|].
    - cbn [proc]. at_fields A. unfold ls_service. rewrite St, H. cbn [getp]. rewrite Gn. cbn [bind]. fold c. rewrite Et. reflexivity.
    - at_fields A. put. }
  intros s1 K1 A1. pose proof (kept_hp _ _ K1) as Kh. pose proof (kept_desc _ _ K1) as Kd. unfold c. rewrite <- Kd. eapply and_then.
  { apply (ls_children e (Some (de_node d)) pd ps (children (de_path d) fs) (n_children nd) pi s1 A1); rewrite Kh; [exact Ch|].
    intros x I. apply children_in in I as (Ix & Nx & _). destruct (Sd x Ix) as (nx & Hx & Px & _). exists nx. repeat split; auto.
    rewrite Forall_forall in Pk. apply Pk. exact Ix. }
  intros s2 K2 A2. pose proof (kept_hp _ _ K2) as Kh2. pose proof (kept_desc _ _ K2) as Kd2. rewrite <- Kd2.
  apply (ls_files e (de_node d) nd None pd ps (de_files d) [] s2 A2); [rewrite Kh2, Kh; exact Gn|exact Nf| |]; rewrite Kd2, Kd; auto.
Qed.

(** ** cat *)
Lemma say_event : forall e p x c s s0 w t next c' evs, at_ p x c s -> process_state x ->
  proc e p s = Ok (ush_write_pointer_bin w (length t) next s0) -> points s0 w t -> kept s s0 -> lg s0 = lg s ++ evs -> cnt s0 = c' ->
  exists s1, emits e s (evs ++ map EvOut t) s1 /\ at_ p next c' s1.
Proof.
  intros e p x c s s0 w t next c' evs (R & St & C & B) P E Po K L C'. exists (after_write w t next s0).
  assert (Cu : o_cur s0 <> None) by (eapply kept_cur; [exact K|apply R]).
  assert (Em : emits e s (evs ++ map EvOut t) (after_write w t next s0)).
  { split; [eapply works_trans; [eapply proc_works; eauto; rewrite St; exact P|apply works_wpb; auto]|]. split; [exact K|].
    change (lg s0 ++ map EvOut t = lg s ++ evs ++ map EvOut t). rewrite L, <- app_assoc. reflexivity. }
  split; [exact Em|]. split; [eapply kept_running; [apply Em|exact R]|]. split; [reflexivity|]. split; [exact C'|]. eapply kept_bufs; [apply Em|exact B].
Qed.

Lemma arg_values_nth : forall b args ws k w, arg_values b args = Ok ws -> nth_error ws k = Some w ->
  exists off, rd args k = Ok off /\ c_str b off = Ok w.
Proof.
  intros b args. induction args as [|a args IH]; intros ws k w V N; cbn [arg_values] in V.
  - injection V as <-. destruct k; discriminate.
  - destruct (c_str b a) as [x|] eqn:Ex; cbn [bind] in V; [|discriminate]. destruct (arg_values b args) as [y|] eqn:Ey; cbn [bind] in V; [|discriminate].
    injection V as <-. destruct k as [|k]; cbn [nth_error] in N; [injection N as <-; exists a; split; [reflexivity|exact Ex]|].
    destruct (IH y k w eq_refl N) as (off & A & B). exists off. split; [|exact B]. unfold rd in *. cbn [nth_error]. exact A.
Qed.

Lemma cat_service_names : forall e find args ws pn pc px pd ps post evs, reads e find post evs ->
  forall pre s, ws = pre ++ post -> 0 < length pre ->
  (forall n, In n post -> ush_file_find_by_name n s = Ok (find n)) ->
  at_ PCat S_PROCESS_SERVICE (pn, pc, length pre, px, pd, ps) s -> o_argc s = length ws ->
  ush_parse_get_args s = Ok args -> arg_values (inb s) args = Ok ws ->
  exists s', emits e s evs s' /\ at_ PCat S_PROCESS_SERVICE (pn, pc, length ws, px, pd, ps) s'.
Proof.
  intros e find args ws pn pc px pd ps post evs R. assert (P0 : process_state S_PROCESS_SERVICE) by (right; left; reflexivity).
  induction R as [|name f cb d r evs Fn Fg (extra & Eg) R IH]; intros pre s E Lp Fi A Ac Pa Av.
  - rewrite app_nil_r in E. subst pre. exists s. split; [apply emits_refl|exact A].
  - change (EvGet cb (f_name f) :: map EvOut d ++ evs) with (([EvGet cb (f_name f)] ++ map EvOut d) ++ evs).
    assert (Nn : nth_error ws (length pre) = Some name) by (rewrite E, nth_error_app2, Nat.sub_diag by lia; reflexivity).
    destruct (arg_values_nth _ _ _ _ _ Av Nn) as (off & Ro & Co).
    apply and_then with (P := at_ PCat S_PROCESS_SERVICE (pn, pc, S (length pre), px, pd, ps)).
    { eapply (say_event e PCat _ _ s (set_pitem (S (length pre)) (emit (EvGet cb (f_name f)) s)) (WStr (d ++ extra)) d); [exact A|exact P0| | |repeat split|reflexivity|].
      - at_fields A. cbn [proc]. unfold cat_service. rewrite St, H1, Ac. destruct (Nat.leb_spec (length ws) (length pre)) as [L|L].
        + rewrite E, app_length in L. cbn [length] in L. lia.
        + rewrite Pa. cbn [bind]. rewrite Ro. cbn [bind]. rewrite Co. cbn [bind]. rewrite (Fi name (or_introl eq_refl)). cbn [bind]. rewrite Fn. cbn [deref bind].
          rewrite Fg. cbn [deref bind]. unfold call_get. rewrite Eg. cbn [g_ptr g_size g_calls do_actions bind]. cbn [o_pitem emit set_lg]. rewrite H1.
          cbn [o_state emit set_lg]. rewrite St. reflexivity.
      - intros j c N. unfold rd. rewrite nth_error_app1 by (apply nth_error_Some; congruence). rewrite N. reflexivity.
      - at_fields A. put. }
    intros s1 K A1. apply (IH (pre ++ [name]) s1).
    + rewrite <- app_assoc. exact E.
    + rewrite app_length. cbn [length]. lia.
    + intros n I. rewrite (find_core n s s1 (proj1 K)). apply Fi. right; exact I.
    + rewrite app_length. cbn [length]. rewrite Nat.add_1_r. exact A1.
    + destruct K as (_ & _ & -> & _). exact Ac.
    + destruct K as (_ & Ki & Ka & _). unfold ush_parse_get_args in *. rewrite Ki, Ka. exact Pa.
    + destruct K as (_ & Ki & _). rewrite Ki. exact Av.
Qed.

Lemma cat_run : forall e find args name names s pn pc pi px pd ps evs, reads e find names evs ->
  (forall n, In n names -> ush_file_find_by_name n s = Ok (find n)) ->
  at_ PCat S_PROCESS_START (pn, pc, pi, px, pd, ps) s -> o_argc s = S (length names) ->
  ush_parse_get_args s = Ok args -> arg_values (inb s) args = Ok (name :: names) ->
  exists s', emits e s evs s' /\ o_state s' = S_RESET_PROMPT.
Proof.
  intros e find args name names s pn pc pi px pd ps evs R Fi A Ac Pa Av.
  change evs with ([] ++ evs). apply and_then with (P := at_ PCat S_PROCESS_SERVICE (pn, pc, 1, px, pd, ps)).
  { eapply (say_nothing e PCat _ _ s (set_state S_PROCESS_SERVICE (set_pitem 1 s))); [exact A|left; reflexivity| |repeat split|reflexivity|reflexivity|].
    - at_fields A. cbn [proc]. unfold cat_service. rewrite St. reflexivity.
    - at_fields A. put. }
  intros s1 K A1. rewrite <- (app_nil_r evs). eapply and_then.
  { apply (cat_service_names e find args (name :: names) pn pc px pd ps names evs R [name] s1); auto.
    - intros n I. rewrite (find_core n s s1 (proj1 K)). apply Fi. exact I.
    - destruct K as (_ & _ & -> & _). exact Ac.
    - destruct K as (_ & Ki & Ka & _). unfold ush_parse_get_args in *. rewrite Ki, Ka. exact Pa.
    - destruct K as (_ & Ki & _). rewrite Ki. exact Av. }
  intros s2 K2 A2. change (@nil event) with ([] ++ @nil event).
  apply and_then with (P := at_ PCat S_PROCESS_FINISH (pn, pc, S (length names), px, pd, ps)).
  { eapply (say_nothing e PCat _ _ s2 (set_state S_PROCESS_FINISH s2)); [exact A2|right; left; reflexivity| |repeat split|reflexivity|reflexivity|].
    - at_fields A2. cbn [proc]. unfold cat_service. rewrite St, H1. cbn [length].
      replace (o_argc s2) with (S (length names)); [rewrite Nat.leb_refl; reflexivity|]. destruct K as (_ & _ & K & _). destruct K2 as (_ & _ & K2 & _). congruence.
    - at_fields A2. put. }
  intros s3 K3 A3. exists (set_state S_RESET_PROMPT s3). split; [|reflexivity]. at_fields A3.
  apply (proc_silent e PCat); auto; [rewrite St; right; right; reflexivity| |repeat split]. cbn [proc]. unfold cat_service. rewrite St. reflexivity.
Qed.

(** ** xxd *)
Lemma hexd_eq : forall n, (n < 16)%N -> hexdig n = hexd n.
Proof.
  intros n H. assert (I : In n [0;1;2;3;4;5;6;7;8;9;10;11;12;13;14;15]%N).
  { cbn. lia. }
  cbn in I. decompose [or] I; try subst n; try reflexivity. contradiction.
Qed.

Lemma hex_aux_acc : forall f n acc, hex_aux f n acc = hex_aux f n [] ++ acc.
Proof.
  induction f as [|f IH]; intros n acc; [reflexivity|]. cbn [hex_aux]. destruct (n <? 16)%N; [reflexivity|].
  rewrite IH, (IH _ [hexdig (n mod 16)]), <- app_assoc. reflexivity.
Qed.

Lemma hex_digits_0 : forall w, hex_digits w 0 = repeat "0"%char w.
Proof.
  induction w as [|w IH]; [reflexivity|]. cbn [hex_digits]. change (0 / 16)%N with 0%N. rewrite IH. change (hexd (0 mod 16)) with "0"%char.
  change ["0"%char] with (repeat "0"%char 1). rewrite <- repeat_app, Nat.add_1_r. reflexivity.
Qed.

Lemma hex_pad : forall w f n, (n < 16 ^ N.of_nat (S w))%N -> (n < 16 ^ N.of_nat f)%N ->
  repeat "0"%char (S w - length (hex_aux f n [])) ++ hex_aux f n [] = hex_digits (S w) n.
Proof.
  induction w as [|w IH]; intros f n Hw Hf.
  - destruct f as [|f]; [cbn in Hf; assert (n = 0)%N by lia; subst; reflexivity|].
    change (16 ^ N.of_nat 1)%N with 16%N in Hw. cbn [hex_aux]. destruct (N.ltb_spec n 16); [|lia]. cbn [length Nat.sub repeat app hex_digits].
    rewrite hexd_eq by (apply N.mod_lt; lia). reflexivity.
  - destruct f as [|f].
    { cbn in Hf. assert (n = 0)%N by lia. subst. cbn [hex_aux length]. rewrite Nat.sub_0_r, app_nil_r, hex_digits_0. reflexivity. }
    cbn [hex_aux]. destruct (N.ltb_spec n 16) as [L|L].
    + cbn [length hex_digits]. rewrite (N.div_small n 16), N.mod_small by lia. rewrite hexd_eq by lia.
      replace (S (S w) - 1) with (S w) by lia. rewrite <- hex_digits_0. cbn [hex_digits]. reflexivity.
    + rewrite hex_aux_acc. rewrite app_length. cbn [length]. replace (S (S w) - (length (hex_aux f (n / 16) []) + 1)) with (S w - length (hex_aux f (n / 16) [])) by lia.
      rewrite app_assoc, IH.
      * cbn [hex_digits]. rewrite hexd_eq by (apply N.mod_lt; lia). reflexivity.
      * apply N.div_lt_upper_bound; [lia|]. rewrite Nat2N.inj_succ, N.pow_succ_r' in Hw. exact Hw.
      * apply N.div_lt_upper_bound; [lia|]. rewrite Nat2N.inj_succ, N.pow_succ_r' in Hf. exact Hf.
Qed.

Lemma fmt_hex_eq : forall w n, (n < 16 ^ N.of_nat (S w))%N -> fmt_hex (S w) n = hex_digits (S w) n.
Proof.
  intros w n H. unfold fmt_hex, hex_of_N. apply hex_pad; [exact H|]. rewrite Nat2N.inj_succ, N2Nat.id.
  destruct (N.eq_dec n 0) as [->|Z]; [apply N.neq_0_lt_0, N.pow_nonzero; lia|].
  apply N.lt_le_trans with (2 ^ N.succ (N.log2 n))%N; [apply N.log2_spec; lia|]. apply N.pow_le_mono_l. lia.
Qed.

Lemma hex_digits_length : forall w n, length (hex_digits w n) = w.
Proof. induction w as [|w IH]; intros n; [reflexivity|]. cbn [hex_digits]. rewrite app_length, IH. cbn [length]. lia. Qed.

Lemma hexd_no_nul : forall n, hexd n <> NUL.
Proof.
  intros n. unfold hexd. generalize (N.to_nat n). intros k. do 16 (destruct k as [|k]; [discriminate|]). destruct k; discriminate.
Qed.
Lemma hex_digits_no_nul : forall w n, ~ In NUL (hex_digits w n).
Proof. induction w as [|w IH]; intros n I; [exact I|]. cbn [hex_digits] in I. apply in_app_iff in I as [I|[I|[]]]; [exact (IH _ I)|exact (hexd_no_nul _ I)]. Qed.

Lemma hex2_eq : forall x, fmt_hex 2 (N_of_ascii x) = hex2 x.
Proof.
  intros x. rewrite fmt_hex_eq.
  - unfold hex2. cbn [hex_digits app]. f_equal. f_equal. apply N.mod_small. apply N.div_lt_upper_bound; [lia|]. apply N_ascii_bounded.
  - change (16 ^ N.of_nat 2)%N with 256%N. apply N_ascii_bounded.
Qed.

Lemma row_skip : forall cols off (d : bytes) n, off < length d -> firstn (S n) (skipn off d) = nth off d cols :: firstn n (skipn (S off) d).
Proof.
  intros cols off d n L. assert (E : skipn off d = nth off d cols :: skipn (S off) d).
  { revert off L. induction d as [|x d IH]; intros off L; [cbn in L; lia|]. destruct off as [|off]; [reflexivity|]. cbn [skipn nth]. apply IH. cbn in L. lia. }
  rewrite E. reflexivity.
Qed.

(** Text appended to a string in the buffer. *)
Lemma append_ok : forall a r t, no_nul a -> length t <= length r ->
  (l <- c_strlen (a ++ NUL :: r) 0 ;; c_strcpy (a ++ NUL :: r) l t) = Ok ((a ++ t) ++ NUL :: skipn (length t) r).
Proof.
  intros a r t N L. pose proof (c_strcat_0 a r t N L) as E. unfold c_strcat in E. cbn [Nat.add] in E. rewrite E, <- app_assoc. reflexivity.
Qed.
Lemma strcat_ok : forall a r t, no_nul a -> length t <= length r -> c_strcat (a ++ NUL :: r) 0 t = Ok ((a ++ t) ++ NUL :: skipn (length t) r).
Proof. intros a r t N L. rewrite c_strcat_0 by auto. rewrite <- app_assoc. reflexivity. Qed.

Definition hex_cols (n off : nat) (d : bytes) : bytes :=
  flat_map (fun x => hex2 x ++ lit " ") (firstn n (skipn off d)) ++ blanks (3 * (n - (length d - off))).
Definition chr_cols (n off : nat) (d : bytes) : bytes :=
  map visible (firstn n (skipn off d)) ++ blanks (n - (length d - off)).

Lemma hex2_no_nul : forall x, no_nul (hex2 x ++ lit " ").
Proof. intros x I. cbn in I. destruct I as [I|[I|[I|[]]]]; [exact (hexd_no_nul _ I)|exact (hexd_no_nul _ I)|discriminate]. Qed.

Lemma hex_cols_S : forall n off d, hex_cols (S n) off d =
  (if off <? length d then hex2 (nth off d NUL) ++ lit " " else lit "   ") ++ hex_cols n (S off) d.
Proof.
  intros n off d. unfold hex_cols. destruct (Nat.ltb_spec off (length d)) as [L|L].
  - rewrite (row_skip NUL off d n L). cbn [flat_map]. rewrite <- !app_assoc. do 3 f_equal. f_equal. f_equal. lia.
  - rewrite !skipn_all2 by lia. rewrite !firstn_nil. cbn [flat_map app]. replace (3 * (S n - (length d - off))) with (3 + 3 * (n - (length d - S off))) by lia.
    reflexivity.
Qed.

Lemma chr_cols_S : forall n off d, chr_cols (S n) off d =
  (if off <? length d then [visible (nth off d NUL)] else lit " ") ++ chr_cols n (S off) d.
Proof.
  intros n off d. unfold chr_cols. destruct (Nat.ltb_spec off (length d)) as [L|L].
  - rewrite (row_skip NUL off d n L). cbn [map app]. do 2 f_equal. f_equal. lia.
  - rewrite !skipn_all2 by lia. rewrite !firstn_nil. cbn [map app]. replace (S n - (length d - off)) with (S (n - (length d - S off))) by lia.
    reflexivity.
Qed.

(** The pointer [pd] points to the data [d], or there are none. *)
Definition covers (pd : option bytes) (d : bytes) : Prop := d = [] \/ exists extra, pd = Some (d ++ extra).
Lemma pdata_ok : forall s d off, covers (o_pdata s) d -> off < length d -> pdata_rd s off = Ok (nth off d NUL).
Proof.
  intros s d off [->|(extra & P)] L; [cbn in L; lia|]. unfold pdata_rd. rewrite P. cbn [deref bind]. unfold rd. rewrite nth_error_app1 by exact L.
  rewrite (nth_error_nth' d NUL L). reflexivity.
Qed.

Ltac same_skip := match goal with |- Ok (?x ++ NUL :: skipn ?k ?r) = Ok (_ ++ NUL :: skipn ?m ?r) =>
  replace k with m by (cbn [length app hex2 lit list_ascii_of_string]; lia); rewrite <- ?app_assoc; reflexivity end.

Lemma xxd_hex_ok : forall s d, covers (o_pdata s) d -> o_pdsize s = length d ->
  forall n off a r, no_nul a -> 3 * n <= length r ->
  xxd_hex n off s (a ++ NUL :: r) = Ok ((a ++ hex_cols n off d) ++ NUL :: skipn (3 * n) r).
Proof.
  intros s d P Z. induction n as [|n IH]; intros off a r N L.
  - unfold hex_cols. cbn [xxd_hex firstn flat_map app Nat.sub Nat.mul]. unfold blanks. cbn [repeat]. rewrite app_nil_r. reflexivity.
  - cbn [xxd_hex]. rewrite hex_cols_S, Z. destruct (Nat.ltb_spec off (length d)) as [Lo|Lo].
    + rewrite (pdata_ok s d off P Lo). cbn [bind]. rewrite hex2_eq. rewrite append_ok by (auto; cbn [length app hex2 lit list_ascii_of_string]; lia). cbn [bind].
      rewrite IH; [|apply no_nul_app; split; [exact N|apply hex2_no_nul]|rewrite skipn_length; cbn [length app hex2 lit list_ascii_of_string]; lia].
      rewrite app_assoc. rewrite skipn_add. same_skip.
    + rewrite strcat_ok by (auto; cbn [length lit list_ascii_of_string]; lia). cbn [bind].
      rewrite IH; [|apply no_nul_app; split; [exact N|intros I; cbn in I; intuition discriminate]|rewrite skipn_length; cbn [length lit list_ascii_of_string]; lia].
      rewrite app_assoc. rewrite skipn_add. same_skip.
Qed.

Lemma visible_ok : forall x, visible x <> NUL.
Proof. intros x. unfold visible. destruct ((32 <=? N_of_ascii x)%N && (N_of_ascii x <=? 126)%N) eqn:E; [|discriminate]. intros ->. discriminate. Qed.

Lemma xxd_chr_ok : forall s d, covers (o_pdata s) d -> o_pdsize s = length d ->
  forall n off a r, no_nul a -> n <= length r ->
  xxd_chr n off s (a ++ NUL :: r) = Ok ((a ++ chr_cols n off d) ++ NUL :: skipn n r).
Proof.
  intros s d P Z. induction n as [|n IH]; intros off a r N L.
  - unfold chr_cols. cbn [xxd_chr firstn map app Nat.sub]. unfold blanks. cbn [repeat]. rewrite app_nil_r. reflexivity.
  - cbn [xxd_chr]. rewrite chr_cols_S, Z. destruct (Nat.ltb_spec off (length d)) as [Lo|Lo].
    + rewrite (pdata_ok s d off P Lo). cbn [bind].
      assert (E : (if ush_utils_is_printable (nth off d NUL) then l <- c_strlen (a ++ NUL :: r) 0 ;; c_strcpy (a ++ NUL :: r) l [nth off d NUL]
                   else c_strcat (a ++ NUL :: r) 0 (lit ".")) = Ok ((a ++ [visible (nth off d NUL)]) ++ NUL :: skipn 1 r)).
      { unfold visible, ush_utils_is_printable. destruct (_ && _); [apply (append_ok a r [nth off d NUL])|apply (strcat_ok a r (lit "."))]; auto; cbn [length lit list_ascii_of_string]; lia. }
      rewrite E. cbn [bind].
      rewrite IH; [|apply no_nul_app; split; [exact N|intros [I|[]]; exact (visible_ok _ I)]|rewrite skipn_length; lia].
      rewrite app_assoc. rewrite skipn_add. same_skip.
    + rewrite strcat_ok by (auto; cbn [length lit list_ascii_of_string]; lia). cbn [bind].
      rewrite IH; [|apply no_nul_app; split; [exact N|intros I; cbn in I; intuition discriminate]|rewrite skipn_length; cbn [length lit list_ascii_of_string]; lia].
      rewrite app_assoc. rewrite skipn_add. same_skip.
Qed.

Lemma hex_cols_length : forall n off d, length (hex_cols n off d) = 3 * n.
Proof.
  induction n as [|n IH]; intros off d; [unfold hex_cols; cbn [firstn flat_map app Nat.sub Nat.mul]; reflexivity|].
  rewrite hex_cols_S, app_length, IH. destruct (off <? length d); cbn [length app hex2 lit list_ascii_of_string]; lia.
Qed.
Lemma chr_cols_length : forall n off d, length (chr_cols n off d) = n.
Proof.
  induction n as [|n IH]; intros off d; [unfold chr_cols; reflexivity|].
  rewrite chr_cols_S, app_length, IH. destruct (off <? length d); cbn [length app lit list_ascii_of_string]; lia.
Qed.
Lemma hex_cols_no_nul : forall n off d, no_nul (hex_cols n off d).
Proof.
  induction n as [|n IH]; intros off d; [unfold hex_cols; apply no_nul_nil|].
  rewrite hex_cols_S. apply no_nul_app. split; [|apply IH]. destruct (off <? length d); [apply hex2_no_nul|intros I; cbn in I; intuition discriminate].
Qed.
Lemma chr_cols_no_nul : forall n off d, no_nul (chr_cols n off d).
Proof.
  induction n as [|n IH]; intros off d; [unfold chr_cols; apply no_nul_nil|].
  rewrite chr_cols_S. apply no_nul_app. split; [|apply IH]. destruct (off <? length d); intros I; cbn in I; [|intuition discriminate].
  destruct I as [I|[]]; exact (visible_ok _ I).
Qed.

(** One line of the dump. *)
Lemma xxd_line_eq : forall n off d, address off ++ lit ": " ++ (hex_cols n off d ++ lit " ") ++ chr_cols n off d ++ CRLF =
  xxd_line n off (firstn n (skipn off d)).
Proof.
  intros n off d. unfold xxd_line, hex_cols, chr_cols. change crlf with CRLF. rewrite firstn_length, skipn_length.
  replace (n - Nat.min n (length d - off)) with (n - (length d - off)) by lia. rewrite <- !app_assoc. reflexivity.
Qed.

Lemma xxd_row : forall e s pn pc off d D, covers D d -> at_ PXxd S_PROCESS_SERVICE (pn, pc, off, 0, D, length d) s ->
  let cols := cfg_cols (d_cfg (o_desc s)) in
  (N.of_nat off < 2 ^ 32)%N -> 10 < d_outsize (o_desc s) -> 3 * cols + 1 < d_outsize (o_desc s) ->
  exists s', emits e s (map EvOut (xxd_line cols off (firstn cols (skipn off d)))) s' /\
    if length d <=? off + cols then at_ PXxd S_PROCESS_FINISH (pn, pc, off + cols, 3, D, length d) s'
    else at_ PXxd S_PROCESS_SERVICE (pn, pc, off + cols, 0, D, length d) s'.
Proof.
  intros e s pn pc off d D Cv A cols Lo L1 L2. assert (P0 : process_state S_PROCESS_SERVICE) by (right; left; reflexivity).
  rewrite <- xxd_line_eq. rewrite app_assoc, !map_app, <- (map_app EvOut (address off)), <- (map_app EvOut (hex_cols cols off d)).
  apply and_then with (P := at_ PXxd S_PROCESS_SERVICE (pn, pc, off, 1, D, length d)).
  { eapply (say_out_then e PXxd _ _ s (address off ++ lit ": ")); [exact A|exact P0| | | |].
    - at_fields A. cbn [proc]. unfold xxd_service. rewrite St, H2, H1, fmt_hex_eq by exact Lo. reflexivity.
    - rewrite app_length. unfold address. rewrite hex_digits_length. cbn [length lit list_ascii_of_string]. lia.
    - rewrite in_app_iff. intros [I|I]; [exact (hex_digits_no_nul _ _ I)|cbn in I; intuition discriminate].
    - at_fields A. put. }
  intros s1 K1 A1. pose proof (kept_desc _ _ K1) as D1.
  apply and_then with (P := at_ PXxd S_PROCESS_SERVICE (pn, pc, off, 2, D, length d)).
  { at_fields A1. destruct B as (B1 & B2 & B3 & B4). destruct (outb s1) as [|x r] eqn:Ob; [cbn in B2; lia|]. cbn [length] in B2. rewrite D1 in B2.
    assert (E : xxd_hex cols off s1 (NUL :: r) = Ok (hex_cols cols off d ++ NUL :: skipn (3 * cols) r)).
    { apply (xxd_hex_ok s1 d ltac:(rewrite H3; exact Cv) H4 cols off [] r); [apply no_nul_nil|lia]. }
    set (t := hex_cols cols off d ++ lit " ").
    assert (Nt : no_nul t) by (apply no_nul_app; split; [apply hex_cols_no_nul|intros I; cbn in I; intuition discriminate]).
    assert (E2 : c_strcat (hex_cols cols off d ++ NUL :: skipn (3 * cols) r) 0 (lit " ") = Ok (t ++ NUL :: skipn 1 (skipn (3 * cols) r))).
    { apply strcat_ok; [apply hex_cols_no_nul|rewrite skipn_length; cbn [length lit list_ascii_of_string]; lia]. }
    set (b := t ++ NUL :: skipn 1 (skipn (3 * cols) r)) in *.
    assert (Ew : wptr_str WOut (set_outb b s1) = Ok t) by (apply c_str_0; exact Nt).
    eapply (say_text e PXxd _ _ s1 (set_pidx 2 (set_outb b s1)) WOut t); [exact A1|exact P0| | | |reflexivity|].
    - cbn [proc]. unfold xxd_service. rewrite St, H2, H1, Ob. cbn [wr Nat.ltb Nat.leb length upd bind].
      replace (wr (x :: r) 0 NUL) with (Ok (NUL :: r)) by reflexivity. cbn [bind]. rewrite D1. fold cols. rewrite E. cbn [bind]. rewrite E2. cbn [bind].
      rewrite (wp_eq WOut S_PROCESS_SERVICE _ t Ew). reflexivity.
    - apply points_str in Ew. exact Ew.
    - repeat split. change (length b = length (outb s1)). rewrite Ob. unfold b, t. rewrite !app_length. cbn [length lit list_ascii_of_string].
      rewrite hex_cols_length, !skipn_length. lia.
    - put. }
  intros s2 K2 A2. pose proof (kept_desc _ _ K2) as D2.
  apply and_then with (P := at_ PXxd S_PROCESS_SERVICE (pn, pc, off + cols, 3, D, length d)).
  { at_fields A2. destruct B as (B1 & B2 & B3 & B4). destruct (outb s2) as [|x r] eqn:Ob; [cbn in B2; lia|]. cbn [length] in B2. rewrite D2, D1 in B2.
    assert (E : xxd_chr cols off s2 (NUL :: r) = Ok (chr_cols cols off d ++ NUL :: skipn cols r)).
    { apply (xxd_chr_ok s2 d ltac:(rewrite H3; exact Cv) H4 cols off [] r); [apply no_nul_nil|lia]. }
    set (t := chr_cols cols off d) in *.
    set (b := t ++ NUL :: skipn cols r) in *.
    assert (Ew : wptr_str WOut (set_outb b (set_pitem (off + cols) s2)) = Ok t) by (apply c_str_0; apply chr_cols_no_nul).
    eapply (say_text e PXxd _ _ s2 (set_pidx 3 (set_outb b (set_pitem (off + cols) s2))) WOut t); [exact A2|exact P0| | | |reflexivity|].
    - cbn [proc]. unfold xxd_service. rewrite St, H2, H1, Ob.
      replace (wr (x :: r) 0 NUL) with (Ok (NUL :: r)) by reflexivity. cbn [bind]. rewrite D2, D1. fold cols. rewrite E. cbn [bind].
      rewrite (wp_eq WOut S_PROCESS_SERVICE _ t Ew). reflexivity.
    - apply points_str in Ew. exact Ew.
    - repeat split. change (length b = length (outb s2)). rewrite Ob. unfold b, t. rewrite !app_length. cbn [length].
      rewrite chr_cols_length, !skipn_length. lia.
    - put. }
  intros s3 K3 A3. destruct (Nat.leb_spec (length d) (off + cols)) as [Le|Le].
  - eapply (say_str e PXxd _ _ s3 s3); [exact A3|exact P0| |repeat split|reflexivity|apply A3].
    cbn [proc]. at_fields A3. unfold xxd_service. rewrite St, H2, H1, H4. destruct (Nat.leb_spec (length d) (off + cols)); [reflexivity|lia].
  - eapply (say_str e PXxd _ _ s3 (set_pidx 0 s3)); [exact A3|exact P0| |repeat split|reflexivity|at_fields A3; put].
    cbn [proc]. at_fields A3. unfold xxd_service. rewrite St, H2, H1, H4. destruct (Nat.leb_spec (length d) (off + cols)); [lia|reflexivity].
Qed.

(** The lines from line [k] on. *)
Lemma xxd_rows : forall e d D pn pc cols, covers D d -> forall fuel k s, at_ PXxd S_PROCESS_SERVICE (pn, pc, k * cols, 0, D, length d) s ->
  cols = cfg_cols (d_cfg (o_desc s)) -> dumpable (o_desc s) d -> (k = 0 \/ k * cols < length d) -> rows cols (length d) - k = fuel ->
  exists s' c, emits e s (map EvOut (flat_map (fun j => xxd_line cols (j * cols) (firstn cols (skipn (j * cols) d))) (seq k fuel))) s' /\
    at_ PXxd S_PROCESS_FINISH c s'.
Proof.
  intros e d D pn pc cols Cv fuel. induction fuel as [|fuel IH]; intros k s A Ec (D1 & D2 & D3 & D4) Hk Hf; rewrite <- Ec in *.
  - exfalso. unfold rows in Hf. destruct Hk as [->|Hk]; [lia|].
    assert (k < (length d + cols - 1) / cols); [|lia]. apply Nat.div_le_lower_bound; nia.
  - assert (Ho : (N.of_nat (k * cols) < 2 ^ 32)%N) by (destruct Hk as [->|Hk]; [cbn; lia|lia]).
    cbn [seq flat_map]. rewrite map_app.
    destruct (xxd_row e s pn pc (k * cols) d D Cv A Ho D3) as (s1 & E1 & A1); [rewrite <- Ec; exact D4|]. rewrite <- Ec in *.
    destruct (Nat.leb_spec (length d) (k * cols + cols)) as [Le|Le].
    + assert (fuel = 0).
      { assert ((length d + cols - 1) / cols <= S k); [|unfold rows in Hf; lia].
        apply Nat.lt_succ_r. apply Nat.div_lt_upper_bound; [lia|]. nia. }
      subst fuel. exists s1. eexists. cbn [seq flat_map map]. rewrite app_nil_r. split; [exact E1|exact A1].
    + pose proof E1 as (_ & K1 & _). pose proof (kept_desc _ _ K1) as Kd.
      destruct (IH (S k) s1) as (s2 & c & E2 & A2).
      * replace (S k * cols) with (k * cols + cols) by lia. exact A1.
      * rewrite Kd. exact Ec.
      * rewrite Kd. unfold dumpable. rewrite <- Ec. auto.
      * right. lia.
      * lia.
      * exists s2, c. split; [eapply emits_trans; [exact E1|exact E2]|exact A2].
Qed.

Lemma xxd_run : forall e s d D pn pc pi px, covers D d -> at_ PXxd S_PROCESS_START (pn, pc, pi, px, D, length d) s -> dumpable (o_desc s) d ->
  exists s', emits e s (map EvOut (xxd_dump (cfg_cols (d_cfg (o_desc s))) d)) s' /\ o_state s' = S_RESET_PROMPT.
Proof.
  intros e s d D pn pc pi px Cv A Du. set (cols := cfg_cols (d_cfg (o_desc s))).
  change (map EvOut (xxd_dump cols d)) with ([] ++ map EvOut (xxd_dump cols d)).
  apply and_then with (P := at_ PXxd S_PROCESS_SERVICE (pn, pc, 0 * cols, 0, D, length d)).
  { eapply (say_nothing e PXxd _ _ s (set_state S_PROCESS_SERVICE (set_pitem 0 (set_pidx 0 s)))); [exact A|left; reflexivity| |repeat split|reflexivity|reflexivity|].
    - cbn [proc]. at_fields A. unfold xxd_service. rewrite St. reflexivity.
    - at_fields A. cbn [Nat.mul]. put. }
  intros s1 K1 A1. pose proof (kept_desc _ _ K1) as Kd.
  destruct (xxd_rows e d D pn pc cols Cv (rows cols (length d)) 0 s1 A1) as (s2 & c & E2 & A2); auto.
  { rewrite Kd. reflexivity. } { rewrite Kd. exact Du. } { lia. }
  exists (set_state S_RESET_PROMPT s2). split; [|reflexivity]. rewrite <- (app_nil_r (map EvOut _)). eapply emits_trans; [exact E2|].
  destruct A2 as (R & St & C & B). apply (proc_silent e PXxd); auto; [rewrite St; right; right; reflexivity| |repeat split]. cbn [proc]. unfold xxd_service. rewrite St. reflexivity.
Qed.
