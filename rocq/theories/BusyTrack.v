(** * BusyTrack: the shell at work is never stuck. *)
From Coq Require Import Arith.
From Verif Require Import Types Shell Words BaseFacts PathFacts LogFacts Sched ServiceFacts SchedFacts Macro Editor EditFacts PromptFacts Line Spec Cmds CmdFacts Tree TreeFacts TreeFind TreeOps TreeProofs Complete CompleteProofs GetProofs PrintfFacts ReconfProofs CmdProofs Session SessionProofs Interrupt StepFacts InterruptProofs Busy BusyFacts.

(** ** The argument vector *)
Definition nuls (l : bytes) : nat := count_occ Ascii.ascii_dec l NUL.
Lemma nuls_app : forall a b, nuls (a ++ b) = nuls a + nuls b.
Proof. intros. apply count_occ_app. Qed.
Lemma nuls_no : forall l, no_nul l -> nuls l = 0.
Proof. intros l H. apply count_occ_not_In. exact H. Qed.
Lemma nuls_in : forall l, 0 < nuls l -> In NUL l.
Proof. intros l H. apply (count_occ_In Ascii.ascii_dec). exact H. Qed.

Lemma args_ok : forall n b ptr, n <= nuls (skipn ptr b) -> exists args ws, args_loop n b ptr = Ok args /\ arg_values b args = Ok ws /\ length ws = n.
Proof.
  induction n as [|n IH]; intros b ptr H; [exists [], []; auto|]. destruct (c_str_ok b ptr) as (t & Et); [apply nuls_in; lia|].
  pose proof Et as Ei. apply c_str_inv in Ei as (Nt & a & r & Eb & La).
  assert (Er : nuls r = nuls (skipn ptr b) - 1).
  { rewrite Eb, <- La, skipn_app, skipn_all, Nat.sub_diag. cbn [skipn app]. rewrite nuls_app, (nuls_no t Nt). change (nuls (NUL :: r)) with (S (nuls r)). lia. }
  assert (Es : skipn (ptr + length t + 1) b = r).
  { rewrite Eb, <- La. replace (a ++ t ++ NUL :: r) with ((a ++ t ++ [NUL]) ++ r) by (rewrite <- !app_assoc; reflexivity).
    replace (length a + length t + 1) with (length (a ++ t ++ [NUL])) by (rewrite !app_length; cbn [length]; lia). rewrite skipn_app, skipn_all, Nat.sub_diag. reflexivity. }
  destruct (IH b (ptr + length t + 1)) as (args & ws & A1 & A2 & A3); [rewrite Es; lia|].
  exists (ptr :: args), (t :: ws). cbn [args_loop arg_values]. unfold c_strlen. rewrite Et. cbn [bind]. rewrite A1. cbn [bind]. rewrite A2. cbn [bind length]. auto.
Qed.

(** ** What the shell is going to do *)
Definition echoed (s : st) : Prop := exists full p, holds s full p /\ length full <= 2.
Definition line_end (b : bytes) (e : nat) : Prop := nth_error b e = Some CR \/ nth_error b e = Some LF.
Definition phase (n : fsm) : nat :=
  match n with S_PARSE_PREPARE => 3 | S_PARSE_SEARCH_ARG | S_PARSE_QUOTE_ARG | S_PARSE_STANDARD_ARG => 2
  | S_RESET | S_RESET_PROMPT | S_PROCESS_START | S_PROCESS_SERVICE | S_PROCESS_FINISH => 1 | _ => 0 end.
Definition todo (s : st) : nat := match o_state s with S_WRITE_CHAR => S (o_wsize s - o_wpos s) | _ => 0 end.

(** A line is being taken apart. *)
Definition parse_ready (n : fsm) (s : st) (A : nat) : Prop :=
  exists e, line_end (inb s) e /\ o_inpos s <= e /\ o_outpos s + (if o_escf s then 1 else 0) <= o_inpos s /\
    o_argc s <= nuls (firstn (o_outpos s) (inb s)) + (match n with S_PARSE_SEARCH_ARG => 0 | _ => 1 end) /\ S e <= A + o_inpos s.

Definition node_cost (h : list node) (i : nat) : nat := match nth_error h i with Some nd => 3 * length (n_files nd) + 3 | None => 0 end.
Fixpoint cost (h : list node) (G : list nat) : nat := match G with [] => 0 | i :: r => node_cost h i + cost h r end.

Definition help_ready (w : world) (held : list nat) (s : st) (A : nat) : Prop :=
  exists G, web (help_node (o_desc s)) (hp s) G /\ incl (map fst (w_groups w)) G /\ incl G held /\
    match o_pnode s with
    | None => 8 <= A
    | Some i => exists G1 G2 nd, G = G1 ++ i :: G2 /\ nth_error (hp s) i = Some nd /\ o_pidx s <= 2 /\
        (o_pidx s = 1 -> forall f, nth_error (n_files nd) (o_pitem s) = Some f -> f_desc f <> None) /\
        9 + cost (hp s) G2 + 3 * (length (n_files nd) - o_pitem s) + (2 - o_pidx s) <= A
    end.
Definition ls_ready (own : list nat) (w : world) (held : list nat) (n : fsm) (s : st) (A : nat) : Prop :=
  exists G i nd, web (ls_node (o_desc s)) (hp s) G /\ incl (map de_node (w_fs w)) G /\ incl G held /\ incl G own /\
    o_pnode s = Some i /\ In i G /\ nth_error (hp s) i = Some nd /\
    let k := length (n_files nd) in
    match n with
    | S_PROCESS_START => 12 + 4 * k + 4 * length G + 5 <= A
    | S_PROCESS_SERVICE =>
        match o_pchild s with
        | None => 12 + 4 * k <= A
        | Some j => exists G1 G2, G = G1 ++ j :: G2 /\ o_pidx s <= 3 /\ 12 + 4 * k + 4 * length G2 + (4 - o_pidx s) <= A
        end
    | S_PROCESS_FINISH => o_pidx s <= 3 /\
        (o_pidx s = 2 -> forall f, nth_error (n_files nd) (o_pitem s) = Some f -> f_desc f <> None) /\
        8 + 4 * (k - o_pitem s) + (3 - o_pidx s) <= A
    | _ => False
    end.
Definition cat_ready (w : world) (n : fsm) (s : st) (A : nat) : Prop :=
  exists args ws, ush_parse_get_args s = Ok args /\ arg_values (inb s) args = Ok ws /\ length ws = o_argc s /\
    (forall v, In v (tl ws) -> unreadable w v = None) /\
    match n with
    | S_PROCESS_START => 12 + o_argc s <= A
    | S_PROCESS_SERVICE => 1 <= o_pitem s /\ 10 + (o_argc s - o_pitem s) <= A
    | S_PROCESS_FINISH => 8 <= A
    | _ => False
    end.
Definition xxd_ready (n : fsm) (s : st) (A : nat) : Prop :=
  exists d extra, o_pdata s = Some (d ++ extra) /\ o_pdsize s = length d /\ dumpable (o_desc s) d /\
    match n with
    | S_PROCESS_START => 14 + 4 * S (length d) <= A
    | S_PROCESS_SERVICE => o_pidx s <= 3 /\ (o_pidx s <= 2 -> o_pitem s < length d \/ o_pitem s = 0) /\
        11 + 4 * (S (length d) - o_pitem s) + (match o_pidx s with 0 => 2 | 1 => 1 | 2 => 0 | _ => 3 end) <= A
    | S_PROCESS_FINISH => 8 <= A
    | _ => False
    end.
Definition work_ready (own : list nat) (w : world) (held : list nat) (lx : option job) (n : fsm) (s : st) (A : nat) : Prop :=
  exists f p, o_pfile s = Some f /\ f_proc f = Some p /\
    match p with
    | PHelp => lx = Some (Runs XHelp) /\ n = S_PROCESS_START /\ help_ready w held s A
    | PLs => lx = Some (Runs XLs) /\ ls_ready own w held n s A
    | PCat => lx = Some (Runs XCat) /\ cat_ready w n s A
    | PXxd => xxd_ready n s A
    | PUser _ => False
    end.

(** The line being typed. *)
Definition line_ok (s : st) : Prop := o_esc s <= 2 /\ exists l r, inb s = l ++ NUL :: r /\ o_inpos s = length l /\ eol_free l.
(** Completion of the word [t] after [B]: what the names it meets must satisfy. *)
Definition name_fits (d : desc) (B n : bytes) : Prop := ~ In NUL n /\ eol_free n /\ length B + length n < d_insize d.
Definition gnode (d : desc) (B : bytes) (nd : node) : Prop := Forall (fun f => name_fits d B (f_name f)) (n_files nd).
Definition dnode (d : desc) (B : bytes) (nd : node) : Prop := gnode d B nd /\ exists p, n_path nd = Some p /\ name_fits d B (ush_utils_path_last p).
Definition word_at (B t : bytes) (s : st) : Prop :=
  o_inpos s = length (B ++ t) /\ (exists r, inb s = (B ++ t) ++ NUL :: r) /\ no_nul (B ++ t) /\ eol_free (B ++ t) /\ o_esc s <= 2 /\ cfg_autocomp (d_cfg (o_desc s)) = true.
Definition webs (own : list nat) (W : world -> Prop) (w : world) (held : list nat) (B : bytes) (Gc Gd : list nat) (s : st) : Prop :=
  (forall w n, W w -> named w n -> name_fits (o_desc s) B n) /\
  web (gnode (o_desc s) B) (hp s) Gc /\ incl (map fst (w_groups w)) Gc /\ incl Gc held /\
  web (dnode (o_desc s) B) (hp s) Gd /\ incl (map de_node (w_fs w)) Gd /\ incl Gd held /\ incl Gd own.
Definition ac_round (h : list node) (Gc Gd : list nat) : nat := cost h Gc + 2 * cost h Gd + 20.
Definition ac_base (m : fsm) (d : desc) (h : list node) (B t : bytes) (Gc Gd : list nat) : nat :=
  match m with S_AC_PRINT => 20 | _ => (d_insize d - length (B ++ t)) * (ac_round h Gc Gd + 20) + ac_round h Gc Gd + 40 end.
Definition ac_cursor (Gc Gd : list nat) (h : list node) (stage : nat) (p : option nat) (item idx : nat) (b A : nat) : Prop :=
  match stage, p with
  | 0, None => b + 2 * cost h Gd + 12 <= A
  | 0, Some i => exists G1 G2 nd, Gc = G1 ++ i :: G2 /\ nth_error h i = Some nd /\ idx <= 2 /\
      b + 2 * cost h Gd + 13 + cost h G2 + 3 * (length (n_files nd) - item) + (3 - idx) <= A
  | 1, None => b + cost h Gd + 6 <= A
  | 1, Some i => exists nd, In i Gd /\ nth_error h i = Some nd /\ idx <= 2 /\
      b + cost h Gd + 7 + 3 * (length (n_files nd) - item) + (2 - idx) <= A
  | 2, None => b + 1 <= A
  | 2, Some i => exists G1 G2, Gd = G1 ++ i :: G2 /\ idx <= 2 /\ b + 2 + 3 * length G2 + (2 - idx) <= A
  | _, _ => False
  end.
Definition ac_mode_ok (m : fsm) (B t : bytes) (s : st) : Prop :=
  let found := 0 < o_account s -> exists c, o_accand s = Some c /\ name_fits (o_desc s) B c /\ prefixb t c = true in
  match m with
  | S_AC_PRINT => True
  | S_AC_COUNT => found
  | S_AC_OPTIMISE => found /\ 2 <= o_acprevc s /\ 1 <= o_acsuf s /\ o_acsuf s <= length t
  | _ => False
  end.
Definition ac_ready (own : list nat) (W : world -> Prop) (w : world) (held : list nat) (lx : option job) (n : fsm) (s : st) (A : nat) : Prop :=
  lx = Some Completes /\ exists B t Gc Gd, webs own W w held B Gc Gd s /\ word_at B t s /\
    (match n with S_AC_PREPARE => B = before_word (B ++ t) | _ => o_acin s = Some (length B) end) /\
    match n with
    | S_AC_PREPARE => ac_base S_AC_COUNT (o_desc s) (hp s) B t Gc Gd + ac_round (hp s) Gc Gd + 3 <= A
    | S_AC_START => ac_base S_AC_COUNT (o_desc s) (hp s) B t Gc Gd + ac_round (hp s) Gc Gd + 2 <= A
    | S_AC_COUNT | S_AC_OPTIMISE | S_AC_PRINT => ac_mode_ok n B t s /\ ac_cursor Gc Gd (hp s) (o_pstage s) (o_pnode s) (o_pitem s) (o_pidx s) (ac_base n (o_desc s) (hp s) B t Gc Gd) A
    | S_AC_FINISH => ac_mode_ok (o_acprev s) B t s /\ ac_base (o_acprev s) (o_desc s) (hp s) B t Gc Gd <= A
    | S_AC_RECALL_SUFFIX => o_acsuf s <= length t /\ ac_round (hp s) Gc Gd + 30 <= A
    | S_AC_PROMPT => 8 <= A
    | _ => False
    end.
(** After the prompt a new line begins, or the line is printed again. *)
Definition prompt_goal (s : st) : Prop :=
  o_pnext s = S_READ_PREPARE \/ (o_pnext s = S_AC_RECALL /\ cfg_autocomp (d_cfg (o_desc s)) = true /\ line_ok s).

Definition ready (own : list nat) (W : world -> Prop) (w : world) (held : list nat) (ech : Prop) (lx : option job) (n : fsm) (s : st) (A : nat) : Prop :=
  match n with
  | S_RESET => 8 <= A
  | S_RESET_PROMPT => 7 <= A
  | S_PROMPT_PREFIX => prompt_goal s /\ 6 <= A
  | S_PROMPT_HOST => prompt_goal s /\ 5 <= A
  | S_PROMPT_SPACE => prompt_goal s /\ 4 <= A
  | S_PROMPT_PATH => prompt_goal s /\ 3 <= A
  | S_PROMPT_SUFFIX => prompt_goal s /\ 2 <= A
  | S_READ_PREPARE => 1 <= A
  | S_READ_CHAR => line_ok s
  | S_PARSE_PREPARE => ech /\ exists e, line_end (inb s) e
  | S_PARSE_SEARCH_ARG | S_PARSE_QUOTE_ARG | S_PARSE_STANDARD_ARG => ech /\ parse_ready n s A
  | S_PROCESS_START | S_PROCESS_SERVICE | S_PROCESS_FINISH => work_ready own w held lx n s A
  | S_AC_RECALL => 1 <= A /\ cfg_autocomp (d_cfg (o_desc s)) = true /\ line_ok s
  | S_AC_PREPARE | S_AC_START | S_AC_COUNT | S_AC_OPTIMISE | S_AC_PRINT | S_AC_FINISH | S_AC_PROMPT | S_AC_RECALL_SUFFIX => ac_ready own W w held lx n s A
  | _ => False
  end.

(** The text in the output buffer can be continued by ush_printf. *)
Definition wout (s : st) : Prop := o_wbuf s = Some WOut -> exists full p, holds s full p.
Definition track (own : list nat) (W : world -> Prop) (w : world) (held : list nat) (A : nat) (s : st) : Prop :=
  wout s /\ (o_state s = S_WRITE_CHAR -> exists t, pending s t) /\
  ready own W w held (echoed s) (last_job (lg s)) (at_state s) s A.

Definition less (m' a' l' m a l : nat) : Prop := m' < m \/ (m' = m /\ (a' < a \/ (a' = a /\ l' < l))).

Lemma less_ind : forall P : nat -> nat -> nat -> Prop, (forall m a l, (forall m' a' l', less m' a' l' m a l -> P m' a' l') -> P m a l) -> forall m a l, P m a l.
Proof.
  intros P H m. induction m as [m IM] using (well_founded_induction lt_wf). intros a. induction a as [a IA] using (well_founded_induction lt_wf).
  intros l. induction l as [l IL] using (well_founded_induction lt_wf). apply H. intros m' a' l' [L|(-> & [L|(-> & L)])]; auto.
Qed.

Lemma last_job_out : forall l c, last_job (l ++ [EvOut c]) = last_job l.
Proof. intros l c. unfold last_job. rewrite fold_left_app. reflexivity. Qed.
Lemma last_job_get : forall l k n, last_job (l ++ [EvGet k n]) = last_job l.
Proof. intros l k n. unfold last_job. rewrite fold_left_app. reflexivity. Qed.
Lemma last_job_exec : forall l cb f ws, last_job (l ++ [EvExec cb f ws]) = Some (Runs cb).
Proof. intros l cb f ws. unfold last_job. rewrite fold_left_app. reflexivity. Qed.

(** ** Printing *)
Lemma track_str : forall own W w held A t n s, n <> S_WRITE_CHAR -> ready own W w held False (last_job (lg s)) n s A -> track own W w held A (write_str t n s).
Proof.
  intros own W w held A t n s N R. split; [intros X; discriminate X|]. split; [intros _; exists t; apply pending_wpb, points_WStr|].
  change (at_state (write_str t n s)) with n. destruct n; try exact R; try contradiction; try (destruct R as (X & _); contradiction).
Qed.
Lemma holds_text : forall s t, no_nul t -> length t < d_outsize (o_desc s) -> o_wbuf s = Some WOut -> (exists r, outb s = t ++ NUL :: r) -> o_wpos s <= length t -> o_wsize s = length t ->
  holds s t (o_wpos s).
Proof.
  intros s t N L Wb Ob Wp Ws. unfold holds. rewrite printf_eq, cut_fits by exact L. apply Nat.ltb_lt in L as L'. rewrite L', app_nil_r. auto 10.
Qed.
(** The output buffer is printed. *)
Definition put_out (t : bytes) (n : fsm) (s s' : st) : Prop :=
  exists b, s' = ush_write_pointer_bin WOut (length t) n (set_outb b s) /\ (exists r, b = t ++ NUL :: r) /\ no_nul t /\ length t < d_outsize (o_desc s).
Lemma put_holds : forall t n s s', put_out t n s s' -> holds s' t 0 /\ exists u, pending s' u.
Proof.
  intros t n s s' (b & -> & (r & ->) & N & L). split; [match goal with |- holds ?y _ _ => apply (holds_text y t N L) end; cbn; eauto; lia|]. exists t. apply pending_wpb. apply points_str. apply c_str_0. exact N.
Qed.
Lemma track_out : forall own W w held A t n s s', put_out t n s s' -> n <> S_WRITE_CHAR -> ready own W w held (length t <= 2) (last_job (lg s)) n s A -> track own W w held A s'.
Proof.
  intros own W w held A t n s s' P N R. destruct (put_holds _ _ _ _ P) as (H & Pe). split; [intros _; eauto|]. split; [intros _; exact Pe|].
  assert (E : length t <= 2 -> echoed s') by (intros X; exists t, 0; auto).
  destruct P as (b & -> & _). change (at_state (ush_write_pointer_bin WOut (length t) n (set_outb b s))) with n.
  destruct n; try exact R; try contradiction; destruct R as (X & R); (split; [apply E, X|exact R]).
Qed.
Lemma print_out_put : forall t n s, bufs_ok s -> no_nul t -> length t < d_outsize (o_desc s) -> exists s', print_out t n s = Ok s' /\ put_out t n s s'.
Proof.
  intros t n s B N L. pose proof B as (_ & B2 & _). unfold print_out. rewrite c_strcpy_0 by lia. cbn [bind]. eexists. split; [apply wp_eq; apply c_str_0; exact N|].
  eexists. split; [reflexivity|]. split; [eauto|]. split; assumption.
Qed.

Lemma track_state : forall own W w held A n s, wout s -> n <> S_WRITE_CHAR -> ready own W w held (echoed s) (last_job (lg s)) n s A -> track own W w held A (set_state n s).
Proof.
  intros own W w held A n s Wo N R. split; [exact Wo|]. split; [intros X; cbn in X; contradiction|]. unfold at_state. cbn [o_state set_state]. destruct n; try exact R; contradiction.
Qed.

(** ** One call of ush_service *)
Definition onward (s : st) (A : nat) (s' : st) (A' : nat) : Prop :=
  less (phase (at_state s')) A' (todo s') (phase (at_state s)) A (todo s) /\ (1 <= phase (at_state s) -> o_state s <> S_RESET_PROMPT -> 1 <= phase (at_state s')).
Definition stepped (own : list nat) (W : world -> Prop) (w : world) (held : list nat) (A : nat) (s s' : st) : Prop :=
  exists A', track own W w held A' s' /\ onward s A s' A'.
Lemma stepped_dec : forall own W w held A s s', phase (at_state s') = phase (at_state s) -> 1 <= A -> track own W w held (A - 1) s' -> stepped own W w held A s s'.
Proof. intros own W w held A s s' P L T. exists (A - 1). split; [exact T|]. split; [right; split; [exact P|left; lia]|rewrite P; auto]. Qed.

Lemma work_held : forall own w held held' lx n s A, incl held held' -> work_ready own w held lx n s A -> work_ready own w held' lx n s A.
Proof.
  intros own w held held' lx n s A I (f & p & Pf & Fp & H). exists f, p. split; [exact Pf|]. split; [exact Fp|]. destruct p; try exact H.
  - destruct H as (X1 & X2 & G & W1 & W2 & W3 & R). split; [exact X1|]. split; [exact X2|]. exists G. split; [exact W1|]. split; [exact W2|]. split; [eapply incl_tran; eauto|exact R].
  - destruct H as (X1 & G & i & nd & W1 & W2 & W3 & R). split; [exact X1|]. exists G, i, nd. split; [exact W1|]. split; [exact W2|]. split; [eapply incl_tran; eauto|exact R].
Qed.
Lemma ready_held : forall own W w held held' ech lx n s A, incl held held' -> ready own W w held ech lx n s A -> ready own W w held' ech lx n s A.
Proof.
  intros own W w held held' ech lx n s A I R.
  assert (Ac : forall n, ac_ready own W w held lx n s A -> ac_ready own W w held' lx n s A).
  { intros m (X & B & t & Gc & Gd & (W1 & W2 & W3 & W4 & W5 & W6 & W7 & W8) & R'). split; [exact X|]. exists B, t, Gc, Gd. split; [|exact R'].
    split; [exact W1|]. split; [exact W2|]. split; [exact W3|]. split; [exact (incl_tran W4 I)|]. split; [exact W5|]. split; [exact W6|]. split; [exact (incl_tran W7 I)|exact W8]. }
  destruct n; try exact R; try (eapply work_held; eauto; fail); apply Ac; exact R.
Qed.
Lemma track_held : forall own W w held held' A s, incl held held' -> track own W w held A s -> track own W w held' A s.
Proof. intros own W w held held' A s I (T1 & T2 & T3). split; [exact T1|]. split; [exact T2|]. eapply ready_held; eauto. Qed.

Lemma at_eq : forall s n, o_state s = n -> n <> S_WRITE_CHAR -> at_state s = n.
Proof. intros s n E N. unfold at_state. rewrite E. destruct n; try reflexivity; contradiction. Qed.

Lemma track_at : forall own W w held A s n, track own W w held A s -> o_state s = n -> n <> S_WRITE_CHAR ->
  wout s /\ ready own W w held (echoed s) (last_job (lg s)) n s A.
Proof. intros own W w held A s n (T1 & _ & T3) E N. rewrite (at_eq s n E N) in T3. auto. Qed.

Lemma onward_same : forall s A s', at_state s' = at_state s -> todo s' < todo s -> onward s A s' A.
Proof. intros s A s' E L. split; [right; rewrite E; split; [reflexivity|right; auto]|rewrite E; auto]. Qed.

(** *** Writing *)
Lemma holds_more : forall s c full p, holds s full p -> o_wpos s < o_wsize s -> holds (set_wpos (S (o_wpos s)) (emit (EvOut c) s)) full (S p).
Proof.
  intros s c full p (H1 & H2 & H3 & H4 & H5 & H6 & H7) L. split; [exact H1|]. split; [exact H2|]. split; [exact H3|]. split; [cbn; rewrite H4; reflexivity|].
  split; [change (S p <= length (printf_text (d_outsize (o_desc s)) full)); lia|]. split; [exact H6|exact H7].
Qed.
Lemma write_total : forall own W w held A r s, track own W w held A s -> o_state s = S_WRITE_CHAR ->
  exists s', ush_write_char r s = Ok s' /\ logs harmless s s' /\ track own W w held A s' /\ (r = true -> stepped own W w held A s s').
Proof.
  intros own W w held A r s (T1 & T2 & T3) St. destruct (T2 St) as (t & P1 & P2 & P3). unfold ush_write_char. unfold at_state in T3. rewrite St in T3.
  destruct t as [|c t].
  - cbn [length] in P2. destruct (Nat.leb_spec (o_wsize s) (o_wpos s)); [|lia].
    assert (N : o_wnext s <> S_WRITE_CHAR) by (intros X; rewrite X in T3; exact T3).
    assert (T : track own W w held A (set_state (o_wnext s) s)) by (apply track_state; assumption).
    eexists. split; [reflexivity|]. split; [apply logs_refl; reflexivity|]. split; [exact T|]. intros _. exists A. split; [exact T|]. apply onward_same; unfold at_state, todo; rewrite St; cbn [o_state set_state]; destruct (o_wnext s); try reflexivity; try lia; contradiction.
  - cbn [length] in P2. destruct (Nat.leb_spec (o_wsize s) (o_wpos s)); [lia|]. pose proof (P3 0 c eq_refl) as R. rewrite Nat.add_0_r in R. rewrite R. cbn [bind]. destruct r.
    + set (s' := set_wpos (S (o_wpos s)) (emit (EvOut c) s)).
      assert (T : track own W w held A s').
      { split; [|split].
        - intros Wb. destruct (T1 Wb) as (full & p & Ho). exists full, (S p). apply holds_more; [exact Ho|lia].
        - intros _. exists t. split; [exact P1|]. split; [unfold s'; cbn; lia|]. intros j d E. pose proof (P3 (S j) d E) as R'.
          unfold s'. cbn [o_wpos set_wpos]. replace (S (o_wpos s) + j) with (o_wpos s + S j) by lia. exact R'.
        - assert (E : echoed s -> echoed s') by (intros (full & p & Ho & L); exists full, (S p); split; [apply holds_more; [exact Ho|lia]|exact L]).
          assert (Lx : last_job (lg s') = last_job (lg s)) by (unfold s'; cbn [lg set_wpos emit set_lg]; apply last_job_out).
          replace (at_state s') with (o_wnext s) by (unfold at_state, s'; cbn; rewrite St; reflexivity). rewrite Lx.
          destruct (o_wnext s); try exact T3; destruct T3 as (X & Y); (split; [apply E, X|exact Y]). }
      exists s'. split; [reflexivity|]. split; [eapply logs_one; [reflexivity|exact I]|]. split; [exact T|]. intros _. exists A. split; [exact T|].
      apply onward_same; unfold at_state, todo, s'; cbn [o_state set_wpos emit set_lg o_wnext o_wsize o_wpos]; rewrite St; [reflexivity|lia].
    + exists s. split; [reflexivity|]. split; [apply logs_refl; reflexivity|]. split; [split; [exact T1|split; [exact T2|unfold at_state; rewrite St; exact T3]]|discriminate].
Qed.

(** *** The prompt *)
Ltac pr := match goal with |- stepped _ _ _ _ _ ?s _ => apply stepped_dec; [unfold at_state; match goal with E : o_state s = _ |- _ => rewrite E end; reflexivity|lia|] end.
Lemma prompt_total : forall own x W w held A i s, on_course own x W w s -> track own W w held A s ->
  match o_state s with S_RESET | S_RESET_PROMPT | S_PROMPT_PREFIX | S_PROMPT_HOST | S_PROMPT_SPACE | S_PROMPT_PATH | S_PROMPT_SUFFIX => True | _ => False end ->
  exists s', svc i s = Ok (true, s') /\ lg s' = lg s /\ stepped own W w held A s s'.
Proof.
  intros own x W w held A i s C T Hs. destruct (o_state s) eqn:St; try contradiction; unfold svc; rewrite St;
    destruct (track_at _ _ _ _ _ _ _ T St ltac:(discriminate)) as (Wo & R); cbn [ready line_ok] in R; unfold ush_reset_service, ush_prompt_service; rewrite St.
  - eexists. split; [reflexivity|]. split; [reflexivity|]. pr. apply track_str; [discriminate|]. cbn [ready]. lia.
  - eexists. split; [reflexivity|]. split; [reflexivity|]. exists (A - 1). split; [|split; [left; unfold at_state; rewrite St; apply Nat.lt_0_1|congruence]].
    split; [exact Wo|]. split; [discriminate|]. split; [left; reflexivity|]. lia.
  - eexists. split; [reflexivity|]. split; [reflexivity|]. pr. apply track_str; [discriminate|]. split; [apply R|]. lia.
  - eexists. split; [reflexivity|]. split; [reflexivity|]. pr. apply track_str; [discriminate|]. split; [apply R|]. lia.
  - eexists. split; [reflexivity|]. split; [reflexivity|]. pr. apply track_str; [discriminate|]. split; [apply R|]. lia.
  - destruct C as (K & Wc & _). destruct (w_cwd w) as [cwd|] eqn:Ec; [|congruence]. destruct (cwd_show _ _ _ _ K Ec) as (nd & Hn & Hp). rewrite Hn. cbn [bind]. unfold path_of. rewrite Hp. cbn [bind].
    eexists. split; [reflexivity|]. split; [reflexivity|]. pr. apply track_str; [discriminate|]. split; [apply R|]. lia.
  - destruct R as (O & R). destruct O as [O|(O & Ac & Lo)]; rewrite O; eexists; (split; [reflexivity|]); (split; [reflexivity|]); pr; (apply track_str; [discriminate|]); cbn [ready]; [lia|]. split; [lia|auto].
Qed.

(** *** Reading *)
Lemma start_total : forall own x W w held A i s, on_course own x W w s -> track own W w held A s -> o_state s = S_READ_PREPARE ->
  exists s', svc i s = Ok (false, s') /\ lg s' = lg s /\ stepped own W w held A s s'.
Proof.
  intros own x W w held A i s (_ & _ & _ & B & _) T St. unfold svc. rewrite St. destruct (track_at _ _ _ _ _ _ _ T St ltac:(discriminate)) as (Wo & R). cbn [ready line_ok] in R.
  destruct B as (B1 & _ & B3 & _). unfold ush_read_start. destruct (inb s) as [|y r] eqn:Ei; [cbn [length] in B1; lia|]. change (wr (y :: r) 0 NUL) with (Ok (NUL :: r)). cbn [bind].
  eexists. split; [reflexivity|]. split; [reflexivity|]. pr.
  split; [exact Wo|]. split; [discriminate|]. cbn [ready at_state]. split; [cbn; lia|]. exists [], r. split; [reflexivity|]. split; [reflexivity|]. split; intros [].
Qed.

Lemma echo_put : forall c s, bufs_ok s -> exists t s', ush_read_echo_service c s = Ok s' /\ (ceq c CR || ceq c LF = true -> length t <= 2) /\
  put_out t (if ceq c CR || ceq c LF then S_PARSE_PREPARE else S_READ_CHAR) s s'.
Proof.
  intros c s (_ & B2 & _ & B4). destruct (buf4 (outb s) _ B2 B4) as (x0 & x1 & x2 & x3 & r & Eo). unfold ush_read_echo_service. rewrite Eo.
  assert (F : forall t n b, no_nul t -> length t < 4 -> (exists r, b = t ++ NUL :: r) -> exists s', ush_write_pointer WOut n (set_outb b s) = Ok s' /\ put_out t n s s').
  { intros t n b N L (r' & ->). eexists. split; [apply wp_eq; apply c_str_0; exact N|]. eexists. split; [reflexivity|]. split; [eauto|]. split; [exact N|lia]. }
  destruct (ceq_spec c CR) as [->|N1].
  - cbn [wr Nat.ltb Nat.leb length upd bind orb]. exists [CR; LF]. destruct (F [CR; LF] S_PARSE_PREPARE (CR :: LF :: NUL :: x3 :: r)) as (s' & E & P); [intros [X|[X|[]]]; discriminate X|cbn; lia|eexists; reflexivity|].
    exists s'. split; [exact E|]. split; [cbn; lia|exact P].
  - cbn [orb]. destruct (ceq c BS || ceq c DEL) eqn:Eb.
    + assert (Nl : ceq c LF = false). { destruct (ceq_spec c LF) as [->|]; [discriminate Eb|reflexivity]. } rewrite Nl. cbn [wr Nat.ltb Nat.leb length upd bind].
      destruct (F [BS; SP; BS] S_READ_CHAR (BS :: SP :: BS :: NUL :: r)) as (s' & E & P); [intros [X|[X|[X|[]]]]; discriminate X|cbn; lia|eexists; reflexivity|].
      exists [BS; SP; BS], s'. split; [exact E|]. split; [discriminate|exact P].
    + cbn [wr Nat.ltb Nat.leb length upd bind].
      destruct (ceq_spec c NUL) as [->|Nn].
      * destruct (F [] S_READ_CHAR (NUL :: NUL :: x2 :: x3 :: r)) as (s' & E & P); [intros []|cbn; lia|eexists; reflexivity|]. exists [], s'. split; [exact E|]. split; [discriminate|exact P].
      * destruct (F [c] (if ceq c LF then S_PARSE_PREPARE else S_READ_CHAR) (c :: NUL :: x2 :: x3 :: r)) as (s' & E & P); [intros [X|[]]; congruence|cbn; lia|eexists; reflexivity|].
        exists [c], s'. split; [exact E|]. split; [cbn; lia|exact P].
Qed.

Lemma last_job_tab : forall l, last_job (l ++ [EvIn TAB]) = Some Completes.
Proof. intros l. unfold last_job. rewrite fold_left_app. reflexivity. Qed.
Lemma fits_group : forall d B w, (forall n, named w n -> name_fits d B n) -> group_node (gnode d B) w.
Proof. intros d B w H i fl nd I F. unfold gnode. rewrite F. apply Forall_forall. intros f If. apply H. left. exists f. split; [|reflexivity]. left. apply in_flat_map. exists (i, fl). auto. Qed.
Lemma fits_dir : forall own s d B w, knows own s w -> (forall n, named w n -> name_fits d B n) -> dir_node (dnode d B) w.
Proof.
  intros own s d B w K H dd nd I P F. split; [unfold gnode; rewrite F; apply Forall_forall; intros f If; apply H; left; exists f; split; [right; eauto|reflexivity]|].
  eexists. split; [exact P|]. apply H. right. exists dd. split; [exact I|]. destruct K as (((Po & _) & _) & _). rewrite path_last_show by (rewrite Forall_forall in Po; apply Po; exact I). reflexivity.
Qed.
Lemma names_webs : forall own (W : world -> Prop) w held s B, knows own s w -> W w -> (forall w n, W w -> named w n -> name_fits (o_desc s) B n) ->
  webs own W w (used_ids w ++ held) B (map fst (w_groups w)) (map de_node (w_fs w)) s.
Proof.
  intros own W w held s B K Ww H. split; [exact H|]. split; [eapply gs_web_gen; [exact K|apply fits_group; intros n; apply H, Ww]|]. split; [apply incl_refl|].
  split; [intros j I; apply in_or_app; left; apply in_or_app; right; exact I|]. split; [eapply fs_web_gen; [exact K|eapply fits_dir; [exact K|intros n; apply H, Ww]]|]. split; [apply incl_refl|].
  split; [intros j I; apply in_or_app; left; apply in_or_app; left; exact I|]. intros j Ij. destruct K as (_ & _ & _ & U & _). apply U. left. exact Ij.
Qed.

Lemma read_total : forall own x W w held A i s, on_course own x W w s -> track own W w held A s -> o_state s = S_READ_CHAR ->
  (io_rd i = Some TAB -> cfg_autocomp (d_cfg (x_desc x)) = true -> tab_fine x W s) ->
  exists b s', svc i s = Ok (b, s') /\ logs harmless s s' /\ exists A', track own W w (used_ids w ++ held) A' s'.
Proof.
  intros own x W w held0 A i s (K & _ & Ww & B & Ds & _) T St Tb. set (held := used_ids w ++ held0). apply (track_held own W w held0 held) in T; [|apply incl_appr, incl_refl]. unfold svc. rewrite St. pose proof T as T0. destruct (track_at _ _ _ _ _ _ _ T St ltac:(discriminate)) as (Wo & R). clear T. cbn [ready line_ok] in R.
  destruct R as (Es & l & r & Ei & Ip & El). unfold ush_read_char. destruct (io_rd i) as [c|]; [|exists false, s; split; [reflexivity|]; split; [apply logs_refl; reflexivity|eauto]].
  set (s0 := emit (EvIn c) s).
  assert (W0 : wout s0) by exact Wo. assert (B0 : bufs_ok s0) by exact B.
  assert (Stay : forall s1, wout s1 -> o_state s1 = S_READ_CHAR -> o_esc s1 <= 2 -> inb s1 = inb s -> o_inpos s1 = o_inpos s -> track own W w held A s1).
  { intros s1 H1 H2 H3 H4 H5. split; [exact H1|]. split; [intros X; congruence|]. rewrite (at_eq s1 _ H2) by discriminate. split; [exact H3|]. exists l, r. rewrite H4, H5. auto. }
  assert (Log : forall s1, lg s1 = lg s0 -> logs harmless s s1) by (intros s1 E; eapply logs_one; [exact E|exact I]).
  assert (Echo : forall s1, bufs_ok s1 -> lg s1 = lg s0 -> o_esc s1 <= 2 -> (ceq c CR || ceq c LF = true -> exists e, line_end (inb s1) e) ->
     (ceq c CR || ceq c LF = false -> exists l r, inb s1 = l ++ NUL :: r /\ o_inpos s1 = length l /\ eol_free l) ->
     exists s2, ush_read_echo_service c s1 = Ok s2 /\ logs harmless s s2 /\ track own W w held A s2).
  { intros s1 H1 H2 H3 H4 H5. destruct (echo_put c s1 H1) as (t & s2 & E & Le & P). exists s2. split; [exact E|]. split; [apply Log; destruct P as (b & -> & _); exact H2|].
    eapply track_out; [exact P|destruct (ceq c CR || ceq c LF); discriminate|]. destruct (ceq c CR || ceq c LF); cbn [ready]; unfold line_ok; auto. }
  destruct (ceq_spec c ETX) as [->|N1].
  { cbn [bind]. eexists. eexists. split; [reflexivity|]. split; [apply Log; reflexivity|]. exists 8. apply track_str; [discriminate|]. cbn [ready]. lia. }
  destruct (ceq c BS || ceq c DEL) eqn:Eb.
  { assert (Ne : ceq c CR || ceq c LF = false) by (destruct (ceq_spec c CR) as [->|]; [discriminate Eb|]; destruct (ceq_spec c LF) as [->|]; [discriminate Eb|reflexivity]).
    change (o_inpos s0) with (o_inpos s). destruct (o_inpos s) as [|p] eqn:Ep.
    - cbn [bind]. eexists. eexists. split; [reflexivity|]. split; [apply Log; reflexivity|]. exists A. apply Stay; auto.
    - assert (El' : exists y, l = firstn p l ++ [y]).
      { destruct l as [|y l]; [discriminate Ip|]. destruct (exists_last (l := y :: l)) as (l' & z & Q); [discriminate|]. exists z. rewrite Q in Ip |- *. rewrite app_length in Ip. cbn [length] in Ip.
        assert (p = length l') by lia. subst p. rewrite firstn_app, firstn_all, Nat.sub_diag. cbn [firstn]. rewrite app_nil_r. reflexivity. }
      destruct El' as (y & El'). assert (Lp : length (firstn p l) = p) by (rewrite firstn_length; lia).
      assert (Ew : wr (inb s0) p NUL = Ok (firstn p l ++ NUL :: NUL :: r)).
      { change (inb s0) with (inb s). rewrite Ei. rewrite El' at 1. rewrite <- app_assoc. cbn [app]. apply wr_app. congruence. }
      rewrite Ew. cbn [bind].
      destruct (Echo (set_inpos p (set_inb (firstn p l ++ NUL :: NUL :: r) s0))) as (s2 & E2 & L2 & T2).
      + destruct B as (B1 & B2 & B3 & B4). split; [|auto]. apply wr_length in Ew. cbn. rewrite Ew. exact B1.
      + reflexivity.
      + exact Es.
      + congruence.
      + intros _. exists (firstn p l), (NUL :: r). split; [reflexivity|]. split; [cbn; congruence|]. destruct El as (X1 & X2). split; intros X; [apply X1|apply X2]; eapply In_firstn; exact X.
      + rewrite E2. cbn [bind]. exists true, s2. split; [reflexivity|]. split; [exact L2|]. eauto. }
  destruct (ceq_spec c TAB) as [->|N2].
  { change (o_desc s0) with (o_desc s). destruct (cfg_autocomp (d_cfg (o_desc s))) eqn:Ac; cbn [bind]; (eexists; eexists; split; [reflexivity|]; split; [apply Log; reflexivity|]); [|exists A; apply Stay; auto].
    destruct (Tb eq_refl ltac:(rewrite <- Ds; exact Ac) (o_esc s) l) as (Nl & Fit). { split; [exact St|]. split; [reflexivity|]. split; [exact Ip|eauto]. }
    eexists. apply (track_state own W w held _ S_AC_PREPARE s0); [exact Wo|discriminate|]. split; [unfold s0; cbn [emit set_lg lg]; apply last_job_tab|]. pose proof (before_last l) as Bl.
    exists (before_word l), (last_word l), (map fst (w_groups w)), (map de_node (w_fs w)). split; [|split; [|split; [rewrite <- Bl; reflexivity|apply le_n]]].
    - eapply names_webs; [exact K|exact Ww|]. change (o_desc s0) with (o_desc s). rewrite Ds. exact Fit.
    - unfold word_at. rewrite <- Bl. split; [exact Ip|]. split; [exists r; exact Ei|]. split; [exact Nl|]. split; [exact El|]. split; [exact Es|exact Ac]. }
  destruct (ceq_spec c ESC) as [->|N3].
  { cbn [bind]. eexists. eexists. split; [reflexivity|]. split; [apply Log; reflexivity|]. exists A. apply Stay; auto. }
  unfold ush_read_char_by_escape_state. change (o_esc s0) with (o_esc s). destruct (o_esc s) as [|[|[|k]]] eqn:Ek; [| | |lia].
  - change (inb s0) with (inb s). change (o_inpos s0) with (o_inpos s). change (o_desc s0) with (o_desc s). rewrite Ei, Ip. destruct B as (B1 & B2 & B3 & B4). rewrite Ei in B1.
    destruct (store_char (d_insize (o_desc s)) l r c B1 B3) as (r' & b1 & E1 & E2 & E3 & E4 & E5). rewrite E1. cbn [bind]. set (p := if _ <=? _ then _ else _) in *. rewrite E2. cbn [bind].
    assert (Lb : length (stored_line (d_insize (o_desc s)) l c ++ NUL :: r') = d_insize (o_desc s)) by (apply wr_length in E1, E2; congruence).
    destruct (Echo (set_inpos p (set_inb (stored_line (d_insize (o_desc s)) l c ++ NUL :: r') s0))) as (s2 & X2 & L2 & T2).
    + split; [exact Lb|auto].
    + reflexivity.
    + cbn. lia.
    + intros Hc. assert (Hc' : c = CR \/ c = LF) by (apply orb_true_iff in Hc as [H|H]; apply ceq_true in H; auto). cbn [inb set_inpos set_inb]. destruct (d_insize (o_desc s) <=? S (length l)).
      * rewrite E4 by reflexivity. exists (S (length (tl l))). unfold line_end. cbn [nth_error]. rewrite nth_error_app2, Nat.sub_diag by lia. cbn [nth_error]. destruct Hc' as [->| ->]; auto.
      * destruct (E5 eq_refl) as (r'' & ->). exists (length l). unfold line_end. rewrite nth_error_app2, Nat.sub_diag by lia. cbn [nth_error]. destruct Hc' as [->| ->]; auto.
    + intros Hc. exists (stored_line (d_insize (o_desc s)) l c), r'. split; [reflexivity|]. split; [exact E3|]. apply orb_false_iff in Hc as (H1 & H2). apply ceq_false in H1, H2.
      unfold stored_line. destruct (_ <? _); [|split; intros []]. destruct El as (X1 & X2). split; rewrite in_app_iff; intros [X|[X|[]]]; auto; congruence.
    + rewrite X2. cbn [bind]. exists true, s2. split; [reflexivity|]. split; [exact L2|]. eauto.
  - match goal with |- context [if ?v then Ok (false, set_esc 2 s0) else _] => destruct v end; cbn [bind]; (eexists; eexists; split; [reflexivity|]; split; [apply Log; reflexivity|]; exists A; apply Stay; auto; cbn; lia).
  - cbn [bind]. eexists. eexists. split; [reflexivity|]. split; [apply Log; reflexivity|]. exists A. apply Stay; auto; cbn; lia.
Qed.

(** *** Taking a line apart *)
Definition parsing_state (n : fsm) : Prop := n = S_PARSE_SEARCH_ARG \/ n = S_PARSE_QUOTE_ARG \/ n = S_PARSE_STANDARD_ARG.
Lemma out_char_ok : forall ch s, o_outpos s < length (inb s) -> out_char ch s = Ok (set_outpos (S (o_outpos s)) (set_inb (upd (inb s) (o_outpos s) ch) s)).
Proof. intros ch s L. unfold out_char. rewrite wr_ok by exact L. reflexivity. Qed.
Lemma firstn_upd : forall (b : bytes) k c, k < length b -> firstn (S k) (upd b k c) = firstn k b ++ [c].
Proof. induction b as [|y b IH]; intros [|k] c L; cbn [length] in L; try lia; [reflexivity|]. cbn [upd app]. rewrite !firstn_cons, IH by lia. reflexivity. Qed.
Lemma line_end_upd : forall b e k c, line_end b e -> k <> e -> line_end (upd b k c) e.
Proof. intros b e k c H N. unfold line_end in *. rewrite upd_nth_other by exact N. exact H. Qed.
Lemma line_end_lt : forall b e, line_end b e -> e < length b.
Proof. intros b e [H|H]; apply nth_error_Some; congruence. Qed.
Lemma nuls_one : forall c, nuls [c] <= 1.
Proof. intros c. unfold nuls. cbn [count_occ]. destruct (Ascii.ascii_dec c NUL); lia. Qed.

(** Only the input buffer and the parser's variables differ. *)
Definition parse_only (s s' : st) : Prop :=
  wout s' = wout s /\ echoed s' = echoed s /\ lg s' = lg s /\ hp s' = hp s /\ o_desc s' = o_desc s.

Lemma std_total : forall ch s e A, parsing_state (o_state s) -> line_end (inb s) e -> o_inpos s < e -> o_outpos s + (if o_escf s then 1 else 0) <= o_inpos s ->
  o_argc s <= nuls (firstn (o_outpos s) (inb s)) + (match o_state s with S_PARSE_SEARCH_ARG => 0 | _ => 1 end) -> S e <= A + o_inpos s ->
  exists s', ush_parse_char_standard ch (set_inpos (S (o_inpos s)) s) = Ok s' /\ parsing_state (o_state s') /\ parse_ready (o_state s') s' (A - 1) /\ parse_only s s'.
Proof.
  intros ch s e A Ps Le Ie Oi Ac Ae. pose proof (line_end_lt _ _ Le) as Lb. set (s0 := set_inpos (S (o_inpos s)) s).
  assert (Oc : forall c s1, inb s1 = inb s -> o_outpos s1 = o_outpos s -> out_char c s1 = Ok (set_outpos (S (o_outpos s)) (set_inb (upd (inb s) (o_outpos s) c) s1))).
  { intros c s1 E1 E2. rewrite out_char_ok by (rewrite E1, E2; lia). rewrite E1, E2. reflexivity. }
  assert (Nu : forall c, nuls (firstn (S (o_outpos s)) (upd (inb s) (o_outpos s) c)) = nuls (firstn (o_outpos s) (inb s)) + nuls [c]).
  { intros c. rewrite firstn_upd, nuls_app by lia. reflexivity. }
  assert (Keep : forall s1 n, o_state s1 = n -> parsing_state n -> parse_only s s1 -> inb s1 = inb s -> o_inpos s1 = S (o_inpos s) -> o_outpos s1 = o_outpos s ->
     o_argc s1 <= nuls (firstn (o_outpos s) (inb s)) + (match n with S_PARSE_SEARCH_ARG => 0 | _ => 1 end) ->
     exists s', Ok s1 = Ok s' /\ parsing_state (o_state s') /\ parse_ready (o_state s') s' (A - 1) /\ parse_only s s').
  { intros s1 n Hn Hp Po H1 H2 H3 H4. exists s1. rewrite Hn. split; [reflexivity|]. split; [exact Hp|]. split; [|exact Po]. exists e. rewrite H1, H2, H3. split; [exact Le|]. split; [lia|].
    split; [destruct (o_escf s1); destruct (o_escf s); lia|]. split; [exact H4|lia]. }
  assert (Put : forall s1 n c, o_state s1 = n -> parsing_state n -> parse_only s s1 -> inb s1 = upd (inb s) (o_outpos s) c -> o_inpos s1 = S (o_inpos s) -> o_outpos s1 = S (o_outpos s) -> (o_escf s1 = true -> o_escf s = true) -> 
     (o_escf s = true -> o_escf s1 = false \/ o_state s1 = S_PARSE_STANDARD_ARG) ->
     o_argc s1 <= nuls (firstn (o_outpos s) (inb s)) + nuls [c] + (match n with S_PARSE_SEARCH_ARG => 0 | _ => 1 end) ->
     exists s', Ok s1 = Ok s' /\ parsing_state (o_state s') /\ parse_ready (o_state s') s' (A - 1) /\ parse_only s s').
  { intros s1 n c Hn Hp Po H1 H2 H3 H5 _ H4. exists s1. rewrite Hn. split; [reflexivity|]. split; [exact Hp|]. split; [|exact Po]. exists e. rewrite H1, H2, H3. split; [apply line_end_upd; [exact Le|lia]|]. split; [lia|].
    split; [destruct (o_escf s1); [rewrite (H5 eq_refl) in Oi|]; lia|]. split; [rewrite Nu; exact H4|lia]. }
  assert (Esc : o_escf s = true -> (o_state s = S_PARSE_QUOTE_ARG \/ o_state s = S_PARSE_STANDARD_ARG) -> exists s', out_escaped ch s0 = Ok s' /\ parsing_state (o_state s') /\ parse_ready (o_state s') s' (A - 1) /\ parse_only s s').
  { intros Ef Hs. rewrite Ef in Oi. assert (Ac' : o_argc s <= nuls (firstn (o_outpos s) (inb s)) + 1) by (destruct Hs as [Hs|Hs]; rewrite Hs in Ac; exact Ac).
    assert (Hn : match o_state s with S_PARSE_SEARCH_ARG => 0 | _ => 1 end = 1) by (destruct Hs as [Hs|Hs]; rewrite Hs; reflexivity).
    unfold out_escaped. destruct (ceq_spec ch "x"%char) as [->|Nx].
    - rewrite (Oc BSL s0 eq_refl eq_refl). cbn [bind]. rewrite out_char_ok by (cbn; rewrite upd_length; lia). cbn [bind]. eexists. split; [reflexivity|]. cbn [o_state set_escf set_outpos set_inb].
      split; [exact Ps|]. split; [|repeat split]. exists e. cbn [inb o_inpos o_outpos o_escf o_argc set_escf set_outpos set_inb]. change (o_inpos s0) with (S (o_inpos s)).
      split; [apply line_end_upd; [apply line_end_upd; [exact Le|lia]|lia]|]. split; [lia|]. split; [lia|]. change (o_argc s0) with (o_argc s). change (o_state s0) with (o_state s).
      split; [|lia]. rewrite Hn, firstn_upd, nuls_app, Nu by (rewrite upd_length; lia). lia.
    - cbn [bind]. rewrite (Oc ch s0 eq_refl eq_refl). cbn [bind]. apply (Put _ (o_state s) ch); try reflexivity; auto; [repeat split|]. rewrite Hn. cbn. lia. }
  unfold ush_parse_char_standard. change (o_state s0) with (o_state s). change (o_escf s0) with (o_escf s). change (o_argc s0) with (o_argc s).
  assert (PS : parsing_state S_PARSE_SEARCH_ARG) by (left; reflexivity). assert (PQ : parsing_state S_PARSE_QUOTE_ARG) by (right; left; reflexivity). assert (PD : parsing_state S_PARSE_STANDARD_ARG) by (right; right; reflexivity).
  destruct Ps as [St|[St|St]]; rewrite St in *.
  - destruct (ceq ch SP); [apply (Keep _ S_PARSE_SEARCH_ARG); auto; [repeat split]|]. destruct (ceq ch DQ); [apply (Keep _ S_PARSE_QUOTE_ARG); auto; [repeat split|cbn; lia]|].
    destruct (ceq ch BSL); [apply (Keep _ S_PARSE_STANDARD_ARG); auto; [repeat split|cbn; lia]|]. rewrite (Oc ch s0 eq_refl eq_refl). cbn [bind].
    apply (Put _ S_PARSE_STANDARD_ARG ch); try reflexivity; auto; [repeat split|]. cbn. lia.
  - destruct (o_escf s) eqn:Ef; [apply Esc; auto|]. destruct (ceq ch DQ); [apply (Keep _ S_PARSE_STANDARD_ARG); auto; [repeat split]|].
    destruct (ceq ch BSL); [apply (Keep _ S_PARSE_QUOTE_ARG); auto; [repeat split]|]. rewrite (Oc ch s0 eq_refl eq_refl).
    apply (Put _ S_PARSE_QUOTE_ARG ch); try reflexivity; auto; [repeat split|cbn; congruence|]. cbn. lia.
  - destruct (o_escf s) eqn:Ef; [apply Esc; auto|]. destruct (ceq ch SP).
    + rewrite (Oc NUL s0 eq_refl eq_refl). cbn [bind]. apply (Put _ S_PARSE_SEARCH_ARG NUL); try reflexivity; auto; [repeat split|cbn; congruence|]. change (nuls [NUL]) with 1. cbn. lia.
    + destruct (ceq ch DQ); [apply (Keep _ S_PARSE_QUOTE_ARG); auto; [repeat split]|]. destruct (ceq ch BSL); [apply (Keep _ S_PARSE_STANDARD_ARG); auto; [repeat split]|]. rewrite (Oc ch s0 eq_refl eq_refl).
      apply (Put _ S_PARSE_STANDARD_ARG ch); try reflexivity; auto; [repeat split|cbn; congruence|]. cbn. lia.
Qed.
