(** * TimeProofs: how many service calls it takes (behind C65).

    A potential [base] plus the number of node objects [help] still has to visit; every
    effective call lowers it by at least one, except for what the events of the call pay. *)
From Coq Require Import Arith Lia List.
From Verif Require Import Shell Spec BaseFacts LogFacts Sched ServiceFacts SchedFacts Macro EditFacts PromptFacts PhaseFacts History ExecFacts Tree TreeFacts TreeProofs StepFacts Session SessionProofs Memory MemoryProofs Time.

(** ** What callbacks leave behind *)
Definition landing (s : st) : Prop :=
  fair_state (o_state s) \/ (o_state s = S_WRITE_CHAR /\ (o_wnext s = S_RESET \/ o_wnext s = S_RESET_PROMPT)).
Definition sizes (s : st) : nat * nat := (length (inb s), length (hp s)).
Definition lands (s s' : st) : Prop := sizes s' = sizes s /\ (landing s -> landing s').

Lemma lands_refl : forall s, lands s s.
Proof. split; auto. Qed.
Lemma lands_trans : forall a b c, lands a b -> lands b c -> lands a c.
Proof. intros a b c (A1 & A2) (B1 & B2). split; [congruence|auto]. Qed.
Lemma lands_same : forall s s', sizes s' = sizes s -> o_state s' = o_state s -> o_wnext s' = o_wnext s -> lands s s'.
Proof. intros s s' A B C. split; auto. unfold landing. rewrite B, C. auto. Qed.
Lemma lands_write : forall s s', sizes s' = sizes s -> o_state s' = S_WRITE_CHAR -> o_wnext s' = S_RESET \/ o_wnext s' = S_RESET_PROMPT -> lands s s'.
Proof. intros s s' A B C. split; auto. intros _. right. auto. Qed.
Lemma lands_state : forall s s', sizes s' = sizes s -> fair_state (o_state s') -> lands s s'.
Proof. intros s s' A B. split; auto. intros _. left. auto. Qed.

Lemma setn_length : forall h i n h', setn h i n = Ok h' -> length h' = length h.
Proof. unfold setn. intros h i n h' H. destruct (i <? length h); oks. apply upd_length. Qed.

Ltac hlens :=
  repeat match goal with
  | E : setn _ _ _ = Ok _ |- _ => apply setn_length in E
  end.

Lemma printf_lands : forall x s s', ush_printf x s = Ok s' -> lands s s'.
Proof.
  unfold ush_printf. intros x s s' H.
  ok1. assert (A : sizes a = sizes s /\ o_state a = S_WRITE_CHAR /\ o_wnext a = S_RESET_PROMPT).
  { clear H. destruct (o_wbuf s) as [[]|]; oks; auto; apply wp_shape in E as (k & ->); auto. }
  clear E. destruct A as (A1 & A2 & A3).
  oks2; apply lands_write; unfold sizes in *; sfields; auto.
Qed.

Lemma wp_lands : forall p n s0 s s', sizes s = sizes s0 -> ush_write_pointer p n s = Ok s' -> n = S_RESET \/ n = S_RESET_PROMPT -> lands s0 s'.
Proof. intros p n s0 s s' A H N. apply wp_shape in H as (k & ->). apply lands_write; auto. Qed.

Lemma action_lands : forall args a s s', fair_action a -> do_action args a s = Ok s' -> lands s s'.
Proof.
  intros args a s s' F H. destruct a; cbn [do_action] in H;
    try (eapply wp_lands; [reflexivity|exact H|auto]);
    try (oks; apply lands_write; cbn; auto; fail).
  - destruct (nth_error args i); [eapply wp_lands; [reflexivity|exact H|auto]|].
    destruct (i =? length args); discriminate.
  - eapply printf_lands; eauto.
  - oks. apply lands_same; reflexivity.
  - unfold ush_node_set_current_dir in H. oks2; apply lands_same; reflexivity.
  - unfold ush_node_mount in H. oks2; hlens; apply lands_same; try reflexivity; unfold sizes; sfields; f_equal; congruence.
  - unfold ush_node_unmount in H. oks2; hlens; apply lands_same; try reflexivity; unfold sizes; sfields; f_equal; congruence.
  - unfold ush_commands_add in H. oks2; hlens; apply lands_same; try reflexivity; unfold sizes; sfields; f_equal; congruence.
  - unfold ush_commands_remove in H. oks2; hlens; apply lands_same; try reflexivity; unfold sizes; sfields; f_equal; congruence.
  - oks. apply lands_state; [reflexivity|exact I].
  - oks. apply lands_state; [reflexivity|exact F].
Qed.

Lemma actions_lands : forall args l s s', Forall fair_action l -> do_actions args l s = Ok s' -> lands s s'.
Proof.
  intros args l. induction l as [|a l IH]; intros s s' F H; cbn [do_actions] in H.
  - oks. apply lands_refl.
  - inversion F; subst. ok1. eapply lands_trans; [eapply action_lands; eauto|eauto].
Qed.

Ltac ld := first [ apply lands_same; sfields; reflexivity
                 | apply lands_write; sfields; auto; fail
                 | apply lands_state; sfields; [reflexivity|exact I] ].

Lemma call_get_lands : forall e cb g s a s', fair e -> call_get e cb g s = Ok (a, s') -> lands s s'.
Proof.
  intros e cb g s a s' (_ & _ & F & _) H. apply call_get_inv in H as (_ & H).
  eapply lands_trans; [|eapply actions_lands; [|exact H]; apply F]. ld.
Qed.

Lemma call_exec_lands : forall e cb f args argv s s', fair e -> call_exec e cb f args argv s = Ok s' -> lands s s'.
Proof.
  intros e cb f args argv s s' F H. pose proof F as (F1 & F2 & _ & _). unfold call_exec in H. destruct cb.
  - unfold help_callback in H. oks2; try ld; eapply wp_lands; [|exact H|]; auto.
  - unfold ls_callback in H. oks2; ld.
  - unfold cd_callback, ush_node_set_current_dir in H. oks2; ld.
  - unfold pwd_callback in H. oks2; try ld; eapply wp_lands; [|exact H|]; auto.
  - unfold cat_callback in H. oks2; ld.
  - unfold xxd_callback in H. oks2; try ld.
    all: match goal with C : call_get _ _ _ _ = Ok (?r, ?t) |- _ => apply call_get_lands in C; [|exact F];
      apply lands_trans with (b := t); [eapply lands_trans; [|exact C]; ld|destruct (g_ptr r); ld] end.
  - unfold echo_callback in H. oks2; try ld.
    + eapply wp_lands; [|exact H|auto]. unfold sizes. sfields. f_equal. eapply decode_ascii_length; eauto.
    + eapply lands_trans; [|eapply actions_lands; [|exact H]; apply F2].
      apply lands_same; try reflexivity. unfold sizes. sfields. f_equal. eapply decode_ascii_length; eauto.
  - eapply lands_trans; [|eapply actions_lands; [|exact H]; apply F1]. ld.
Qed.

Lemma parse_finish_lands : forall e s s', fair e -> ush_parse_finish e s = Ok s' -> lands s s'.
Proof.
  intros e s s' F H. unfold ush_parse_finish in H. ok1. ok1. destruct a0 as [|name rest] eqn:Ea; [oks; ld|].
  ok1. eapply lands_trans with (b := a1).
  - clear H. destruct (d_exec (o_desc s)); [|oks; ld].
    eapply lands_trans; [|eapply actions_lands; [|exact E1]; apply F]. ld.
  - clear E1. ok1. destruct a2 as [f|]; [|oks; ld]. destruct (f_exec f) as [cb|]; [|oks; ld].
    eapply call_exec_lands; eauto.
Qed.

(** ** The potential *)
Definition in_files (s : st) : bool :=
  match o_pnode s with
  | Some i => match nth_error (hp s) i with Some nd => negb (length (n_files nd) <=? o_pitem s) | None => false end
  | None => false
  end.

Definition proc_rank (x : fsm) (s : st) : nat :=
  match o_pfile s with
  | None => 0
  | Some f =>
      match f_proc f with
      | None => 2
      | Some PHelp => if in_files s then match o_pidx s with 0 => 5 | 1 => 3 | _ => 1 end else 5
      | Some PLs =>
          match x with
          | S_PROCESS_START => 1
          | S_PROCESS_SERVICE =>
              match o_pchild s with
              | None => 10
              | Some _ => match o_pidx s with 1 => 3 | 3 => 11 | _ => 1 end
              end
          | _ => match o_pidx s with 0 => 9 | 1 => 7 | 2 => 5 | _ => 3 end
          end
      | Some PCat => match x with S_PROCESS_START => 5 | S_PROCESS_SERVICE => 4 | _ => 3 end
      | Some PXxd =>
          match x with
          | S_PROCESS_START => 8
          | S_PROCESS_SERVICE => match o_pidx s with 0 => 7 | 1 => 5 | 2 => 3 | _ => 1 end
          | _ => 3
          end
      | Some (PUser _) => 0
      end
  end.

Definition rank (x : fsm) (s : st) : nat :=
  match x with
  | S_READ_PREPARE | S_PROMPT_PREFIX | S_PROMPT_SPACE | S_PROMPT_SUFFIX | S_RESET => 1
  | S_PROMPT_HOST | S_PROMPT_PATH => 3
  | S_RESET_PROMPT => 2
  | S_PROCESS_START | S_PROCESS_SERVICE | S_PROCESS_FINISH => proc_rank x s
  | _ => 0
  end.

Definition carry (x : fsm) (s : st) : nat :=
  match x with
  | S_PARSE_PREPARE => length (inb s) + 3
  | S_PARSE_SEARCH_ARG | S_PARSE_QUOTE_ARG | S_PARSE_STANDARD_ARG => length (inb s) - o_inpos s + 2
  | _ => 0
  end.

Definition base (s : st) : nat :=
  match o_state s with
  | S_WRITE_CHAR => carry (o_wnext s) s + (if o_wsize s <=? o_wpos s then 1 + rank (o_wnext s) s else 0)
  | x => carry x s + rank x s
  end.

Lemma proc_rank_le : forall x s, proc_rank x s <= 11.
Proof.
  intros x s. unfold proc_rank. destruct (o_pfile s) as [f|]; [|lia]. destruct (f_proc f) as [[]|]; try lia.
  - destruct (in_files s); destruct (o_pidx s) as [|[|]]; lia.
  - destruct x; try destruct (o_pchild s); destruct (o_pidx s) as [|[|[|[|]]]]; lia.
  - destruct x; lia.
  - destruct x; destruct (o_pidx s) as [|[|[|[|]]]]; lia.
Qed.
Lemma rank_le : forall x s, rank x s <= 11.
Proof. intros x s. pose proof (proc_rank_le x s). unfold rank. destruct x; lia. Qed.

Lemma landing_base : forall s, landing s -> base s <= 12.
Proof.
  intros s [L|(L & R)].
  - unfold base, carry. pose proof (rank_le (o_state s) s). destruct (o_state s); cbn in L; try contradiction; lia.
  - unfold base, carry. rewrite L. pose proof (rank_le (o_wnext s) s). destruct (o_wsize s <=? o_wpos s); destruct R as [->| ->]; cbn in *; lia.
Qed.

(** ** The walk of [help] *)
Definition helps (s : st) : bool :=
  match o_pfile s with
  | Some f => match f_proc f with Some PHelp => true | _ => false end
  | None => false
  end.
Definition starting (s : st) : bool :=
  match o_state s with
  | S_PROCESS_START => true
  | S_WRITE_CHAR => match o_wnext s with S_PROCESS_START => true | _ => false end
  | _ => false
  end.
Definition helping (s : st) : bool := helps s && starting s.

(** The shell is in a loop it does not leave. *)
Definition dead (s : st) : Prop :=
  (o_state s = S_WRITE_CHAR /\ o_wnext s = S_WRITE_CHAR) \/
  ((o_state s = S_PROCESS_SERVICE \/ o_state s = S_PROCESS_FINISH) /\ helps s = true).

Lemma dead_poll : forall s, dead s -> ~ polling s.
Proof. unfold polling. intros s [(A & _)|([A|A] & _)] P; congruence. Qed.

Definition proc_st (x : fsm) : Prop := match x with S_PROCESS_START | S_PROCESS_SERVICE | S_PROCESS_FINISH => True | _ => False end.
Lemma service_process : forall i s b s', ush_service i s = Ok (b, s') -> proc_st (o_state s) -> ush_process_service i s = Ok (b, s').
Proof.
  intros i s b s' H P. rewrite service_eq in H. destruct (o_cur s); [|discriminate]. unfold svc in H.
  destruct (o_state s); cbn in P; try contradiction; exact H.
Qed.
Lemma service_write : forall i s b s', ush_service i s = Ok (b, s') -> o_state s = S_WRITE_CHAR -> ush_write_char (io_wr i) s = Ok s'.
Proof.
  intros i s b s' H P. rewrite service_eq in H. destruct (o_cur s); [|discriminate]. unfold svc in H. rewrite P in H. oks. reflexivity.
Qed.

Lemma dead_step : forall i s b s', ush_service i s = Ok (b, s') -> dead s -> dead s'.
Proof.
  intros i s b s' H [(A & B)|(A & B)].
  - apply service_write in H; [|exact A]. unfold ush_write_char in H. left. oks2; sfields; auto.
  - assert (P : proc_st (o_state s)) by (destruct A as [-> | ->]; exact I). pose proof (service_process _ _ _ _ H P) as X. clear H.
    unfold ush_process_service in X. unfold helps in B. destruct (o_pfile s) as [f|] eqn:Ef; [|discriminate].
    destruct (f_proc f) as [[]|] eqn:Ep; try discriminate. unfold help_service in X.
    right. unfold helps. destruct A as [A|A]; rewrite A in X; oks; rewrite Ef, Ep; auto.
Qed.
Lemma dead_never : forall a os s s', esteps a os s s' -> polling s' -> ~ dead s.
Proof.
  intros a os s s' H. induction H as [s|o os s s1 s2 (_ & b & H1) H2 IH]; intros P D.
  - exact (dead_poll _ D P).
  - apply (IH P). eapply dead_step; eauto.
Qed.

(** One call while [help] works. *)
Lemma help_step : forall i s b s', ush_service i s = Ok (b, s') -> io_wr i = true -> helping s = true ->
  hp s' = hp s /\
  ((helping s' = true /\ o_pnode s' = o_pnode s) \/
   (helping s' = true /\ exists k nd, o_pnode s = Some k /\ nth_error (hp s) k = Some nd /\ o_pnode s' = n_next nd) \/
   (o_pnode s = None /\ o_state s' = S_RESET_PROMPT)).
Proof.
  intros i s b s' H W A. unfold helping in A. apply andb_prop in A as (A & B). unfold starting in B.
  destruct (o_state s) eqn:St; try discriminate.
  - apply service_write in H; [|exact St]. unfold ush_write_char in H. rewrite W in H.
    destruct (o_wnext s) eqn:Wn; try discriminate.
    oks2; (split; [reflexivity|]); left; (split; [|reflexivity]); unfold helping; apply andb_true_intro; (split; [exact A|]);
      unfold starting; sfields; rewrite ?St, ?Wn; reflexivity.
  - assert (P : proc_st (o_state s)) by (rewrite St; exact I). pose proof (service_process _ _ _ _ H P) as X. clear H.
    unfold ush_process_service in X. rewrite St in X. unfold helps in A. destruct (o_pfile s) as [f|] eqn:Ef; [|discriminate].
    destruct (f_proc f) as [[]|] eqn:Ep; try discriminate. oks. unfold help_service in E. rewrite St in E.
    assert (HH : forall t, o_pfile t = o_pfile s -> starting t = true -> helping t = true).
    { intros t T1 T2. unfold helping, helps. rewrite T1, Ef, Ep, T2. reflexivity. }
    destruct (o_pnode s) as [k|] eqn:Pn.
    + unfold getn in E. destruct (nth_error (hp s) k) as [nd|] eqn:Nk; cbn [bind] in E; [|discriminate].
      destruct (length (n_files nd) <=? o_pitem s).
      * oks. split; [reflexivity|]. right. left. split; [apply HH; [reflexivity|unfold starting; sfields; rewrite St; reflexivity]|]. exists k, nd. auto.
      * unfold print_out in E. oks2; (split; [try reflexivity|left; split; [apply HH|]]); sfields; try exact Pn; try reflexivity;
          repeat match goal with E : ush_write_pointer _ _ _ = Ok _ |- _ => apply wp_shape in E as (? & ->) end; sfields; try reflexivity; try exact Pn.
    + oks. split; [reflexivity|]. right. right. auto.
Qed.

Definition ends (h : list node) (p : option nat) (n : nat) : Prop := exists ids, chain h p ids /\ length ids = n.

Lemma ends_zero : forall h n, ends h None n -> n = 0.
Proof. intros h n ([|i ids] & C & L); [auto|]. destruct C as (C & _). discriminate. Qed.
Lemma ends_next : forall h k nd n, nth_error h k = Some nd -> ends h (n_next nd) n -> ends h (Some k) (S n).
Proof. intros h k nd n N (ids & C & L). exists (k :: ids). split; [cbn; eauto|cbn; congruence]. Qed.
Lemma ends_det : forall h p n m, ends h p n -> ends h p m -> n = m.
Proof. intros h p n m (i & C & L) (j & D & M). rewrite (chain_det _ _ _ _ C D) in L. congruence. Qed.

Lemma help_ends : forall a os s s', esteps a os s s' -> polling s' -> helping s = true -> exists n, ends (hp s) (o_pnode s) n.
Proof.
  intros a os s s' H. induction H as [s|o os s s1 s2 (_ & b & H1) H2 IH]; intros P A.
  - unfold helping, starting, polling in *. rewrite P, Bool.andb_false_r in A. discriminate.
  - apply help_step in H1 as (E & [(B & C)|[(B & k & nd & C & D & F)|(B & C)]]); [| | |reflexivity|exact A].
    + rewrite <- E, <- C. auto.
    + destruct (IH P B) as (n & N). rewrite E, F in N. rewrite C. exists (S n). eapply ends_next; eauto.
    + rewrite B. exists 0, []. split; reflexivity.
Qed.

Lemma chain_tail : forall h a p i b, chain h p (a ++ i :: b) -> chain h (Some i) (i :: b).
Proof.
  induction a as [|j a IH]; intros p i b C.
  - destruct C as (E & C). split; [reflexivity|exact C].
  - destruct C as (_ & nd & _ & C). eapply IH; eauto.
Qed.
Lemma chain_distinct : forall h ids p, chain h p ids -> NoDup ids.
Proof.
  induction ids as [|i ids IH]; intros p C; [constructor|]. pose proof C as (_ & nd & _ & C'). constructor; [|eapply IH; eauto].
  intros I. apply in_split in I as (a & b & ->).
  pose proof (chain_tail h [] p i _ C) as X. pose proof (chain_tail h (i :: a) p i b C) as Y.
  pose proof (chain_det _ _ _ _ X Y) as Z. apply (f_equal (@length _)) in Z. cbn in Z. rewrite app_length in Z. cbn in Z. lia.
Qed.
Lemma ends_le : forall h p n, ends h p n -> n <= length h.
Proof. intros h p n (ids & C & <-). eapply chain_length; [exact C|eapply chain_distinct; eauto]. Qed.

(** [left_ s n]: [help] has [n] node objects to go; 0 if it is not at work. *)
Definition left_ (s : st) (n : nat) : Prop := if helping s then ends (hp s) (o_pnode s) n else n = 0.
Lemma left_le : forall s n, left_ s n -> n <= length (hp s).
Proof. unfold left_. intros s n H. destruct (helping s); [eapply ends_le; eauto|lia]. Qed.

(** ** Completion is out of the way *)
Definition ac_state (x : fsm) : bool :=
  match x with
  | S_AC_PREPARE | S_AC_START | S_AC_COUNT | S_AC_OPTIMISE | S_AC_PRINT | S_AC_FINISH
  | S_AC_PROMPT_PREPARE | S_AC_PROMPT | S_AC_RECALL | S_AC_RECALL_SUFFIX => true
  | _ => false
  end.
Definition prompts (x : fsm) : bool :=
  match x with S_PROMPT_PREFIX | S_PROMPT_HOST | S_PROMPT_SPACE | S_PROMPT_PATH | S_PROMPT_SUFFIX => true | _ => false end.
Definition good (x : fsm) (s : st) : Prop := ac_state x = false /\ (prompts x = true -> o_pnext s = S_READ_PREPARE).
Definition clear_ (s : st) : Prop := good (o_state s) s /\ (o_state s = S_WRITE_CHAR -> good (o_wnext s) s).

Lemma landing_clear : forall s, landing s -> clear_ s.
Proof.
  intros s [L|(L & R)]; unfold clear_, good.
  - destruct (o_state s); cbn in L; try contradiction; repeat split; discriminate.
  - rewrite L. destruct R as [-> | ->]; repeat split; discriminate.
Qed.

Lemma tolls_app : forall m n a b, tolls m n (a ++ b) = tolls m n a + tolls m n b.
Proof. intros. unfold tolls. rewrite map_app, list_sum_app. reflexivity. Qed.
Lemma tolls_one : forall m n c, tolls m n [EvIn c] = if ceq c CR || ceq c LF then m + 5 else 2.
Proof. intros m n c. unfold tolls. cbn [map list_sum fold_right toll]. destruct (_ || _); lia. Qed.
Lemma tolls_in : forall m n x l, In x l -> is_call x = true -> n + 13 <= tolls m n l.
Proof.
  intros m n x l I C. apply in_split in I as (a & b & ->). rewrite tolls_app. unfold tolls at 2. cbn [map list_sum fold_right].
  destruct x; try discriminate; cbn; lia.
Qed.

(** A callback pays for whatever it starts. *)
Lemma paid : forall s s' n1 evs x, lands s s' -> landing s -> left_ s' n1 -> In x evs -> is_call x = true ->
  base s' + n1 + 1 <= tolls (length (inb s)) (length (hp s)) evs /\ clear_ s' /\ sizes s' = sizes s.
Proof.
  intros s s' n1 evs x (S & L) A N I C. apply L in A. pose proof (landing_base _ A). pose proof (landing_clear _ A). apply left_le in N.
  pose proof (tolls_in (length (inb s)) (length (hp s)) x evs I C). unfold sizes in S. injection S as S1 S2. rewrite S2 in N.
  split; [lia|]. split; [assumption|]. unfold sizes. congruence.
Qed.

Lemma parse_finish_cost : forall e s s', fair e -> o_state s = S_RESET_PROMPT -> ush_parse_finish e s = Ok s' ->
  exists evs, lg s' = lg s ++ evs /\ ((exists x, In x evs /\ is_call x = true) \/ (evs = [] /\ base s' <= 2 /\ helping s' = false)).
Proof.
  intros e s s' F St H. unfold ush_parse_finish in H. ok1. ok1.
  assert (N : lg s = lg s ++ []) by (symmetry; apply app_nil_r).
  destruct a0 as [|name rest] eqn:Ea.
  { oks. exists []. split; [exact N|]. right. unfold base, helping, starting. rewrite St. cbn. rewrite Bool.andb_false_r. auto. }
  ok1. assert (L : (exists evs, lg a1 = lg s ++ evs /\ exists x, In x evs /\ is_call x = true) \/ a1 = s).
  { destruct (d_exec (o_desc s)); [left|right; oks; reflexivity].
    apply do_actions_lg in E1. cbn in E1. eexists. split; [exact E1|]. eexists. split; [left; reflexivity|reflexivity]. }
  clear E1. ok1. assert (G : forall evs2, lg s' = lg a1 ++ evs2 -> (evs2 = [] -> a1 = s -> base s' <= 2 /\ helping s' = false) ->
     (evs2 = [] \/ exists x, In x evs2 /\ is_call x = true) ->
     exists evs, lg s' = lg s ++ evs /\ ((exists x, In x evs /\ is_call x = true) \/ (evs = [] /\ base s' <= 2 /\ helping s' = false))).
  { intros evs2 G1 G2 G3. destruct L as [(evs & L & x & X & Y)|L].
    - exists (evs ++ evs2). rewrite G1, L, app_assoc. split; [reflexivity|]. left. exists x. split; [apply in_or_app; auto|exact Y].
    - subst a1. exists evs2. split; [exact G1|]. destruct G3 as [->|G3]; [right; split; auto|left; exact G3]. }
  assert (W : forall x, base (ush_print_status x a1) <= 2 /\ helping (ush_print_status x a1) = false).
  { intros x. unfold base, helping, starting, ush_print_status, write_str, ush_write_pointer_bin. sfields. cbn [carry rank]. rewrite Bool.andb_false_r. split; [|reflexivity].
    destruct (_ <=? 0); lia. }
  destruct a2 as [f|]; [destruct (f_exec f) as [cb|]|].
  - apply call_exec_log in H as (ev2 & H & _). apply (G (EvExec cb (Some (f_name f)) (name :: rest) :: ev2)).
    + exact H.
    + discriminate.
    + right. eexists. split; [left; reflexivity|reflexivity].
  - oks. apply (G []); [cbn; symmetry; apply app_nil_r|intros _ _; apply W|left; reflexivity].
  - oks. apply (G []); [cbn; symmetry; apply app_nil_r|intros _ _; apply W|left; reflexivity].
Qed.

(** ** One effective call *)
Definition cost (s : st) (n : nat) (s1 : st) (n1 : nat) : Prop :=
  exists evs, lg s1 = lg s ++ evs /\ base s1 + n1 + 1 <= base s + n + tolls (length (inb s)) (length (hp s)) evs /\
    clear_ s1 /\ sizes s1 = sizes s.

Lemma cost_quiet : forall s n s1 n1, lg s1 = lg s -> base s1 + n1 + 1 <= base s + n -> clear_ s1 -> sizes s1 = sizes s -> cost s n s1 n1.
Proof. intros s n s1 n1 L B C S. exists []. rewrite app_nil_r. split; [exact L|]. cbn. split; [lia|auto]. Qed.
Lemma left_none : forall s n, left_ s n -> helping s = false -> n = 0.
Proof. unfold left_. intros s n H E. rewrite E in H. exact H. Qed.
Lemma left_same : forall s n s1 n1, left_ s n -> left_ s1 n1 -> hp s1 = hp s -> o_pnode s1 = o_pnode s -> helping s1 = helping s -> n1 = n.
Proof. unfold left_. intros s n s1 n1 A B E1 E2 E3. rewrite E3, E1, E2 in B. destruct (helping s); [eapply ends_det; eauto|congruence]. Qed.
Lemma helps_not : forall s s1, helps s = false -> o_pfile s1 = o_pfile s -> helping s1 = false.
Proof. unfold helping, helps. intros s s1 A B. rewrite B, A. reflexivity. Qed.

Lemma base_write : forall t x s, base (write_str t x s) = carry x s + (if length t <=? 0 then 1 + rank x s else 0).
Proof. intros t x s. reflexivity. Qed.
Lemma base_at : forall x s, x <> S_WRITE_CHAR -> base (set_state x s) = carry x s + rank x s.
Proof. intros x s N. destruct x; try reflexivity. congruence. Qed.
Lemma base_bound : forall s, o_state s = S_WRITE_CHAR -> base s <= carry (o_wnext s) s + 12.
Proof. intros s St. unfold base. rewrite St. pose proof (rank_le (o_wnext s) s). destruct (_ <=? _); lia. Qed.
Lemma base_wpb : forall p k x s, base (ush_write_pointer_bin p k x s) = carry x s + (if k <=? 0 then 1 + rank x s else 0).
Proof. intros. reflexivity. Qed.

Lemma reset_cost : forall s b s1 n n1, ush_reset_service s = Ok (b, s1) -> o_state s = S_RESET \/ o_state s = S_RESET_PROMPT ->
  left_ s n -> left_ s1 n1 -> cost s n s1 n1.
Proof.
  intros s b s1 n n1 H [St|St] A B; unfold ush_reset_service in H; rewrite St in H; oks;
    apply left_none in B; try (unfold helping, starting; sfields; apply Bool.andb_false_r); subst n1; apply cost_quiet; try reflexivity.
  - unfold base at 2. rewrite St. cbn. lia.
  - unfold clear_, good. sfields. repeat split; discriminate.
  - unfold base. rewrite St. cbn. lia.
  - unfold clear_, good, ush_prompt_start. sfields. repeat split; discriminate.
Qed.

Lemma prompt_cost : forall s b s1 n n1, ush_prompt_service s = Ok (b, s1) -> prompts (o_state s) = true -> clear_ s ->
  left_ s n -> left_ s1 n1 -> cost s n s1 n1.
Proof.
  intros s b s1 n n1 H P ((_ & G) & _) A B. specialize (G P). unfold ush_prompt_service in H.
  destruct (o_state s) eqn:St; try discriminate; oks;
    (apply left_none in B; [|unfold helping, starting; sfields; rewrite ?G; apply Bool.andb_false_r]); subst n1; apply cost_quiet; try reflexivity;
    try (unfold clear_, good; sfields; rewrite ?G; repeat split; try discriminate; auto; fail);
    rewrite base_write; unfold base; rewrite St; cbn [carry rank]; rewrite ?G; cbn [carry rank].
  - destruct (length _ <=? 0) eqn:E; [|lia]. apply Nat.leb_le in E. rewrite app_length in E. cbn in E. lia.
  - destruct (length _ <=? 0); lia.
  - cbn. lia.
  - destruct (length _ <=? 0); lia.
  - cbn. lia.
Qed.

Lemma write_cost : forall s s1 n n1, ush_write_char true s = Ok s1 -> o_state s = S_WRITE_CHAR -> clear_ s -> ~ dead s ->
  left_ s n -> left_ s1 n1 -> cost s n s1 n1.
Proof.
  intros s s1 n n1 H St (_ & C) D A B. specialize (C St). unfold ush_write_char in H.
  assert (W : o_wnext s <> S_WRITE_CHAR) by (intros W; apply D; left; auto).
  destruct (o_wsize s <=? o_wpos s) eqn:E.
  - oks. assert (n1 = n) as ->.
    { eapply left_same; eauto. unfold helping, starting. f_equal. sfields. rewrite St. destruct (o_wnext s); congruence || reflexivity. }
    apply cost_quiet; try reflexivity.
    + rewrite base_at by exact W. unfold base. rewrite St, E. lia.
    + split; sfields; [exact C|contradiction].
  - oks. assert (n1 = n) as -> by (eapply left_same; eauto). eexists. split; [reflexivity|]. split; [|split].
    + match goal with |- base ?t + _ + _ <= _ => assert (X : base t <= carry (o_wnext s) s + 12) by (apply (base_bound t); exact St) end.
      assert (Y : base s = carry (o_wnext s) s) by (unfold base; rewrite St, E; lia). rewrite Y.
      change (tolls (length (inb s)) (length (hp s)) [EvOut a]) with 13. lia.
    + split; sfields; [rewrite St; repeat split; discriminate|intros _; exact C].
    + reflexivity.
Qed.

Definition word_state (x : fsm) : Prop := match x with S_PARSE_SEARCH_ARG | S_PARSE_QUOTE_ARG | S_PARSE_STANDARD_ARG => True | _ => False end.
Lemma parse_standard_keeps : forall ch s s1, ush_parse_char_standard ch s = Ok s1 ->
  word_state (o_state s) /\ word_state (o_state s1) /\ sizes s1 = sizes s /\ o_inpos s1 = o_inpos s /\ lg s1 = lg s.
Proof.
  intros ch s s1 H. unfold ush_parse_char_standard, out_escaped, out_char in H. unfold sizes.
  destruct (o_state s) eqn:St; try discriminate; (split; [exact I|]); oks2; sfields; rewrite ?St; lens; sfields; (split; [exact I|]); split; auto; f_equal; congruence.
Qed.

Lemma base_word : forall s, word_state (o_state s) -> base s = length (inb s) - o_inpos s + 2.
Proof. intros s W. unfold base. destruct (o_state s); try contradiction; cbn [carry rank]; lia. Qed.
Lemma word_not_helping : forall s, word_state (o_state s) -> helping s = false.
Proof. intros s W. unfold helping, starting. destruct (o_state s); try contradiction; apply Bool.andb_false_r. Qed.

Lemma parse_cost : forall e s s1 n n1, ush_parse_char e s = Ok s1 -> fair e -> word_state (o_state s) ->
  left_ s n -> left_ s1 n1 -> cost s n s1 n1.
Proof.
  intros e s s1 n n1 H F W A B. rewrite (left_none _ _ A (word_not_helping _ W)). unfold ush_parse_char in H. ok1.
  assert (R : o_inpos s < length (inb s)). { unfold rd in E. destruct (nth_error (inb s) (o_inpos s)) eqn:X; [|discriminate]. apply nth_error_Some. congruence. }
  destruct (ceq a LF || ceq a CR).
  - ok1. unfold out_char in E0. oks. sfields.
    match goal with X : wr _ _ _ = Ok ?b |- _ => apply wr_length in X; cbn in X end.
    match type of H with ush_parse_finish _ ?t = _ => set (s0 := t) in * end.
    assert (Z : sizes s0 = sizes s) by (unfold sizes, s0; sfields; f_equal; assumption).
    assert (L0 : landing s0) by (left; exact I).
    pose proof (parse_finish_lands _ _ _ F H) as PL. pose proof PL as (PS & _).
    destruct (parse_finish_cost e s0 s1 F (eq_refl S_RESET_PROMPT) H) as (evs & L & [(x & X & Y)|(-> & Bs & Hn)]).
    + destruct (paid _ _ _ _ _ PL L0 B X Y) as (P1 & P2 & P3). exists evs. split; [exact L|].
      pose proof (f_equal fst Z) as Z1. pose proof (f_equal snd Z) as Z2. unfold sizes in Z1, Z2. cbn [fst snd] in Z1, Z2. rewrite Z1, Z2 in P1. split; [lia|]. split; [exact P2|]. unfold sizes in *. congruence.
    + rewrite (left_none _ _ B Hn). destruct PL as (_ & PL). apply cost_quiet.
      * rewrite L. apply app_nil_r.
      * rewrite (base_word s W). lia.
      * apply landing_clear. auto.
      * congruence.
  - apply parse_standard_keeps in H as (_ & W1 & S1 & I1 & L1). rewrite (left_none _ _ B (word_not_helping _ W1)). apply cost_quiet.
    + exact L1.
    + rewrite (base_word s W), (base_word s1 W1). unfold sizes in S1. injection S1 as S1 S2. rewrite S1, I1. sfields. lia.
    + unfold clear_, good. destruct (o_state s1); try contradiction; repeat split; discriminate.
    + exact S1.
Qed.

Lemma echo_cost : forall c s s1, ush_read_echo_service c s = Ok s1 ->
  o_state s1 = S_WRITE_CHAR /\ o_wnext s1 = (if ceq c CR || ceq c LF then S_PARSE_PREPARE else S_READ_CHAR) /\ sizes s1 = sizes s /\ lg s1 = lg s.
Proof.
  intros c s s1 H. unfold ush_read_echo_service in H. ok1. apply wp_shape in H as (k & ->). repeat split; reflexivity.
Qed.

Lemma read_cost : forall e c s b s1 n n1, ush_read_char (tick e (Some c)) s = Ok (b, s1) -> o_state s = S_READ_CHAR ->
  (c = TAB -> cfg_autocomp (d_cfg (o_desc s)) = false) -> left_ s n -> left_ s1 n1 -> cost s n s1 n1.
Proof.
  intros e c s b s1 n n1 H St T A B. unfold ush_read_char, tick in H. cbn [io_rd] in H.
  assert (Bs : base s = 0) by (unfold base; rewrite St; reflexivity).
  assert (Here : forall t, o_state t = S_READ_CHAR -> lg t = lg s ++ [EvIn c] -> sizes t = sizes s -> left_ t n1 -> cost s n t n1).
  { intros t St' L S B'. exists [EvIn c]. split; [exact L|]. assert (base t = 0) by (unfold base; rewrite St'; reflexivity).
    rewrite (left_none _ _ B'); [|unfold helping, starting; rewrite St'; apply Bool.andb_false_r].
    split; [rewrite tolls_one; destruct (ceq c CR || ceq c LF); cbn [length Nat.leb carry]; lia|]. split; [|exact S]. unfold clear_, good. rewrite St'. repeat split; discriminate. }
  assert (Echo : forall t t1, ush_read_echo_service c t = Ok t1 -> lg t = lg s ++ [EvIn c] -> sizes t = sizes s -> left_ t1 n1 -> cost s n t1 n1).
  { intros t t1 E L S B'. apply echo_cost in E as (E1 & E2 & E3 & E4). exists [EvIn c]. split; [congruence|].
    rewrite E3. assert (Z : length (inb t1) = length (inb s)) by (unfold sizes in *; congruence).
    assert (N0 : n1 = 0). { apply (left_none _ _ B'). unfold helping, starting. rewrite E1, E2. destruct (ceq c CR || ceq c LF); apply Bool.andb_false_r. }
    split; [|split; [|exact S]].
    - subst n1. unfold base at 1. rewrite E1, E2. rewrite tolls_one. destruct (ceq c CR || ceq c LF); cbn [carry rank]; destruct (_ <=? _); lia.
    - unfold clear_, good. rewrite E1, E2. destruct (ceq c CR || ceq c LF); repeat split; discriminate. }
  destruct (ceq c ETX).
  { oks. exists [EvIn c]. split; [reflexivity|]. rewrite (left_none _ _ B); [|unfold helping, starting; sfields; apply Bool.andb_false_r].
    rewrite base_write. split; [rewrite tolls_one; destruct (ceq c CR || ceq c LF); cbn [length Nat.leb carry]; lia|]. split; [|reflexivity]. unfold clear_, good. sfields. repeat split; discriminate. }
  destruct (ceq c BS || ceq c DEL).
  { cbn [o_inpos emit set_lg] in H. change (o_inpos (emit (EvIn c) s)) with (o_inpos s) in H. destruct (o_inpos s).
    - oks. apply Here; auto.
    - oks. eapply Echo; eauto. unfold sizes. sfields. f_equal. eapply wr_length; eauto. }
  destruct (ceq c TAB) eqn:Ct.
  { change (o_desc (emit (EvIn c) s)) with (o_desc s) in H. apply ceq_true in Ct. rewrite T in H by exact Ct. oks. apply Here; auto. }
  destruct (ceq c ESC).
  { oks. apply Here; auto. }
  unfold ush_read_char_by_escape_state in H. change (o_esc (emit (EvIn c) s)) with (o_esc s) in H.
  destruct (o_esc s) as [|[|[|k]]].
  - oks. eapply Echo; eauto. unfold sizes. sfields. f_equal.
    repeat match goal with X : wr _ _ _ = Ok _ |- _ => apply wr_length in X end. cbn in *. congruence.
  - destruct (_ || _); oks; apply Here; auto.
  - oks. apply Here; auto.
  - oks. eapply Echo; eauto.
Qed.

(** A built-in command that writes next, or moves on. *)
Lemma clear_at : forall s, proc_st (o_state s) \/ o_state s = S_RESET_PROMPT \/ o_state s = S_RESET -> clear_ s.
Proof.
  intros s [H|H]; unfold clear_, good; [destruct (o_state s); try contradiction; repeat split; discriminate|].
  destruct H as [-> | ->]; repeat split; discriminate.
Qed.

Lemma clear_w : forall s, o_state s = S_WRITE_CHAR -> proc_st (o_wnext s) -> clear_ s.
Proof. intros s A B. unfold clear_, good. rewrite A. destruct (o_wnext s); try contradiction; repeat split; discriminate. Qed.

Lemma base_w : forall s k, o_state s = S_WRITE_CHAR -> proc_st (o_wnext s) -> rank (o_wnext s) s <= k -> base s <= S k.
Proof. intros s k A B R. unfold base. rewrite A. destruct (o_wnext s); try contradiction; cbn [carry]; destruct (_ <=? _); lia. Qed.
Lemma base_full : forall s, o_state s = S_WRITE_CHAR -> proc_st (o_wnext s) -> o_wsize s <=? o_wpos s = false -> base s = 0.
Proof. intros s A B R. unfold base. rewrite A, R. destruct (o_wnext s); try contradiction; reflexivity. Qed.
Lemma base_p : forall s, proc_st (o_state s) -> base s = proc_rank (o_state s) s.
Proof. intros s P. unfold base. destruct (o_state s); try contradiction; reflexivity. Qed.
Lemma base_rp : forall s, o_state s = S_RESET_PROMPT -> base s = 2.
Proof. intros s P. unfold base. rewrite P. reflexivity. Qed.

Ltac wps := repeat match goal with X : ush_write_pointer _ _ _ = Ok _ |- _ => apply wp_shape in X as (? & ->) end.

Lemma ls_cost : forall s s1 f n n1, ls_service s = Ok s1 -> proc_st (o_state s) -> o_pfile s = Some f -> f_proc f = Some PLs ->
  left_ s n -> left_ s1 n1 -> cost s n s1 n1.
Proof.
  intros s s1 f n n1 H P Ef Ep A B.
  assert (G : lg s1 = lg s /\ sizes s1 = sizes s /\ o_pfile s1 = o_pfile s /\ clear_ s1 /\ base s1 + 1 <= base s).
  { clear A B. rewrite (base_p s P). unfold proc_rank. rewrite Ef, Ep. unfold ls_service, print_out in H.
    destruct (o_state s) eqn:St; try contradiction.
    - oks. split; [reflexivity|]. split; [reflexivity|]. split; [exact Ef|]. split; [apply clear_w; [reflexivity|exact I]|]. rewrite base_full; [lia|reflexivity|exact I|].
      sfields. destruct (n_parent a); reflexivity.
    - oks2; wps; (split; [reflexivity|]); (split; [reflexivity|]); (split; [exact Ef|]);
        (split; [first [apply clear_w; [reflexivity|exact I]|apply clear_at; sfields; rewrite ?St; cbn; auto]|]).
      + rewrite base_full; [lia|reflexivity|exact I|]. sfields. reflexivity.
      + match goal with |- base ?t + _ <= _ => assert (base t <= 2) by (apply base_w; [reflexivity|exact I|cbn; unfold proc_rank, write_str, ush_write_pointer_bin; sfields; rewrite Ef, Ep; destruct (o_pchild s); congruence || lia]) end. lia.
      + rewrite base_full; [lia|reflexivity|exact I|]. sfields. reflexivity.
      + rewrite base_p by (sfields; rewrite St; exact I). unfold proc_rank. sfields. rewrite Ef, Ep, St. destruct (n_next _); lia.
      + rewrite base_p by exact I. unfold proc_rank. sfields. rewrite Ef, Ep. lia.
    - oks2; wps; (split; [reflexivity|]); (split; [reflexivity|]); (split; [exact Ef|]);
        (split; [first [apply clear_w; [reflexivity|exact I]|apply clear_at; sfields; rewrite ?St; cbn; auto]|]).
      + rewrite base_rp by reflexivity. destruct (o_pidx s) as [|[|[|]]]; lia.
      + match goal with |- base ?t + _ <= _ => assert (base t <= 8) by (apply base_w; [reflexivity|exact I|cbn; unfold proc_rank, write_str, ush_write_pointer_bin; sfields; rewrite Ef, Ep; lia]) end. lia.
      + match goal with |- base ?t + _ <= _ => assert (base t <= 6) by (apply base_w; [reflexivity|exact I|cbn; unfold proc_rank, write_str, ush_write_pointer_bin; sfields; rewrite Ef, Ep; lia]) end. lia.
      + match goal with |- base ?t + _ <= _ => assert (base t <= 4) by (apply base_w; [reflexivity|exact I|cbn; unfold proc_rank, write_str, ush_write_pointer_bin; sfields; rewrite Ef, Ep; lia]) end. lia.
      + match goal with |- base ?t + _ <= _ => assert (base t <= 4) by (apply base_w; [reflexivity|exact I|cbn; unfold proc_rank, write_str, ush_write_pointer_bin; sfields; rewrite Ef, Ep; lia]) end. lia.
      + rewrite base_full; [lia|reflexivity|exact I|]. unfold write_str, ush_write_pointer_bin. sfields. destruct (f_desc _); [|reflexivity]. apply Nat.leb_gt. rewrite app_length. cbn. lia.
  }
  destruct G as (L & S & Pf & C & Bs). assert (N : helps s = false) by (unfold helps; rewrite Ef, Ep; reflexivity).
  rewrite (left_none _ _ B (helps_not _ _ N Pf)). apply cost_quiet; auto. lia.
Qed.

Lemma xxd_cost : forall s s1 f n n1, xxd_service s = Ok s1 -> proc_st (o_state s) -> o_pfile s = Some f -> f_proc f = Some PXxd ->
  left_ s n -> left_ s1 n1 -> cost s n s1 n1.
Proof.
  intros s s1 f n n1 H P Ef Ep A B.
  assert (G : lg s1 = lg s /\ sizes s1 = sizes s /\ o_pfile s1 = o_pfile s /\ clear_ s1 /\ base s1 + 1 <= base s).
  { clear A B. rewrite (base_p s P). unfold proc_rank. rewrite Ef, Ep. unfold xxd_service, print_out in H.
    destruct (o_state s) eqn:St; try contradiction.
    - oks. split; [reflexivity|]. split; [reflexivity|]. split; [exact Ef|]. split; [apply clear_at; left; exact I|].
      rewrite base_p by exact I. unfold proc_rank. sfields. rewrite Ef, Ep. lia.
    - oks2; wps; (split; [reflexivity|]); (split; [reflexivity|]); (split; [exact Ef|]);
        (split; [apply clear_w; [reflexivity|exact I]|]);
        try match goal with |- base ?t + _ <= ?k => assert (base t <= k - 1) by (apply base_w; [reflexivity|exact I|cbn; unfold proc_rank, write_str, ush_write_pointer_bin; sfields; rewrite Ef, Ep; lia]); lia end.
      + rewrite base_full; [lia|reflexivity|exact I|]. reflexivity.
      + rewrite base_full; [lia|reflexivity|exact I|]. reflexivity.
    - oks. split; [reflexivity|]. split; [reflexivity|]. split; [exact Ef|]. split; [apply clear_at; auto|]. rewrite base_rp by reflexivity. lia. }
  destruct G as (L & S & Pf & C & Bs). assert (N : helps s = false) by (unfold helps; rewrite Ef, Ep; reflexivity).
  rewrite (left_none _ _ B (helps_not _ _ N Pf)). apply cost_quiet; auto. lia.
Qed.

Lemma cat_cost : forall e s s1 f n n1, cat_service e s = Ok s1 -> fair e -> proc_st (o_state s) -> o_pfile s = Some f -> f_proc f = Some PCat ->
  ~ dead s1 -> left_ s n -> left_ s1 n1 -> cost s n s1 n1.
Proof.
  intros e s s1 f n n1 H F P Ef Ep D A B. assert (N : helps s = false) by (unfold helps; rewrite Ef, Ep; reflexivity).
  assert (Bs : base s = proc_rank (o_state s) s) by (apply base_p; exact P). unfold proc_rank in Bs. rewrite Ef, Ep in Bs.
  assert (Step : forall x, proc_st x \/ x = S_RESET_PROMPT -> forall t, t = set_state x s \/ t = set_state x (set_pitem 1 s) -> s1 = t -> base s1 + 1 <= base s -> cost s n s1 n1).
  { intros x X t T E Q. rewrite (left_none _ _ B); [apply cost_quiet|].
    - subst s1. destruct T as [-> | ->]; reflexivity.
    - lia.
    - apply clear_at. subst s1. destruct T as [-> | ->]; sfields; tauto.
    - subst s1. destruct T as [-> | ->]; reflexivity.
    - apply (helps_not s); [exact N|]. subst s1. destruct T as [-> | ->]; reflexivity. }
  unfold cat_service in H. destruct (o_state s) eqn:St; try contradiction.
  - oks. eapply (Step S_PROCESS_SERVICE); [left; exact I|right; reflexivity|reflexivity|].
    rewrite base_p by exact I. unfold proc_rank. sfields. rewrite Ef, Ep. lia.
  - destruct (o_argc s <=? o_pitem s).
    + oks. eapply (Step S_PROCESS_FINISH); [left; exact I|left; reflexivity|reflexivity|].
      rewrite base_p by exact I. unfold proc_rank. sfields. rewrite Ef, Ep. lia.
    + oks. destruct (g_ptr _); try discriminate. oks.
      match goal with X : call_get e ?cb ?g s = Ok (?r, ?t) |- _ => rename t into t0; pose proof (call_get_lg _ _ _ _ _ _ X) as L; apply call_get_lands in X; [|exact F]; destruct X as (Sz & La) end.
      assert (L0 : landing t0) by (apply La; left; rewrite St; exact I).
      eexists. split; [exact L|]. apply left_le in B. change (hp (set_pitem (Datatypes.S (o_pitem t0)) (ush_write_pointer_bin (WStr d) (g_size g) (o_state t0) t0))) with (hp t0) in B.
      assert (FS : fair_state (o_state t0)). { destruct L0 as [L0|(L0 & _)]; [exact L0|]. exfalso. apply D. left. split; [reflexivity|exact L0]. }
      split; [|split].
      * match goal with |- base ?t + _ + _ <= _ => assert (base t <= 12) by (pose proof (base_bound t eq_refl) as X;
          assert (carry (o_wnext t) t = 0) by (change (carry (o_state t0) t = 0); destruct (o_state t0); try contradiction; reflexivity); lia) end.
        unfold sizes in Sz. injection Sz as Sz1 Sz2. rewrite Sz2 in B.
        match goal with |- _ <= _ + _ + tolls ?m ?k ?l => assert (k + 13 <= tolls m k l) by (eapply tolls_in; [left; reflexivity|reflexivity]) end. lia.
      * unfold clear_, good. sfields. destruct (o_state t0); try contradiction; repeat split; discriminate.
      * exact Sz.
  - oks. eapply (Step S_RESET_PROMPT); [right; reflexivity|left; reflexivity|reflexivity|]. rewrite base_rp by reflexivity. lia.
Qed.

Lemma help_cost : forall s s1 f n n1, help_service s = Ok s1 -> proc_st (o_state s) -> o_pfile s = Some f -> f_proc f = Some PHelp ->
  ~ dead s -> left_ s n -> left_ s1 n1 -> cost s n s1 n1.
Proof.
  intros s s1 f n n1 H P Ef Ep D A B. assert (N : helps s = true) by (unfold helps; rewrite Ef, Ep; reflexivity).
  assert (St : o_state s = S_PROCESS_START).
  { destruct (o_state s) eqn:St; try contradiction; [reflexivity| |]; exfalso; apply D; right; rewrite St; auto. }
  assert (Bs : base s = proc_rank (o_state s) s) by (apply base_p; exact P). unfold proc_rank in Bs. rewrite Ef, Ep in Bs.
  assert (Hs : helping s = true) by (unfold helping, starting; rewrite N, St; reflexivity).
  unfold help_service in H. rewrite St in H. unfold in_files in Bs. destruct (o_pnode s) as [k|] eqn:Pn.
  2:{ oks. rewrite (left_none _ _ B); [|unfold helping, starting; sfields; apply Bool.andb_false_r]. apply cost_quiet; try reflexivity.
      - rewrite base_rp by reflexivity. lia.
      - apply clear_at; auto. }
  unfold getn in H. destruct (nth_error (hp s) k) as [nd|] eqn:Nk; cbn [bind] in H; [|discriminate].
  destruct (length (n_files nd) <=? o_pitem s) eqn:Fl; cbn [negb] in Bs.
  - oks. unfold left_ in A, B. rewrite Hs, Pn in A.
    match type of B with if ?x then _ else _ => assert (Hh : x = true) by (unfold helping, starting, helps; sfields; rewrite Ef, Ep, St; reflexivity); rewrite Hh in B end.
    sfields. cbn in B. pose proof (ends_det _ _ _ _ A (ends_next _ _ _ _ Nk B)) as E. apply cost_quiet; try reflexivity.
    + rewrite base_p by exact P. unfold proc_rank. sfields. rewrite Ef, Ep. destruct (in_files _); lia.
    + apply clear_at. left. exact P.
  - assert (G : lg s1 = lg s /\ sizes s1 = sizes s /\ o_pfile s1 = o_pfile s /\ hp s1 = hp s /\ o_pnode s1 = o_pnode s /\ o_state s1 = S_WRITE_CHAR /\ o_wnext s1 = S_PROCESS_START /\ base s1 + 1 <= base s).
    { clear A B. rewrite Bs, Ef, Pn. unfold print_out in H. 
      assert (IF : forall t, o_pnode t = Some k -> hp t = hp s -> o_pitem t = o_pitem s -> in_files t = true).
      { intros t T1 T2 T3. unfold in_files. rewrite T1, T2, T3, Nk, Fl. reflexivity. }
      oks2; wps; (split; [reflexivity|]); (split; [reflexivity|]); (split; [exact Ef|]); (split; [reflexivity|]); (split; [exact Pn|]); (split; [reflexivity|]); (split; [reflexivity|]);
      try match goal with |- base ?t + _ <= ?m => assert (base t <= m - 1) by (apply base_w; [reflexivity|exact I|cbn; unfold proc_rank; rewrite IF by (reflexivity || exact Pn); unfold write_str, ush_write_pointer_bin; sfields; rewrite Ef, Ep; lia]); lia end.
      rewrite base_full; [lia|reflexivity|exact I|]. unfold write_str, ush_write_pointer_bin. sfields. destruct (f_desc _); [|reflexivity]. apply Nat.leb_gt. rewrite app_length. cbn. lia. }
    destruct G as (L & S & Pf & Hp & Pd & W & Wn & Q). assert (n1 = n) as ->.
    { refine (left_same s n s1 n1 A B Hp Pd _). rewrite Hs. unfold helping, starting, helps. rewrite Pf, Ef, Ep, W, Wn. reflexivity. }
    apply cost_quiet; auto; [lia|]. apply clear_w; [exact W|rewrite Wn; exact I].
Qed.

Lemma process_cost : forall e s b s1 n n1, ush_process_service (tick e None) s = Ok (b, s1) -> fair e -> proc_st (o_state s) ->
  ~ dead s -> ~ dead s1 -> left_ s n -> left_ s1 n1 -> cost s n s1 n1.
Proof.
  intros e s b s1 n n1 H F P D D1 A B. unfold ush_process_service in H. cbn [tick io_env] in H.
  assert (G : match o_pfile s with
              | None => False
              | Some f => match f_proc f with
                          | None => s1 = set_state S_RESET s
                          | Some p => match p with
                              | PHelp => help_service s | PLs => ls_service s | PCat => cat_service e s | PXxd => xxd_service s
                              | PUser k => do_actions [] (e_proc e k (f_name f)) (emit (EvProc k (f_name f)) s) end = Ok s1
                          end
              end).
  { destruct (o_state s) eqn:St; try contradiction; destruct (o_pfile s) as [f|]; try discriminate; destruct (f_proc f) as [p|]; oks; auto. }
  clear H. destruct (o_pfile s) as [f|] eqn:Ef; [|contradiction]. destruct (f_proc f) as [[]|] eqn:Ep.
  - eapply help_cost; eauto.
  - eapply ls_cost; eauto.
  - eapply cat_cost; eauto.
  - eapply xxd_cost; eauto.
  - pose proof (do_actions_lg _ _ _ _ G) as L. apply actions_lands in G; [|apply F].
    assert (L0 : landing (emit (EvProc n0 (f_name f)) s)) by (left; cbn; destruct (o_state s); try contradiction; exact I).
    destruct (paid _ _ _ [EvProc n0 (f_name f)] (EvProc n0 (f_name f)) G L0 B (or_introl eq_refl) eq_refl) as (P1 & P2 & P3).
    exists [EvProc n0 (f_name f)]. split; [exact L|]. cbn [emit set_lg inb hp] in P1. split; [|split; [exact P2|exact P3]].
    change (inb (emit (EvProc n0 (f_name f)) s)) with (inb s) in P1. change (hp (emit (EvProc n0 (f_name f)) s)) with (hp s) in P1. lia.
  - subst s1. rewrite (left_none _ _ B); [|unfold helping, starting; sfields; apply Bool.andb_false_r]. apply cost_quiet; try reflexivity.
    + rewrite (base_p s P). unfold proc_rank. rewrite Ef, Ep. cbn. lia.
    + apply clear_at; auto.
Qed.

Lemma step_cost : forall e o s s1 n n1, estep e o s s1 -> fair e -> clear_ s -> ~ dead s -> ~ dead s1 ->
  (o = Some TAB -> cfg_autocomp (d_cfg (o_desc s)) = false) -> left_ s n -> left_ s1 n1 -> cost s n s1 n1.
Proof.
  intros e o s s1 n n1 (Po & b & H) F C D D1 T A B. rewrite service_eq in H. destruct (o_cur s); [|discriminate]. unfold svc in H.
  destruct (o_state s) eqn:St;
    try (destruct C as ((C & _) & _); rewrite St in C; discriminate);
    try (eapply reset_cost; eauto; fail);
    try (eapply prompt_cost; eauto; rewrite St; reflexivity);
    try (eapply parse_cost; eauto; [unfold ush_parse_service in H; rewrite St in H; oks; eassumption|rewrite St; exact I]).
  all: try (assert (o = None) as -> by (destruct o; [unfold polling in Po; congruence|reflexivity])).
  all: try (eapply process_cost; eauto; rewrite St; exact I).
  - unfold ush_read_start in H. oks. rewrite (left_none _ _ B); [|unfold helping, starting; sfields; apply Bool.andb_false_r]. apply cost_quiet; try reflexivity.
    + unfold base. rewrite St. cbn. lia.
    + unfold clear_, good. sfields. repeat split; discriminate.
    + unfold sizes. sfields. f_equal. eapply wr_length; eauto.
  - destruct o as [c|]; [|unfold polling in Po; congruence]. eapply read_cost; eauto. intros ->. auto.
  - unfold ush_parse_service in H. rewrite St in H. oks. rewrite (left_none _ _ B); [|unfold helping, starting; sfields; apply Bool.andb_false_r]. apply cost_quiet; try reflexivity.
    + rewrite (base_word (ush_parse_start s)) by exact I. unfold ush_parse_start. sfields. unfold base. rewrite St. cbn [carry rank]. lia.
    + unfold clear_, good. sfields. repeat split; discriminate.
  - oks. eapply write_cost; eauto.
Qed.

(** ** A whole run *)

Lemma left_exists : forall a os s s', esteps a os s s' -> polling s' -> exists n, left_ s n.
Proof.
  intros a os s s' H P. unfold left_. destruct (helping s) eqn:E; [eapply help_ends; eauto|eauto].
Qed.

Lemma estep_desc : forall e o s s1, estep e o s s1 -> o_desc s1 = o_desc s.
Proof. intros e o s s1 (_ & b & H). eapply service_desc; eauto. Qed.

Lemma run_cost : forall a os s s', esteps a os s s' -> polling s' -> fair_app a -> clear_ s -> no_completion (o_desc s) (somes os) ->
  forall n, left_ s n -> exists evs, lg s' = lg s ++ evs /\ length os <= base s + n + tolls (length (inb s)) (length (hp s)) evs.
Proof.
  intros a os s s' H. induction H as [s|o os s s1 s2 H1 H2 IH]; intros P F C T n N.
  - exists []. rewrite app_nil_r. split; [reflexivity|]. cbn. lia.
  - destruct (left_exists _ _ _ _ H2 P) as (n1 & N1).
    pose proof (dead_never _ _ _ _ H2 P) as D1. pose proof (dead_never _ _ _ _ (es_cons _ _ _ _ _ _ H1 H2) P) as D.
    assert (T1 : o = Some TAB -> cfg_autocomp (d_cfg (o_desc s)) = false) by (intros ->; apply T; left; reflexivity).
    destruct (step_cost _ _ _ _ _ _ H1 (F _) C D D1 T1 N N1) as (evs & L & B & C1 & Z).
    unfold sizes in Z. injection Z as Z1 Z2.
    destruct (IH P F C1) with (n := n1) as (evs2 & L2 & B2); [|exact N1|].
    { rewrite (estep_desc _ _ _ _ H1). intros I. apply T. destruct o; cbn [somes flat_map app]; [right; exact I|exact I]. }
    exists (evs ++ evs2). rewrite L2, L, app_assoc. split; [reflexivity|]. rewrite tolls_app. rewrite Z1, Z2 in B2. cbn [length]. lia.
Qed.

Lemma polling_clear : forall s, polling s -> clear_ s /\ base s = 0 /\ left_ s 0.
Proof.
  intros s P. unfold polling in P. unfold clear_, good, base, left_, helping, starting. rewrite P, Bool.andb_false_r. repeat split; discriminate.
Qed.

Lemma fed_cost : forall a cs s s', fed_by a cs s s' -> fair_app a -> no_completion (o_desc s) cs ->
  exists os evs, esteps a os s s' /\ somes os = cs /\ lg s' = lg s ++ evs /\ length os <= tolls (length (inb s)) (length (hp s)) evs.
Proof.
  intros a cs s s' H F T. assert (P : polling s) by (destruct H; assumption).
  destruct (fed_by_esteps _ _ _ _ H) as (os & E & Z & P'). destruct (polling_clear s P) as (C & B & L).
  destruct (run_cost _ _ _ _ E P' F C) with (n := 0) as (evs & G & Q); [rewrite Z; exact T|exact L|].
  exists os, evs. rewrite B in Q. auto.
Qed.

(** ** The middle of a run *)
Lemma part_cost : forall a os1 s s1, esteps a os1 s s1 -> forall os2 s', esteps a os2 s1 s' -> polling s' -> fair_app a -> clear_ s ->
  no_completion (o_desc s) (somes os1) -> forall n, left_ s n ->
  exists evs n1, lg s1 = lg s ++ evs /\ left_ s1 n1 /\ clear_ s1 /\ sizes s1 = sizes s /\
    length os1 + base s1 + n1 <= base s + n + tolls (length (inb s)) (length (hp s)) evs.
Proof.
  intros a os1 s s1 H. induction H as [s|o os s s1 s2 H1 H2 IH]; intros os2 s' G P F C T n N.
  - exists [], n. rewrite app_nil_r. split; [reflexivity|]. split; [exact N|]. split; [exact C|]. split; [reflexivity|]. cbn. lia.
  - pose proof (esteps_app _ _ _ _ _ _ H2 G) as K.
    destruct (left_exists _ _ _ _ K P) as (n1 & N1).
    pose proof (dead_never _ _ _ _ K P) as D1. pose proof (dead_never _ _ _ _ (es_cons _ _ _ _ _ _ H1 K) P) as D.
    assert (T1 : o = Some TAB -> cfg_autocomp (d_cfg (o_desc s)) = false) by (intros ->; apply T; left; reflexivity).
    destruct (step_cost _ _ _ _ _ _ H1 (F _) C D D1 T1 N N1) as (evs & L & B & C1 & Z).
    destruct (IH os2 s' G P F C1) with (n := n1) as (evs2 & n2 & L2 & N2 & C2 & Z2 & B2); [|exact N1|].
    { rewrite (estep_desc _ _ _ _ H1). intros I. apply T. destruct o; cbn [somes flat_map app]; [right; exact I|exact I]. }
    exists (evs ++ evs2), n2. rewrite L2, L, app_assoc. split; [reflexivity|]. split; [exact N2|]. split; [exact C2|]. split; [congruence|].
    rewrite tolls_app. unfold sizes in Z. injection Z as Z1 Z3. rewrite Z1, Z3 in B2. cbn [length]. lia.
Qed.

Lemma base_top : forall s, base s <= length (inb s) + 14.
Proof.
  intros s. unfold base. pose proof (rank_le (o_wnext s) s). pose proof (rank_le (o_state s) s).
  assert (C : forall x, carry x s + rank x s <= length (inb s) + 13).
  { intros x. pose proof (rank_le x s). unfold carry. destruct x; cbn [rank] in *; lia. }
  pose proof (C (o_wnext s)) as C1. pose proof (C (o_state s)) as C2. destruct (o_state s); try lia. destruct (_ <=? _); lia.
Qed.

Lemma esteps_cut : forall a os s s1, esteps a os s s1 -> forall os' s', esteps a os' s s' -> polling s' -> (exists q, somes os' = somes os ++ q) ->
  exists os2, os' = os ++ os2 /\ esteps a os2 s1 s'.
Proof.
  intros e os s s1 H. induction H as [s|o os s s' s1 H1 H2 IH]; intros os' s2 G P2 (q & E).
  - exists os'. split; [reflexivity|exact G].
  - inversion G as [|o' os2 ? s'' ? G1 G2]; subst.
    + destruct o as [c|]; [discriminate|]. destruct H1 as [N _]. contradiction.
    + assert (o = o' /\ somes os2 = somes os ++ q) as [<- E'].
      { destruct o as [c|], o' as [c'|]; cbn [somes flat_map app] in E.
        - injection E as -> E. auto.
        - destruct H1 as [A _], G1 as [B _]. contradiction.
        - destruct H1 as [A _], G1 as [B _]. contradiction.
        - auto. }
      pose proof (estep_det _ _ _ _ _ H1 G1); subst. destruct (IH _ _ G2 P2 (ex_intro _ q E')) as (os3 & -> & K). exists os3. auto.
Qed.

(** ** The theorems *)
Lemma C65_calls_proof : forall a cs s s' evs l, fair_app a -> fed_by a cs s s' -> o_cur s' <> None -> no_completion (o_desc s) cs ->
  lg s' = lg s ++ evs -> tolls (length (inb s)) (length (hp s)) evs <= both_ready l -> drive a cs l s = Ok ([], s').
Proof.
  intros a cs s s' evs l F H C T L B. assert (P : polling s') by (apply fed_by_esteps in H as (? & _ & _ & P); exact P).
  destruct (fed_cost a cs s s' H F T) as (os & evs' & E & Z & L' & Q). rewrite L in L'. apply app_inv_head in L'. subst evs'.
  destruct (drive_total a l _ _ _ E P C) as (q1 & s1 & os1 & D & X & Y & W). assert (length os1 = 0) by lia. destruct os1; [|discriminate].
  inversion X; subst. exact D.
Qed.

Lemma C65_silence_proof : forall a cs s s' l1 q1 s1 l2 q2 s2, fair_app a -> fed_by a cs s s' -> o_cur s' <> None -> no_completion (o_desc s) cs ->
  drive a cs l1 s = Ok (q1, s1) -> drive a q1 l2 s1 = Ok (q2, s2) -> lg s2 = lg s1 ->
  length (inb s) + length (hp s) + 14 < both_ready l2 -> q2 = [] /\ s2 = s'.
Proof.
  intros a cs s s' l1 q1 s1 l2 q2 s2 F H C T D1 D2 L B. assert (P0 : polling s) by (destruct H; assumption).
  destruct (fed_by_esteps _ _ _ _ H) as (os & E & Z & P).
  destruct (drive_esteps _ _ _ _ _ _ D1) as (o1 & E1 & Z1).
  destruct (esteps_cut _ _ _ _ E1 _ _ E P) as (o2 & -> & E2); [exists q1; congruence|].
  rewrite somes_app in Z. assert (Zq : somes o2 = q1) by (rewrite Z1 in Z; apply app_inv_head in Z; exact Z).
  destruct (drive_total a l2 _ _ _ E2 P C) as (qx & sx & ox & Dx & Ex & Yx & Wx). rewrite Zq, D2 in Dx. injection Dx as <- <-.
  destruct (drive_esteps _ _ _ _ _ _ D2) as (o3 & E3 & Z3).
  destruct (esteps_cut _ _ _ _ E3 _ _ E2 P) as (o4 & -> & E4); [exists q2; congruence|].
  destruct (polling_clear s P0) as (Cl & Bs & Lf).
  destruct (part_cost _ _ _ _ E1 _ _ E2 P F Cl) with (n := 0) as (ev1 & n1 & _ & N1 & C1 & Sz & _); [|exact Lf|].
  { intros I. apply T. rewrite Z1. apply in_or_app. auto. }
  assert (De : o_desc s1 = o_desc s). { clear - E1. induction E1 as [|o os s s1 s2 X1 X2 IH]; [reflexivity|]. rewrite IH. eapply estep_desc; eauto. }
  destruct (part_cost _ _ _ _ E3 _ _ E4 P F C1) with (n := n1) as (ev2 & n2 & L2 & _ & _ & _ & Q); [|exact N1|].
  { rewrite De. intros I. apply T. rewrite Z1. apply in_or_app. right. rewrite Z3. apply in_or_app. auto. }
  rewrite L in L2. assert (ev2 = []) as -> by (apply (app_inv_head (lg s1)); rewrite app_nil_r; auto). cbn in Q.
  pose proof (base_top s1) as Bt. apply left_le in N1. unfold sizes in Sz. injection Sz as Sz1 Sz2. rewrite Sz1 in Bt. rewrite Sz2 in N1.
  assert (Lo : length o3 < both_ready l2) by lia. rewrite app_length in Wx.
  assert (Zo : somes o4 = q2) by (rewrite somes_app, Z3 in Zq; apply app_inv_head in Zq; exact Zq).
  assert (G : o4 = ox).
  { destruct (esteps_cut _ _ _ _ Ex _ _ E4 P) as (o5 & K & E5); [exists []; rewrite app_nil_r; congruence|].
    destruct o5 as [|z o5]; [rewrite app_nil_r in K; exact K|]. exfalso.
    assert (So : somes (z :: o5) = []).
    { rewrite K, somes_app, <- Yx in Zo. apply (app_inv_head q2). rewrite app_nil_r. exact Zo. }
    inversion E5 as [|? ? ? ? ? (X1 & _) _]. destruct z as [c|]; [discriminate So|contradiction]. }
  assert (X : ox = []) by (destruct ox as [|y ox]; [reflexivity|]; exfalso; rewrite G in Wx; cbn [length] in Wx; lia).
  split; [rewrite Yx, X; reflexivity|]. rewrite X in Ex. inversion Ex. reflexivity.
Qed.

Lemma well_fair : forall x, well_behaved x -> fair_app (app_of x).
Proof. intros x W l. apply W. Qed.

Lemma init_sizes : forall d ib ob s s', ush_init d ib ob s = Ok s' -> sizes s' = (length ib, length (hp s)).
Proof.
  intros d ib ob s s' H. unfold ush_init, ush_commands_add in H. oks2; hlens; unfold sizes; cbn in *; congruence.
Qed.

Lemma C65_sum_proof : forall room nodes l,
  tolls room nodes l = 2 * count is_in l + (room + 3) * count is_enter l + 13 * count is_out l + (nodes + 13) * count is_call l.
Proof.
  intros room nodes l. unfold tolls, count. induction l as [|x l IH]; [cbn; lia|]. cbn [map list_sum fold_right filter].
  unfold list_sum in IH. rewrite IH. destruct x; cbn [is_in is_enter is_out is_call toll]; try (destruct (_ || _)); cbn [length]; lia.
Qed.
