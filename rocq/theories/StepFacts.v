(** * StepFacts: what one call of ush_service does to the tree and to the buffers. *)
From Verif Require Import Shell BaseFacts LogFacts Sched ServiceFacts SchedFacts Macro EditFacts PromptFacts ExecFacts Line Cmds Tree TreeFind TreeProofs GetProofs PrintfFacts ReconfProofs Session SessionProofs Interrupt.

(** ** Lengths *)
Lemma strcat_length : forall b o t b', c_strcat b o t = Ok b' -> length b' = length b.
Proof. unfold c_strcat. intros b o t b' H. oks. eapply c_strcpy_length; eauto. Qed.
Lemma xxd_hex_length : forall n off s b b', xxd_hex n off s b = Ok b' -> length b' = length b.
Proof.
  induction n as [|n IH]; intros off s b b' H; cbn [xxd_hex] in H; [oks; reflexivity|]. ok1. apply IH in H. rewrite H. clear H.
  destruct (off <? o_pdsize s); oks; [eapply c_strcpy_length; eauto|eapply strcat_length; eauto].
Qed.
Lemma xxd_chr_length : forall n off s b b', xxd_chr n off s b = Ok b' -> length b' = length b.
Proof.
  induction n as [|n IH]; intros off s b b' H; cbn [xxd_chr] in H; [oks; reflexivity|]. ok1. apply IH in H. rewrite H. clear H.
  destruct (off <? o_pdsize s); oks; [|eapply strcat_length; eauto]. destruct (ush_utils_is_printable _); oks; [eapply c_strcpy_length; eauto|eapply strcat_length; eauto].
Qed.

(** ** The tree and the sizes of the buffers stay *)
Definition still (s s' : st) : Prop :=
  core s' = core s /\ length (inb s') = length (inb s) /\ length (outb s') = length (outb s) /\ o_pfile s' = o_pfile s.
Lemma still_refl : forall s, still s s.
Proof. repeat split. Qed.
Lemma still_trans : forall a b c, still a b -> still b c -> still a c.
Proof. intros a b c (A1 & A2 & A3 & A4) (B1 & B2 & B3 & B4). unfold still. intuition congruence. Qed.

Ltac lens :=
  repeat match goal with
  | E : wr _ _ _ = Ok _ |- _ => apply wr_length in E; cbn in E
  | E : c_strcpy _ _ _ = Ok _ |- _ => apply c_strcpy_length in E; cbn in E
  | E : c_strcat _ _ _ = Ok _ |- _ => apply strcat_length in E; cbn in E
  | E : xxd_hex _ _ _ _ = Ok _ |- _ => apply xxd_hex_length in E; cbn in E
  | E : xxd_chr _ _ _ _ = Ok _ |- _ => apply xxd_chr_length in E; cbn in E
  | E : ush_write_pointer _ _ _ = Ok _ |- _ => apply wp_shape in E as (? & ->)
  | E : print_out _ _ _ = Ok _ |- _ => unfold print_out in E
  | E : ush_print _ _ = Ok _ |- _ => unfold ush_print in E
  | E : ush_print_no_newline _ _ = Ok _ |- _ => unfold ush_print_no_newline in E
  end; oks.
Ltac stl := repeat (lens; try subst); unfold still, core; cbn; repeat split; congruence.

Lemma wp_still : forall p n s s', ush_write_pointer p n s = Ok s' -> still s s'.
Proof. intros. stl. Qed.
Lemma print_out_still : forall t n s s', print_out t n s = Ok s' -> still s s'.
Proof. intros. stl. Qed.

Lemma help_still : forall s s', help_service s = Ok s' -> still s s'.
Proof. intros s s' H. unfold help_service in H. oks2; stl. Qed.
Lemma ls_still : forall s s', ls_service s = Ok s' -> still s s'.
Proof. intros s s' H. unfold ls_service in H. oks2; stl. Qed.
Lemma xxd_still : forall s s', xxd_service s = Ok s' -> still s s'.
Proof. intros s s' H. unfold xxd_service in H. oks2; stl. Qed.

(** ** Whether a built-in command or a process callback is at work *)
Definition proc_phase (x : fsm) : bool :=
  match x with S_PROCESS_START | S_PROCESS_SERVICE | S_PROCESS_FINISH => true | _ => false end.
Definition prompt_phase (x : fsm) : bool :=
  match x with S_PROMPT_PREFIX | S_PROMPT_HOST | S_PROMPT_SPACE | S_PROMPT_PATH | S_PROMPT_SUFFIX => true | _ => false end.
Definition at_state (s : st) : fsm := match o_state s with S_WRITE_CHAR => o_wnext s | x => x end.
Definition outside (s : st) : Prop :=
  proc_phase (at_state s) = false /\ (prompt_phase (at_state s) = true -> proc_phase (o_pnext s) = false).

Definition hushed (s s' : st) : Prop := still s s' /\ outside s'.
Lemma outside_write : forall s, o_state s = S_WRITE_CHAR -> proc_phase (o_wnext s) = false -> prompt_phase (o_wnext s) = false -> outside s.
Proof. intros s A B C. unfold outside, at_state. rewrite A. split; congruence. Qed.
Lemma outside_state : forall s, o_state s <> S_WRITE_CHAR -> proc_phase (o_state s) = false -> prompt_phase (o_state s) = false -> outside s.
Proof.
  intros s A B C. unfold outside, at_state. destruct (o_state s); try congruence; split; congruence.
Qed.
Ltac outs := first [ solve [apply outside_write; cbn; try reflexivity; try congruence]
                   | solve [apply outside_state; cbn; try reflexivity; try discriminate; try congruence]
                   | solve [split; cbn; try reflexivity; auto]
                   | solve [match goal with H : o_state _ = _ |- _ => apply outside_state; cbn; rewrite H; try reflexivity; discriminate end] ].
Ltac hsh := repeat (lens; try subst); split; [stl|outs].

Lemma reset_hushed : forall s b s', o_state s = S_RESET \/ o_state s = S_RESET_PROMPT -> ush_reset_service s = Ok (b, s') -> hushed s s'.
Proof. intros s b s' [St|St] H; unfold ush_reset_service in H; rewrite St in H; oks; hsh. Qed.
Lemma prompt_hushed : forall s b s', prompt_phase (o_state s) = true ->
  outside s -> ush_prompt_service s = Ok (b, s') -> hushed s s'.
Proof.
  intros s b s' St (_ & O) H. unfold at_state in O. unfold ush_prompt_service in H. destruct (o_state s) eqn:E; try discriminate; specialize (O eq_refl); oks; hsh.
Qed.

Lemma read_start_hushed : forall s s', ush_read_start s = Ok s' -> hushed s s'.
Proof. intros s s' H. unfold ush_read_start in H. oks. hsh. Qed.
Lemma echo_hushed : forall ch s s', ush_read_echo_service ch s = Ok s' -> hushed s s'.
Proof.
  intros ch s s' H. unfold ush_read_echo_service in H. ok1. assert (L : length a = length (outb s)).
  { clear H. destruct (ceq ch CR); [|destruct (ceq ch BS || ceq ch DEL)]; oks; lens; congruence. }
  clear E. lens. split; [stl|]. destruct (ceq ch CR || ceq ch LF); outs.
Qed.
Lemma read_char_hushed : forall i s b s', o_state s = S_READ_CHAR -> ush_read_char i s = Ok (b, s') -> hushed s s'.
Proof.
  intros i s b s' St H. unfold ush_read_char in H. destruct (io_rd i) as [ch|]; [|oks; hsh].
  assert (X : still s (emit (EvIn ch) s) /\ o_state (emit (EvIn ch) s) = S_READ_CHAR) by (split; [stl|exact St]).
  remember (emit (EvIn ch) s) as s0 eqn:Es. clear Es St. destruct X as (X & St).
  ok1. destruct a as [echo s1]. ok1. injection H as <- <-.
  assert (L : hushed s0 s1).
  { clear E0. unfold ush_read_char_by_escape_state in E. repeat ok2; try solve [hsh]; destruct (cfg_autocomp _); hsh. }
  destruct L as (L1 & L2). destruct echo; [apply echo_hushed in E0 as (M1 & M2)|injection E0 as <-].
  - split; [eapply still_trans; [exact X|eapply still_trans; eauto]|exact M2].
  - split; [eapply still_trans; eauto|exact L2].
Qed.

Lemma autocomp_hushed : forall s b s', ush_autocomp_service s = Ok (b, s') -> outside s -> o_state s <> S_WRITE_CHAR -> hushed s s'.
Proof.
  intros s b s' H O Nw. unfold ush_autocomp_service in H.
  assert (P : forall s s', (o_state s = S_AC_COUNT \/ o_state s = S_AC_OPTIMISE \/ o_state s = S_AC_PRINT) ->
     ush_autocomp_state_candidates_process s = Ok s' -> hushed s s').
  { clear. intros s s' St H. unfold ush_autocomp_state_candidates_process in H.
    assert (N : proc_phase (o_state s) = false /\ prompt_phase (o_state s) = false /\ o_state s <> S_WRITE_CHAR).
    { destruct St as [E|[E|E]]; rewrite E; repeat split; discriminate. }
    destruct N as (N1 & N2 & N3). clear St.
    destruct (o_pnode s).
    - unfold ush_autocomp_check_for_next in H.
      ok1. destruct a as [nx s1].
      assert (L1 : still s s1 /\ o_state s1 = o_state s) by (clear H; oks2; split; try reflexivity; stl). destruct L1 as (L1 & L1').
      rewrite <- L1' in *. clear E.
      destruct nx; oks; [split; [exact L1|apply outside_state; auto]|]. destruct a as [[sk f] s2].
      assert (L2 : still s1 s2 /\ o_state s2 = o_state s1)
        by (clear H; unfold ush_autocomp_process_file_prepare in E; oks2; split; try reflexivity; stl). destruct L2 as (L2 & L2').
      rewrite <- L2' in *. clear E.
      assert (L3 : still s s2) by (eapply still_trans; eauto). destruct sk; oks; [split; [exact L3|apply outside_state; auto]|].
      unfold ush_autocomp_process_file_index in H. clear L1 L2 L1' L2'.
      match goal with H : context [fsm_eqb ?x S_AC_PRINT] |- _ => destruct (fsm_eqb x S_AC_PRINT) eqn:Pr end; oks2; (split; [eapply still_trans; [exact L3|stl]|outs]).
    - unfold ush_autocomp_check_for_finish in H. oks2; hsh. }
  assert (Op : forall s s', ush_autocomp_optimize_continue s = Ok s' -> hushed s s').
  { clear. intros s s' H. unfold ush_autocomp_optimize_continue in H. oks2; hsh. }
  destruct (o_state s) eqn:E0; oks; try solve [split; [stl|exact O]]; try solve [hsh].
  - unfold ush_autocomp_state_prepare in E. oks. hsh.
  - apply P in E; auto.
  - apply P in E; auto.
  - apply P in E; auto.
  - unfold ush_autocomp_state_candidates_finish in E. destruct (o_acprev s); try discriminate; oks2; try solve [hsh].
    + apply Op in E as (A & B). split; [eapply still_trans; [|exact A]; stl|exact B].
    + apply Op in E. exact E.
  - unfold ush_autocomp_state_recall_suffix in E. oks2; hsh.
Qed.

Lemma write_hushed : forall r s s', o_state s = S_WRITE_CHAR -> ush_write_char r s = Ok s' -> still s s' /\ at_state s' = at_state s /\ o_pnext s' = o_pnext s.
Proof.
  intros r s s' St H. unfold ush_write_char in H. unfold at_state. oks2; (split; [stl|]); cbn; rewrite ?St; split; try reflexivity.
  destruct (o_wnext s) eqn:E; reflexivity.
Qed.

(** ** API calls made by callbacks *)
Definition moved (s s' : st) : Prop :=
  o_desc s' = o_desc s /\ length (inb s') = length (inb s) /\ length (outb s') = length (outb s) /\ o_pfile s' = o_pfile s.
Lemma moved_refl : forall s, moved s s.
Proof. repeat split. Qed.
Lemma moved_trans : forall a b c, moved a b -> moved b c -> moved a c.
Proof. intros a b c (A1 & A2 & A3 & A4) (B1 & B2 & B3 & B4). unfold moved. intuition congruence. Qed.
Lemma still_moved : forall s s', still s s' -> moved s s'.
Proof. intros s s' (A & B & C & D). unfold core in A. injection A as A1 A2 A3 A4 A5 A6. repeat split; auto. Qed.
Lemma still_knows : forall own w s s', still s s' -> knows own s w -> knows own s' w.
Proof. intros own w s s' (A & _). unfold core in A. injection A as A1 A2 A3 A4 A5 A6. apply knows_ext; auto. Qed.
Lemma only_tree_moved : forall own s s', only_tree own s s' -> moved s s' /\ o_state s' = o_state s /\ o_wnext s' = o_wnext s /\ o_pnext s' = o_pnext s.
Proof. intros own s s' (E & _). rewrite E. repeat split. Qed.
Lemma outside_same : forall s s', o_state s' = o_state s -> o_wnext s' = o_wnext s -> o_pnext s' = o_pnext s -> outside s -> outside s'.
Proof. intros s s' A B C. unfold outside, at_state. rewrite A, B, C. auto. Qed.

(** Either nothing of the phase changed, or no built-in command is at work. *)
Definition steady (s s' : st) : Prop := outside s' \/ (o_state s' = o_state s /\ o_wnext s' = o_wnext s /\ o_pnext s' = o_pnext s).
Lemma steady_refl : forall s, steady s s.
Proof. right. auto. Qed.
Lemma steady_outside : forall s s', steady s s' -> outside s -> outside s'.
Proof. intros s s' [O|(A & B & C)] H; [exact O|]. eapply outside_same; eauto. Qed.
Lemma steady_trans : forall a b c, steady a b -> steady b c -> steady a c.
Proof.
  intros a b c H [O|(A & B & C)]; [left; exact O|]. destruct H as [O|(A' & B' & C')]; [left; eapply outside_same; eauto|]. right. split; [congruence|]. split; congruence.
Qed.

Lemma printf_hushed : forall x s s', ush_printf x s = Ok s' -> hushed s s'.
Proof.
  unfold ush_printf. intros x s s' H.
  ok1. assert (A : still s a /\ o_state a = S_WRITE_CHAR /\ o_wnext a = S_RESET_PROMPT).
  { clear H. destruct (o_wbuf s) as [[]|]; oks; try (apply wp_shape in E as (k & ->)); (split; [stl|cbn; auto]). }
  clear E. destruct A as (A1 & A2 & A3).
  assert (G : hushed a s'); [|destruct G as (G1 & G2); split; [eapply still_trans; eauto|exact G2]].
  clear A1. unfold c_vsnprintf in H. oks2; lens; (split; [stl|apply outside_write; cbn; rewrite ?A2, ?A3; reflexivity]).
Qed.
Lemma print_hushed : forall ws args a s s', printing_call ws a -> do_action args a s = Ok s' -> hushed s s'.
Proof.
  intros ws args a s s' P H. destruct a; cbn [printing_call] in P; try contradiction; cbn [do_action] in H; try solve [oks2; hsh].
  eapply printf_hushed; eauto.
Qed.

Lemma spec_ops_app : forall a b w, snd (spec_ops (a ++ b) w) = snd (spec_ops b (snd (spec_ops a w))).
Proof.
  induction a as [|o a IH]; intros b w; [reflexivity|]. cbn [app spec_ops]. destruct (spec_op o w) as (r & w1). specialize (IH b w1).
  destruct (spec_ops (a ++ b) w1). destruct (spec_ops a w1). exact IH.
Qed.
Lemma spec_ops_cons : forall o b w, snd (spec_ops (o :: b) w) = snd (spec_ops b (snd (spec_op o w))).
Proof. intros o b w. cbn [spec_ops]. destruct (spec_op o w) as (r & w1). cbn [snd]. destruct (spec_ops b w1). reflexivity. Qed.

Lemma actions_know : forall own args ws l s s' w, do_actions args l s = Ok s' -> Forall (proper_call ws) l -> knows own s w ->
  all_allowed (d_pathmax (o_desc s)) own (tree_calls l) w ->
  knows own s' (snd (spec_ops (tree_calls l) w)) /\ moved s s' /\ steady s s'.
Proof.
  intros own args ws l. induction l as [|a l IH]; intros s s' w H F K A; cbn [do_actions] in H.
  { oks. split; [exact K|]. split; [apply moved_refl|apply steady_refl]. }
  ok1. inversion F as [|? ? Pa Pl]; subst. unfold tree_calls in *. cbn [flat_map] in *. fold (tree_calls l) in *.
  destruct (tree_call a) as [o|] eqn:Tc; [|destruct (reset_dec a) as [->|Nr]].
  - rewrite (effect_some _ _ Tc) in *. cbn [app] in *. destruct A as (A1 & A2). destruct (op_step own o s w K A1) as (s1 & E1 & K1 & O1).
    rewrite (tree_action ws args a o s Tc Pa), E1 in E. cbn [bind] in E. injection E as <-.
    destruct (only_tree_moved _ _ _ O1) as (M1 & M2 & M3 & M4). rewrite <- (proj1 M1) in A2.
    destruct (IH s1 s' _ H Pl K1 A2) as (K2 & M & O). rewrite spec_ops_cons. split; [exact K2|]. split; [eapply moved_trans; eauto|].
    eapply steady_trans; [|exact O]. right. auto.
  - cbn [tree_effect app do_action] in *. destruct A as (A1 & A2). destruct (root_step own s w K) as (K1 & O1). injection E as <-.
    destruct (only_tree_moved _ _ _ O1) as (M1 & M2 & M3 & M4). change (o_desc s) with (o_desc (ush_reset s)) in A2.
    destruct (IH (ush_reset s) s' _ H Pl K1 A2) as (K2 & M & O). rewrite spec_ops_cons. split; [exact K2|]. split; [eapply moved_trans; [|exact M]|].
    + exact M1.
    + eapply steady_trans; [|exact O]. left. apply outside_write; reflexivity.
  - assert (Pp : printing_call ws a) by (exact (proper_print _ _ Pa Tc Nr)). rewrite (effect_none _ Tc Nr) in *.
    apply (print_hushed ws) in E as (S1 & O1); [|exact Pp]. cbn [app] in *. pose proof (still_moved _ _ S1) as M1. rewrite <- (proj1 M1) in A.
    destruct (IH a0 s' w H Pl (still_knows _ _ _ _ S1 K) A) as (K2 & M & O). split; [exact K2|]. split; [eapply moved_trans; eauto|]. eapply steady_trans; [left; exact O1|exact O].
Qed.

Lemma print_calls_none : forall ws l, Forall (printing_call ws) l -> tree_calls l = [].
Proof.
  intros ws l F. induction F as [|a l P F IH]; [reflexivity|]. unfold tree_calls in *. cbn [flat_map]. rewrite IH.
  destruct a; cbn [printing_call] in P; try contradiction; reflexivity.
Qed.
Lemma prints_still : forall ws args l s s', do_actions args l s = Ok s' -> Forall (printing_call ws) l -> still s s' /\ (outside s -> outside s').
Proof.
  intros ws args l. induction l as [|a l IH]; intros s s' H F; cbn [do_actions] in H; [oks; split; [apply still_refl|auto]|].
  ok1. inversion F as [|? ? Pa Pl]; subst. apply (print_hushed ws) in E as (S1 & O1); [|exact Pa]. destruct (IH _ _ H Pl) as (S2 & O2).
  split; [eapply still_trans; eauto|auto].
Qed.

(** ** The arguments *)
Lemma arg_values_short : forall b args ws, arg_values b args = Ok ws -> Forall (fun v => no_nul v /\ length v < length b) ws.
Proof.
  intros b args. induction args as [|a r IH]; intros ws H; cbn [arg_values] in H; [oks; constructor|]. ok1. ok1. injection H as <-.
  constructor; [|apply IH; reflexivity]. apply c_str_inv in E as (N & p & q & Eb & _). split; [exact N|]. rewrite Eb, !app_length. cbn [length]. lia.
Qed.
Lemma decode_loop_length : forall fuel m i o max ret stt val b n, decode_loop fuel m i o max ret stt val = Ok (b, n) -> length b = length m.
Proof.
  induction fuel as [|f IH]; intros m i o max ret stt val b n H; cbn [decode_loop] in H; [discriminate|]. ok1.
  destruct (ceq a NUL || negb (ret <? max)); [oks; reflexivity|].
  destruct stt as [|[|[|stt]]]; [destruct (ceq a BSL)|destruct (ceq a "x"%char)| |]; try (apply IH in H; exact H);
    ok1; apply IH in H; apply wr_length in E0; congruence.
Qed.
Lemma decode_ascii_length : forall m i o max b n, ush_utils_decode_ascii m i o max = Ok (b, n) -> length b = length m.
Proof. intros m i o max b n H. eapply decode_loop_length; exact H. Qed.

(** ** What the log tells about the tree *)
Lemma deeds_ins : forall x evs h h', ins h = ins h' -> deeds x h evs = deeds x h' evs.
Proof.
  intros x evs. induction evs as [|ev r IH]; intros h h' E; [reflexivity|]. cbn [deeds]. unfold app_of. rewrite E. f_equal.
  apply IH. unfold ins in *. rewrite !flat_map_app, E. reflexivity.
Qed.
Lemma deeds_app : forall x a b h, deeds x h (a ++ b) = deeds x h a ++ deeds x (h ++ a) b.
Proof.
  intros x a. induction a as [|ev a IH]; intros b h; [rewrite app_nil_r; reflexivity|]. cbn [app deeds]. rewrite IH, <- !app_assoc. reflexivity.
Qed.
Definition harmless (ev : event) : Prop := match ev with EvIn _ | EvOut _ => True | _ => False end.
Lemma deeds_none : forall x evs h, Forall harmless evs -> deeds x h evs = [].
Proof.
  intros x evs. induction evs as [|ev r IH]; intros h F; [reflexivity|]. inversion F as [|? ? He Hr]; subst. cbn [deeds]. rewrite (IH _ Hr), app_nil_r.
  destruct ev; cbn [harmless] in He; try contradiction; reflexivity.
Qed.

(** One of the built-in commands is at work. *)
Definition own_proc (s : st) : Prop := prompt_phase (at_state s) = false /\ exists f p, o_pfile s = Some f /\ f_proc f = Some p /\ forall n, p <> PUser n.
Definition on_course (own : list nat) (x : setting) (W : world -> Prop) (w : world) (s : st) : Prop :=
  knows own s w /\ w_cwd w <> None /\ W w /\ bufs_ok s /\ o_desc s = x_desc x /\ (outside s \/ own_proc s).
Definition goes (own : list nat) (x : setting) (W : world -> Prop) (w : world) (s : st) (w' : world) (s' : st) : Prop :=
  exists evs, lg s' = lg s ++ evs /\ w' = snd (spec_ops (deeds x (lg s) evs) w) /\ on_course own x W w' s'.

Lemma goes_trans : forall own x W w s w1 s1 w2 s2, goes own x W w s w1 s1 -> goes own x W w1 s1 w2 s2 -> goes own x W w s w2 s2.
Proof.
  intros own x W w s w1 s1 w2 s2 (a & A1 & A2 & _) (b & B1 & B2 & B3). exists (a ++ b). split; [rewrite B1, A1, app_assoc; reflexivity|].
  split; [|exact B3]. rewrite deeds_app, spec_ops_app, <- A2, <- A1. exact B2.
Qed.
Lemma moved_bufs : forall s s', moved s s' -> bufs_ok s -> bufs_ok s'.
Proof. intros s s' (A & B & C & _) (H1 & H2 & H3 & H4). unfold bufs_ok. rewrite A, B, C. auto. Qed.
Lemma moved_proc : forall s s', moved s s' -> own_proc s -> steady s s' -> outside s' \/ own_proc s'.
Proof. intros s s' (_ & _ & _ & E) (P & O) [H|(A & B & _)]; [left; exact H|right]. unfold own_proc, at_state in *. rewrite E, A, B. auto. Qed.
Lemma still_proc : forall s s', still s s' -> own_proc s -> prompt_phase (at_state s') = false -> outside s' \/ own_proc s'.
Proof. intros s s' (_ & _ & _ & E) (P & O) H. right. unfold own_proc. rewrite E. auto. Qed.
Lemma goes_still : forall own x W w s s', on_course own x W w s -> still s s' -> logs harmless s s' -> outside s' \/ own_proc s' -> goes own x W w s w s'.
Proof.
  intros own x W w s s' (K & Wc & Ww & B & D & _) St (evs & L & F) J. exists evs. split; [exact L|]. rewrite deeds_none by exact F.
  split; [reflexivity|]. pose proof (still_moved _ _ St) as M. split; [eapply still_knows; eauto|]. split; [exact Wc|]. split; [exact Ww|].
  split; [eapply moved_bufs; eauto|]. split; [destruct M; congruence|exact J].
Qed.
Lemma goes_hushed : forall own x W w s s', on_course own x W w s -> hushed s s' -> logs harmless s s' -> goes own x W w s w s'.
Proof. intros own x W w s s' C (A & B) L. apply goes_still; auto. Qed.
Lemma goes_refl : forall own x W w s, on_course own x W w s -> goes own x W w s w s.
Proof. intros own x W w s C. apply goes_still; auto; [apply still_refl|apply logs_refl; reflexivity|apply C]. Qed.
Lemma goes_emit : forall own x W w s ev, on_course own x W w s -> deed (app_of x (lg s)) ev = [] -> goes own x W w s w (emit ev s).
Proof.
  intros own x W w s ev C D. exists [ev]. split; [reflexivity|]. cbn [deeds]. rewrite D. split; [reflexivity|].
  destruct C as (K & Wc & Ww & B & Ds & J). split; [eapply knows_ext; [..|exact K]; reflexivity|]. repeat (split; [assumption|]). exact J.
Qed.

(** The calls of a callback. *)
Lemma goes_calls : forall own x W w s args ws ev calls s', on_course own x W w s -> deed (app_of x (lg s)) ev = tree_calls calls ->
  Forall (proper_call ws) calls -> all_allowed (d_pathmax (x_desc x)) own (tree_calls calls) w -> w_cwd (snd (spec_ops (tree_calls calls) w)) <> None ->
  W (snd (spec_ops (tree_calls calls) w)) -> do_actions args calls (emit ev s) = Ok s' -> exists w', goes own x W w s w' s' /\ moved s s' /\ steady s s'.
Proof.
  intros own x W w s args ws ev calls s' (K & Wc & Ww & B & Ds & J) D F A Wc' Ww' H.
  assert (K0 : knows own (emit ev s) w) by (eapply knows_ext; [..|exact K]; reflexivity). rewrite <- Ds in A. change (o_desc s) with (o_desc (emit ev s)) in A.
  destruct (actions_know own args ws calls _ _ w H F K0 A) as (K1 & M & O). assert (M0 : moved s s') by exact M.
  exists (snd (spec_ops (tree_calls calls) w)). split; [|split; [exact M0|exact O]]. exists [ev]. split; [apply do_actions_lg in H; exact H|]. cbn [deeds]. rewrite D, app_nil_r.
  split; [reflexivity|]. split; [exact K1|]. split; [exact Wc'|]. split; [exact Ww'|]. split; [eapply moved_bufs; eauto|].
  split; [destruct M0; congruence|]. destruct J as [J|J]; [left; eapply steady_outside; [exact O|exact J]|eapply moved_proc; [exact M0|exact J|exact O]].
Qed.

(** ** Looking up what has been typed *)
Definition short_words (x : setting) (ws : list bytes) : Prop := Forall (fun v => no_nul v /\ length v < d_insize (x_desc x)) ws.
Lemma ample_find : forall own x W w s n, ample own x W -> on_course own x W w s -> no_nul n -> length n < d_insize (x_desc x) ->
  ush_file_find_by_name n s = Ok (denotes w n).
Proof.
  intros own x W w s n Am (K & Wc & Ww & B & Ds & _) N L. destruct (Am w Ww) as ((_ & _ & Nm) & _ & Ph & _). apply (find_file_ok own); auto.
  - intros E. congruence.
  - rewrite Ds. exact Nm.
  - right. rewrite Ds. pose proof (full_text_short (here w) n). lia.
Qed.
Lemma get_goes : forall own x W w s g cb a s', ample own x W -> on_course own x W w s -> file_of w g -> f_get g = Some cb ->
  call_get (app_of x (lg s)) cb g s = Ok (a, s') -> exists w', goes own x W w s w' s' /\ moved s s' /\ o_state s' = o_state s /\ o_wnext s' = o_wnext s /\ o_pnext s' = o_pnext s.
Proof.
  intros own x W w s g cb a s' Am C Fg Gg H. apply call_get_inv in H as (_ & H). pose proof C as (_ & _ & Ww & _).
  destruct (Am w Ww) as (_ & _ & _ & _ & _ & _ & Ae). destruct (Ae (ins (lg s))) as (Gt & _). fold (app_of x (lg s)) in Gt.
  destruct (Gt g cb [] Fg Gg) as (_ & _ & Co & (_ & _ & A1 & A2) & A3 & _).
  destruct (goes_calls own x W w s [] [] (EvGet cb (f_name g)) _ s' C eq_refl) with (5 := H) as (w' & G & M & _); auto.
  { eapply Forall_impl; [|exact Co]. intros y (_ & P). exact P. }
  exists w'. split; [exact G|]. split; [exact M|].
  destruct C as (K & _ & _ & _ & Ds & _). assert (K0 : knows own (emit (EvGet cb (f_name g)) s) w) by (eapply knows_ext; [..|exact K]; reflexivity).
  rewrite <- Ds in A1. destruct (tree_only_calls own _ _ w Co K0 A1) as (s2 & E2 & _ & O2). rewrite E2 in H. injection H as <-. apply only_tree_moved in O2 as (_ & O2). exact O2.
Qed.

(** ** A command *)
Ltac quietly C := 
  match goal with |- exists w', goes _ _ _ ?w _ w' _ => exists w end; apply goes_still; [exact C|stl|apply logs_refl; reflexivity|].
Ltac shows_status C := repeat lens; quietly C; left; outs.
Lemma goes_start : forall own x W w s s', on_course own x W w s -> core s' = core s -> inb s' = inb s -> outb s' = outb s -> lg s' = lg s -> own_proc s' -> goes own x W w s w s'.
Proof.
  intros own x W w s s' (K & Wc & Ww & B & D & _) Co Ei Eo L P. exists []. split; [rewrite app_nil_r; exact L|]. split; [reflexivity|].
  unfold core in Co. injection Co as A1 A2 A3 A4 A5 A6. split; [eapply knows_ext; [..|exact K]; auto|]. split; [exact Wc|]. split; [exact Ww|].
  split; [unfold bufs_ok in *; rewrite A1, Ei, Eo; exact B|]. split; [congruence|right; exact P].
Qed.
Ltac starts C pf := match goal with |- exists w', goes _ _ _ ?w _ w' _ => exists w end; apply goes_start; [exact C|reflexivity|reflexivity|reflexivity|reflexivity|];
  split; [reflexivity|]; exists pf; eexists; split; [reflexivity|]; split; [reflexivity|]; intros ? X; discriminate X.

Lemma words_nth : forall x ws n, short_words x ws -> In n ws -> no_nul n /\ length n < d_insize (x_desc x).
Proof. intros x ws n F I. exact (proj1 (Forall_forall _ _) F n I). Qed.

Lemma call_exec_goes : forall own x W w s args argv f n cb s', ample own x W -> on_course own x W w s -> outside s ->
  denotes w n = Some f -> f_exec f = Some cb -> short_words x argv ->
  call_exec (app_of x (lg s)) cb f args argv s = Ok s' -> exists w', goes own x W w s w' s'.
Proof.
  intros own x W w s args argv f n cb s' Am C O De Fx Sw H. pose proof C as (_ & Wc & Ww & _ & Ds & _).
  destruct (Am w Ww) as (Sk & Pm & Ph & Os & Ls & Cd & Ae). destruct (Ae (ins (lg s))) as (Gt & Hk & Stt & Ex). clear Ae.
  change (x_app x (ins (lg s))) with (app_of x (lg s)) in *.
  assert (Ow : own_callback f cb) by (destruct (denotes_own _ _ _ _ _ Sk De Fx) as [(k & ->)|(_ & X)]; [exact I|exact X]). apply denotes_file in De as Ff.
  unfold call_exec in H. set (ev := EvExec cb (Some (f_name f)) argv) in *.
  assert (C0 : match cb with XCd | XUser _ => True | _ => goes own x W w s w (emit ev s) end).
  { destruct cb; try exact I; apply goes_emit; auto. }
  assert (E0 : forall r, app_of x (lg (emit ev s) ++ r) = app_of x (lg s ++ r)).
  { intros r. unfold app_of. f_equal. cbn [emit lg set_lg]. unfold ins. rewrite !flat_map_app. cbn [flat_map ev]. rewrite app_nil_r. reflexivity. }
  assert (E1 : app_of x (lg (emit ev s)) = app_of x (lg s)) by (rewrite <- (app_nil_r (lg (emit ev s))), E0, app_nil_r; reflexivity).
  assert (Cs : match cb with XCd | XUser _ => True | _ => on_course own x W w (emit ev s) end).
  { destruct cb; try exact I; destruct C as (K & R); (split; [eapply knows_ext; [..|exact K]; reflexivity|exact R]). }
  assert (Os0 : outside (emit ev s)) by exact O.
  assert (Go : forall s1, (exists w', goes own x W w (emit ev s) w' s1) -> match cb with XCd | XUser _ => True | _ => exists w', goes own x W w s w' s1 end).
  { intros s1 (w' & G). destruct cb; try exact I; exists w'; eapply goes_trans; eauto. }
  destruct cb as [| | | | | | |k]; cbn [own_callback] in Ow; try subst f.
  - apply Go. unfold help_callback in H. destruct argv as [|a0 [|a1 [|? ?]]]; oks; try solve [shows_status Cs].
    + starts Cs cmd_help.
    + ok2; oks; [|shows_status Cs]. ok2; [|oks; shows_status Cs]. shows_status Cs.
  - apply Go. unfold ls_callback in H. destruct argv as [|a0 [|a1 [|? ?]]]; oks; try solve [shows_status Cs].
    + starts Cs cmd_ls.
    + ok2; oks; [starts Cs cmd_ls|shows_status Cs].
  - clear Go C0 Cs. unfold cd_callback in H. destruct argv as [|a0 [|p [|? ?]]]; try solve [oks; exists w; eapply goes_trans; [apply (goes_emit own x W w s ev); [exact C|reflexivity]|];
      apply goes_still; [|stl|apply logs_refl; reflexivity|left; outs]; destruct C as (K & R); (split; [eapply knows_ext; [..|exact K]; reflexivity|exact R])].
    destruct C as (K & R). assert (K0 : knows own (emit ev s) w) by (eapply knows_ext; [..|exact K]; reflexivity).
    destruct (words_nth x [a0; p] p Sw (or_intror (or_introl eq_refl))) as (Np & Lp).
    assert (Al : allowed (d_pathmax (o_desc (emit ev s))) own w (TChdir p)).
    { split; [exact Np|]. split; [|intros X; congruence]. change (o_desc (emit ev s)) with (o_desc s). rewrite Ds. pose proof (full_text_short (here w) p). lia. }
    destruct (op_step own _ _ w K0 Al) as (s1 & X1 & K1 & O1). cbn [do_op] in X1. rewrite X1 in H. cbn [bind] in H. 
    destruct (only_tree_moved _ _ _ O1) as (M1 & M2 & M3 & M4). pose proof (set_current_dir_lg _ _ _ _ X1) as L1.
    assert (Wx : w_cwd (snd (spec_op (TChdir p) w)) <> None /\ W (snd (spec_op (TChdir p) w))).
    { cbn [spec_op]. destruct p as [|p0 p]; [split; assumption|]. destruct (dir_named _ _) as [dd|] eqn:Dn; [|split; assumption]. apply dir_named_in in Dn.
      split; [discriminate|]. apply Cd. exact Dn. }
    assert (C1 : goes own x W w s (snd (spec_op (TChdir p) w)) s1).
    { exists [ev]. split; [exact L1|]. cbn [deeds]. unfold ev at 1. cbn [deed app]. split; [rewrite spec_ops_cons; reflexivity|].
      split; [exact K1|]. split; [apply Wx|]. split; [apply Wx|]. destruct R as (_ & _ & B & _). split; [eapply moved_bufs; [exact M1|exact B]|].
      split; [destruct M1 as (M1 & _); rewrite M1; exact Ds|]. left. eapply outside_same; [..|exact O]; assumption. }
    destruct (fst (spec_op (TChdir p) w)); try (injection H as <-; eexists; exact C1); injection H as <-; exists (snd (spec_op (TChdir p) w));
      (eapply goes_trans; [exact C1|]); destruct C1 as (? & _ & _ & C1); (apply goes_still; [exact C1|stl|apply logs_refl; reflexivity|left; outs]).
  - apply Go. unfold pwd_callback in H. destruct argv as [|a0 [|a1 ?]]; oks; try solve [shows_status Cs].
  - apply Go. unfold cat_callback in H. destruct (length argv <? 2); [oks; shows_status Cs|]. oks. destruct a; oks; [shows_status Cs|]. starts Cs cmd_cat.
  - apply Go. unfold xxd_callback in H. destruct argv as [|a0 [|nm [|? ?]]]; try solve [oks; shows_status Cs].
    destruct (words_nth x [a0; nm] nm Sw (or_intror (or_introl eq_refl))) as (Np & Lp).
    rewrite (ample_find own x W w _ nm Am Cs Np Lp) in H. cbn [bind] in H. destruct (denotes w nm) as [g|] eqn:Dg; [|oks; shows_status Cs].
    apply denotes_file in Dg. destruct (f_get g) as [cb|] eqn:Gg; [|oks; shows_status Cs]. ok1. destruct a as [a s1]. injection H as <-.
    rewrite <- E1 in E. destruct (get_goes own x W w _ g cb a s1 Am Cs Dg Gg E) as (w1 & G1 & M1 & _). exists w1. eapply goes_trans; [exact G1|].
    destruct G1 as (? & _ & _ & C1). exists []. rewrite app_nil_r. destruct (g_ptr a); (split; [reflexivity|]; split; [reflexivity|]); destruct C1 as (K1 & A1 & A2 & A3 & A4 & _);
      (split; [eapply knows_ext; [..|exact K1]; reflexivity|]); repeat (split; [assumption|]);
      right; (split; [reflexivity|]); exists cmd_xxd; eexists; (split; [reflexivity|]; split; [reflexivity|]; intros ? X; discriminate X).
  - apply Go. unfold echo_callback in H. destruct argv as [|a0 [|tx [|op [|nm [|? ?]]]]]; try solve [oks; shows_status Cs].
    + ok1. ok1. ok1. destruct a2 as [b m]. match goal with D : ush_utils_decode_ascii _ _ _ _ = Ok _ |- _ => apply decode_ascii_length in D; cbn in D end. lens. exists w. apply goes_still; [exact Cs|stl|apply logs_refl; reflexivity|left; outs].
    + destruct (negb _); [oks; shows_status Cs|]. destruct (words_nth x [a0; tx; op; nm] nm Sw) as (Np & Lp); [cbn; auto|].
      rewrite (ample_find own x W w _ nm Am Cs Np Lp) in H. cbn [bind] in H. destruct (denotes w nm) as [g|] eqn:Dg; [|oks; shows_status Cs].
      apply denotes_file in Dg. destruct (f_set g) as [cb|] eqn:Gg; [|oks; shows_status Cs]. ok1. ok1. ok1. destruct a2 as [b m]. match goal with D : ush_utils_decode_ascii _ _ _ _ = Ok _ |- _ => apply decode_ascii_length in D; cbn in D end.
      destruct (Stt g cb [] (firstn m (skipn a b)) Dg Gg) as (_ & (P1 & _ & P2 & P3) & P4).
      assert (G1 : goes own x W w (emit ev s) w (set_inb b (emit ev s))).
      { apply goes_still; [exact Cs|stl|apply logs_refl; reflexivity|left; exact O]. }
      destruct (goes_calls own x W w (set_inb b (emit ev s)) [] [] (EvSet cb (f_name g) (firstn m (skipn a b))) _ s' ltac:(destruct G1 as (? & _ & _ & X); exact X) ltac:(cbn [deed lg set_inb]; rewrite E1; reflexivity) P1 P2 P3 P4 H)
        as (w' & G2 & _). exists w'. exact (goes_trans _ _ _ _ _ _ _ _ _ G1 G2).
  - clear Go C0 Cs. destruct (Ex f k argv Ff Fx) as ((P1 & _ & P2 & P3) & P4).
    destruct (goes_calls own x W w s args argv ev _ s' C eq_refl P1 P2 P3 P4 H) as (w' & G & _). eauto.
Qed.

(** ** One call of ush_service *)
Lemma on_course_emit : forall own x W w s ev, on_course own x W w s -> on_course own x W w (emit ev s).
Proof. intros own x W w s ev (K & R). split; [eapply knows_ext; [..|exact K]; reflexivity|exact R]. Qed.

Lemma finish_goes : forall own x W w s s', ample own x W -> on_course own x W w s -> outside s -> 
  ush_parse_finish (app_of x (lg s)) s = Ok s' -> exists w', goes own x W w s w' s'.
Proof.
  intros own x W w s s' Am C O H. unfold ush_parse_finish in H. ok1. ok1. pose proof C as (_ & _ & Ww & B & Ds & _).
  apply arg_values_short in E0. assert (Sw : short_words x a0).
  { unfold short_words. rewrite <- Ds, <- (proj1 B). exact E0. }
  clear E0. destruct a0 as [|name rest]; [oks; exists w; apply goes_refl; exact C|].
  destruct (words_nth x _ name Sw (or_introl eq_refl)) as (Nn & Ln).
  destruct (Am w Ww) as (_ & _ & _ & _ & _ & _ & Ae). destruct (Ae (ins (lg s))) as (_ & Hk & _ & _). clear Ae.
  destruct (Hk (name :: rest)) as ((Hp & _ & Ha & Hc) & Hw). unfold after_hook in Hw. change (x_app x (ins (lg s))) with (app_of x (lg s)) in *. unfold hook_calls in *. rewrite <- Ds in Hp, Ha, Hc, Hw.
  ok1. rename a0 into s1.
  assert (G1 : exists w1, goes own x W w s w1 s1 /\ outside s1 /\ app_of x (lg s1) = app_of x (lg s)).
  { clear H. destruct (d_exec (o_desc s)) as [k|].
    - pose proof (do_actions_lg _ _ _ _ E0) as L. rewrite Ds in Ha.
      destruct (goes_calls own x W w s a (name :: rest) (EvExec (XUser k) None (name :: rest)) _ s1 C eq_refl Hp Ha Hc Hw E0) as (w1 & G & _ & S1).
      exists w1. split; [exact G|]. split; [eapply steady_outside; eauto|].
      unfold app_of. rewrite L. cbn [emit lg set_lg]. unfold ins. rewrite flat_map_app. cbn [flat_map]. rewrite app_nil_r. reflexivity.
    - injection E0 as <-. exists w. split; [apply goes_refl; exact C|auto]. }
  destruct G1 as (w1 & G1 & O1 & E1). clear E0. rewrite <- E1 in H. pose proof G1 as (? & _ & _ & C1).
  rewrite (ample_find own x W w1 s1 name Am C1 Nn Ln) in H. cbn [bind] in H.
  destruct (denotes w1 name) as [f|] eqn:De; [|oks; exists w1; eapply goes_trans; [exact G1|]; apply goes_still; [exact C1|stl|apply logs_refl; reflexivity|left; outs]].
  destruct (f_exec f) as [cb|] eqn:Fx; [|oks; exists w1; eapply goes_trans; [exact G1|]; apply goes_still; [exact C1|stl|apply logs_refl; reflexivity|left; outs]].
  destruct (call_exec_goes own x W w1 s1 a (name :: rest) f name cb s' Am C1 O1 De Fx Sw H) as (w' & G2). exists w'. exact (goes_trans _ _ _ _ _ _ _ _ _ G1 G2).
Qed.

Lemma standard_hushed : forall ch s s', match o_state s with S_PARSE_SEARCH_ARG | S_PARSE_QUOTE_ARG | S_PARSE_STANDARD_ARG => True | _ => False end ->
  ush_parse_char_standard ch s = Ok s' -> hushed s s' /\ lg s' = lg s.
Proof.
  intros ch s s' P H. split; [|eapply parse_standard_lg; eauto]. unfold ush_parse_char_standard, out_escaped, out_char in H. oks2; lens; try contradiction; hsh.
Qed.

Lemma parse_char_goes : forall own x W w s s', ample own x W -> on_course own x W w s ->
  match o_state s with S_PARSE_SEARCH_ARG | S_PARSE_QUOTE_ARG | S_PARSE_STANDARD_ARG => True | _ => False end ->
  ush_parse_char (app_of x (lg s)) s = Ok s' -> exists w', goes own x W w s w' s'.
Proof.
  intros own x W w s s' Am C P H. unfold ush_parse_char in H. ok1. clear E. destruct (ceq a LF || ceq a CR).
  - unfold out_char in H. ok1. ok1. lens.
    match type of H with ush_parse_finish _ ?r = _ => set (s1 := r) in * end.
    assert (O1 : outside s1) by (unfold s1; outs). assert (E1 : lg s1 = lg s) by reflexivity. 
    assert (G1 : goes own x W w s w s1) by (apply goes_still; [exact C|unfold s1; stl|apply logs_refl; exact E1|left; exact O1]).
    rewrite <- E1 in H. pose proof G1 as (? & _ & _ & C1). destruct (finish_goes own x W w s1 s' Am C1 O1 H) as (w' & G2).
    exists w'. exact (goes_trans _ _ _ _ _ _ _ _ _ G1 G2).
  - destruct (standard_hushed a (set_inpos (S (o_inpos s)) s) s' P H) as ((S1 & O1) & L). exists w. apply goes_still; [exact C| |apply logs_refl; exact L|left; exact O1].
    eapply still_trans; [|exact S1]. stl.
Qed.
Lemma parse_goes : forall own x W w i s b s', ample own x W -> on_course own x W w s -> io_env i = app_of x (lg s) ->
  match o_state s with S_PARSE_PREPARE | S_PARSE_SEARCH_ARG | S_PARSE_QUOTE_ARG | S_PARSE_STANDARD_ARG => True | _ => False end ->
  ush_parse_service i s = Ok (b, s') -> exists w', goes own x W w s w' s'.
Proof.
  intros own x W w i s b s' Am C Ei P H. unfold ush_parse_service in H. rewrite Ei in H. destruct (o_state s) eqn:St; try contradiction.
  1:{ oks. exists w. apply goes_hushed; [exact C|hsh|apply logs_refl; reflexivity]. }
  all: ok1; injection H as <- <-; eapply parse_char_goes; eauto; rewrite St; exact Logic.I.
Qed.

Definition busy_next (s s' : st) : Prop := proc_phase (o_state s) = true -> prompt_phase (at_state s') = false.
Ltac bzn := repeat lens; unfold at_state; cbn; try reflexivity;
  repeat match goal with E : o_state ?s = _ |- context [o_state ?s] => rewrite E end; try reflexivity.
Lemma help_busy : forall s s', help_service s = Ok s' -> busy_next s s'.
Proof. intros s s' H. unfold help_service in H. intros P. destruct (o_state s) eqn:St; try discriminate P; oks2; bzn. Qed.
Lemma ls_busy : forall s s', ls_service s = Ok s' -> busy_next s s'.
Proof. intros s s' H. unfold ls_service in H. intros P. destruct (o_state s) eqn:St; try discriminate P; oks2; bzn. Qed.
Lemma xxd_busy : forall s s', xxd_service s = Ok s' -> busy_next s s'.
Proof. intros s s' H. unfold xxd_service in H. intros P. destruct (o_state s) eqn:St; try discriminate P; oks2; bzn. Qed.

Lemma cat_goes : forall own x W w s s', ample own x W -> on_course own x W w s -> own_proc s -> proc_phase (o_state s) = true ->
  cat_service (app_of x (lg s)) s = Ok s' -> exists w', goes own x W w s w' s'.
Proof.
  intros own x W w s s' Am C O P H. unfold cat_service in H. destruct (o_state s) eqn:St; try discriminate P;
    try solve [oks; exists w; apply goes_still; [exact C|stl|apply logs_refl; reflexivity|right; exact O]].
  1:{ oks. exists w. apply goes_still; [exact C|stl|apply logs_refl; reflexivity|]. eapply still_proc; [|exact O|reflexivity]. stl. }
  2:{ oks. exists w. apply goes_still; [exact C|stl|apply logs_refl; reflexivity|left; outs]. }
  destruct (o_argc s <=? o_pitem s); [oks; exists w; apply goes_still; [exact C|stl|apply logs_refl; reflexivity|eapply still_proc; [|exact O|reflexivity]; stl]|].
  ok1. ok1. ok1. apply c_str_inv in E1 as (N & p & q & Eb & _). pose proof C as (_ & _ & _ & B & Ds & _).
  rewrite (ample_find own x W w s a1 Am C N) in H.
  2:{ rewrite <- Ds, <- (proj1 B), Eb, !app_length. cbn [length]. lia. }
  cbn [bind] in H. destruct (denotes w a1) as [g|] eqn:Dg; [|discriminate H]. cbn [deref bind] in H. destruct (f_get g) as [cb|] eqn:Gg; [|discriminate H]. cbn [deref bind] in H.
  ok1. destruct a2 as [r s1]. apply denotes_file in Dg. destruct (get_goes own x W w s g cb r s1 Am C Dg Gg E1) as (w1 & G1 & M1 & S1).
  pose proof G1 as (? & _ & _ & C1). exists w1. eapply goes_trans; [exact G1|]. destruct O as (_ & O). destruct S1 as (S1 & _).
  destruct (g_ptr r) as [| |d]; try discriminate H. injection H as <-. apply goes_still; [exact C1|stl|apply logs_refl; reflexivity|].
  right. split; [cbn; rewrite S1, St; reflexivity|]. destruct M1 as (_ & _ & _ & M1). cbn. rewrite M1. exact O.
Qed.

Lemma process_goes : forall own x W w i s b s', ample own x W -> on_course own x W w s -> io_env i = app_of x (lg s) -> proc_phase (o_state s) = true ->
  ush_process_service i s = Ok (b, s') -> exists w', goes own x W w s w' s'.
Proof.
  intros own x W w i s b s' Am C Ei P H. assert (O : own_proc s).
  { destruct C as (_ & _ & _ & _ & _ & [(O & _)|O]); [|exact O]. unfold at_state in O. destruct (o_state s); try discriminate P; discriminate O. }
  pose proof O as (_ & f & p & Pf & Fp & Np).
  assert (X : match p with PHelp => help_service s | PLs => ls_service s | PCat => cat_service (io_env i) s | PXxd => xxd_service s | PUser n => Ok s end = Ok s').
  { unfold ush_process_service in H. rewrite Pf, Fp in H. destruct (o_state s); try discriminate P; ok1; injection H as _ <-;
      destruct p; try exact E; elim (Np n eq_refl). }
  assert (Q : still s s' -> busy_next s s' -> lg s' = lg s -> exists w', goes own x W w s w' s').
  { intros S1 B1 L1. exists w. apply goes_still; [exact C|exact S1|apply logs_refl; exact L1|]. eapply still_proc; [exact S1|exact O|exact (B1 P)]. }
  destruct p as [| | | |n].
  - apply Q; [eapply help_still; eauto|eapply help_busy; eauto|]. unfold help_service in X. clear -X. oks2; lgs; auto.
  - apply Q; [eapply ls_still; eauto|eapply ls_busy; eauto|]. unfold ls_service in X. clear -X. oks2; lgs; auto.
  - rewrite Ei in X. eapply cat_goes; eauto.
  - apply Q; [eapply xxd_still; eauto|eapply xxd_busy; eauto|]. unfold xxd_service in X. clear -X. oks2; lgs; auto.
  - elim (Np n eq_refl).
Qed.

Lemma service_goes : forall own x W w i s b s', ample own x W -> on_course own x W w s -> io_env i = app_of x (lg s) ->
  ush_service i s = Ok (b, s') -> exists w', goes own x W w s w' s'.
Proof.
  intros own x W w i s b s' Am C Ei H. rewrite service_eq in H. destruct (o_cur s) as [cu|]; [|discriminate]. unfold svc in H.
  assert (J : hushed s s' -> logs harmless s s' -> exists w', goes own x W w s w' s').
  { intros Hs L. exists w. apply goes_hushed; assumption. }
  assert (O : forall y, o_state s = y -> proc_phase y = false -> y <> S_WRITE_CHAR -> prompt_phase y = false -> outside s).
  { intros y Sy Py Ny Qy. apply outside_state; rewrite Sy; assumption. }
  assert (Op : prompt_phase (o_state s) = true -> outside s).
  { intros Pp. destruct C as (_ & _ & _ & _ & _ & [X|(X & _)]); [exact X|]. unfold at_state in X. destruct (o_state s); discriminate Pp || discriminate X. }
  destruct (o_state s) eqn:St;
    try solve [destruct (cfg_autocomp _); [|oks; exists w; apply goes_refl; exact C]; apply J;
      [eapply autocomp_hushed; [exact H| |rewrite St; discriminate]; eapply O; reflexivity || discriminate|apply logs_refl; eapply autocomp_log; eauto]];
    try solve [eapply process_goes; eauto; rewrite St; reflexivity];
    try solve [eapply parse_goes; eauto; rewrite St; exact Logic.I];
    try solve [apply J; [eapply reset_hushed; eauto|unfold ush_reset_service in H; rewrite St in H; oks; apply logs_refl; reflexivity]];
    try solve [apply J; [eapply prompt_hushed; [rewrite St; reflexivity|apply Op; reflexivity|exact H]|unfold ush_prompt_service in H; rewrite St in H; oks; apply logs_refl; reflexivity]].
  - ok1. oks. apply J; [eapply read_start_hushed; eauto|]. unfold ush_read_start in E. oks. apply logs_refl. reflexivity.
  - pose proof (read_char_log _ _ _ _ H) as L. apply J; [eapply read_char_hushed; eauto|]. destruct (io_rd i) as [c|].
    + destruct L as (_ & L). eapply logs_one; [exact L|exact Logic.I].
    + destruct L as (_ & ->). apply logs_refl. reflexivity.
  - ok1. injection H as _ <-. destruct (write_hushed _ _ _ St E) as (S1 & A1 & P1). exists w. apply goes_still; [exact C|exact S1| |].
    + unfold ush_write_char in E. oks2; try (apply logs_refl; reflexivity). eapply logs_one; [reflexivity|exact Logic.I].
    + destruct C as (_ & _ & _ & _ & _ & [X|(X & Y)]); [left|right].
      * unfold outside. rewrite A1, P1. exact X.
      * destruct S1 as (_ & _ & _ & S1). unfold own_proc. rewrite A1, S1. auto.
Qed.

Lemma drive_goes : forall own x W l cs w s q s', ample own x W -> on_course own x W w s -> drive (app_of x) cs l s = Ok (q, s') -> exists w', goes own x W w s w' s'.
Proof.
  intros own x W l. induction l as [|(r, v) l IH]; intros cs w s q s' Am C H; cbn [drive] in H; [oks; exists w; apply goes_refl; exact C|].
  ok1. destruct a as [b s1]. apply (service_goes own x W w) in E as (w1 & G1); [|exact Am|exact C|reflexivity]. pose proof G1 as (? & _ & _ & C1).
  destruct (IH _ w1 s1 q s' Am C1 H) as (w2 & G2). exists w2. exact (goes_trans _ _ _ _ _ _ _ _ _ G1 G2).
Qed.

Lemma shows_course : forall own x (W : world -> Prop) a s, W (se_world a) -> shows own x a s -> on_course own x W (se_world a) s.
Proof.
  intros own x W a s Ww Sh. pose proof (shows_polling _ _ _ _ Sh) as P. destruct Sh as (Ds & K & Wc & _ & _ & B & _).
  split; [exact K|]. split; [exact Wc|]. split; [exact Ww|]. split; [exact B|]. split; [exact Ds|]. left. unfold polling in P. apply outside_state; rewrite P; reflexivity || discriminate.
Qed.
