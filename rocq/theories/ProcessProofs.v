(** * Proofs for property C59 *)
From Coq Require Import Arith Lia.
From Verif Require Import Shell BaseFacts LogFacts Words Sched ServiceFacts SchedFacts SchedProofs Macro EditFacts Line LineFacts Editor Spec Tree TreeFacts TreeOps TreeProofs Cmds CmdFacts PrintfFacts HookFacts CmdProofs ReconfProofs ExecFacts StepFacts InterruptProofs Process.

(** ** The state does not matter to calls *)
Definition rmap (x : fsm) (r : res st) : res st := match r with Ok s => Ok (set_state x s) | Err e => Err e end.

Ltac cases := repeat (cbn [rmap]; match goal with
  | |- context [match ?m with _ => _ end] => lazymatch m with context [match _ with _ => _ end] => fail | _ => destruct m end
  end); cbn [rmap]; try reflexivity.

Lemma tree_call_state : forall a x s, tree_call a <> None -> do_action [] a (set_state x s) = rmap x (do_action [] a s).
Proof.
  intros a x s H. destruct a; cbn [tree_call] in H; try congruence; cbn [do_action].
  - unfold ush_node_set_current_dir, bind. change (o_desc (set_state x s)) with (o_desc s). change (hp (set_state x s)) with (hp s). change (o_cur (set_state x s)) with (o_cur s). change (o_root (set_state x s)) with (o_root s).
    destruct path; [reflexivity|]. cases.
  - unfold ush_node_mount, bind. cbv zeta. change (o_desc (set_state x s)) with (o_desc s). change (hp (set_state x s)) with (hp s). cbn [o_root set_hp set_state]. cases.
  - unfold ush_node_unmount, bind. cbv zeta. change (o_desc (set_state x s)) with (o_desc s). change (hp (set_state x s)) with (hp s). change (o_root (set_state x s)) with (o_root s). cases.
  - unfold ush_commands_add, bind. change (hp (set_state x s)) with (hp s). change (o_cmds (set_state x s)) with (o_cmds s). cases.
  - unfold ush_commands_remove, bind. change (hp (set_state x s)) with (hp s). change (o_cmds (set_state x s)) with (o_cmds s). cases.
Qed.

Lemma print_call_state : forall a x s, proper_call [] a -> tree_call a = None -> do_action [] a (set_state x s) = do_action [] a s.
Proof.
  intros a x s P T. destruct a; cbn [tree_call proper_call printing_call] in *; try discriminate; try contradiction; cbn [do_action]; try reflexivity.
Qed.

Lemma silent_state : forall l x s, silent l -> do_actions [] l (set_state x s) = rmap x (do_actions [] l s).
Proof.
  induction l as [|a l IH]; intros x s F; [reflexivity|]. inversion F as [|? ? (T & P) Fl]; subst. cbn [do_actions].
  rewrite (tree_call_state a x s T). destruct (do_action [] a s) as [s1|]; [|reflexivity]. cbn [rmap bind]. apply IH. exact Fl.
Qed.

Lemma speaking_state : forall l x s, speaking l -> do_actions [] l (set_state x s) = do_actions [] l s.
Proof.
  induction l as [|a l IH]; intros x s (F & b & I & T); [destruct I|]. inversion F as [|? ? P Fl]; subst. cbn [do_actions].
  destruct (tree_call a) eqn:Ta.
  - rewrite (tree_call_state a x s) by congruence. destruct (do_action [] a s) as [s1|]; [|reflexivity]. cbn [rmap bind]. apply IH. split; [exact Fl|].
    destruct I as [->|I]; [congruence|]. eauto.
  - rewrite (print_call_state a x s P Ta). reflexivity.
Qed.

(** ** Applications that count *)
Lemma procs_app : forall l m, procs (l ++ m) = procs l + procs m.
Proof. intros. unfold procs. rewrite filter_app, app_length. reflexivity. Qed.
Lemma procs_outs : forall t, procs (map EvOut t) = 0.
Proof. induction t; [reflexivity|exact IHt]. Qed.
Lemma counting_same : forall e b l m, procs l = procs m -> counting e b l = counting e b m.
Proof. intros e b l m H. unfold counting. rewrite H. reflexivity. Qed.

Lemma works_procs : forall e s s', works e s s' -> procs (lg s) <= procs (lg s').
Proof.
  induction 1 as [|s b s1 s2 P H W IH]; [lia|]. destruct (service_grows _ _ _ _ H) as (evs & E). rewrite E, procs_app in IH. lia.
Qed.
Lemma quiet_works : forall e s s', quiet e s s' -> works e s s' /\ polling s'.
Proof. induction 1 as [s P|s b s1 s2 P H Q (W & P2)]; [split; [constructor|exact P]|]. split; [econstructor; eauto|exact P2]. Qed.

Lemma works_counting : forall e b s s' s2, works (counting e b (lg s)) s s' -> procs (lg s') = procs (lg s) -> quiet_by (counting e b) s' s2 -> quiet_by (counting e b) s s2.
Proof.
  intros e b s s' s2 W. remember (counting e b (lg s)) as E eqn:HE. revert HE. induction W as [|s c s1 s3 P H W IH]; intros HE Pr Q; [exact Q|].
  pose proof (works_procs _ _ _ W) as L1. destruct (service_grows _ _ _ _ H) as (evs & Lg). pose proof Lg as Lp. apply (f_equal procs) in Lp. rewrite procs_app in Lp.
  assert (P1 : procs (lg s1) = procs (lg s)) by lia. rewrite HE in H. eapply quiet_by_step; [exact P|exact H|]. apply IH; [rewrite HE; apply counting_same; lia|lia|exact Q].
Qed.
Lemma quiet_counting : forall e b s s', quiet (counting e b (lg s)) s s' -> procs (lg s') = procs (lg s) -> quiet_by (counting e b) s s'.
Proof. intros e b s s' Q Pr. destruct (quiet_works _ _ _ Q) as (W & P). apply (works_counting e b s s' s' W Pr). constructor. exact P. Qed.
Lemma took_counting : forall e b c s s' s2, took (counting e b (lg s)) c s s' -> procs (lg s') = procs (lg s) -> quiet_by (counting e b) s' s2 -> fed_by (counting e b) [c] s s2.
Proof.
  intros e b c s s' s2 (P & r & s1 & H & W) Pr Q. destruct (service_grows _ _ _ _ H) as (evs & Lg). pose proof Lg as Lp. apply (f_equal procs) in Lp. rewrite procs_app in Lp. pose proof (works_procs _ _ _ W) as L1.
  assert (Q1 : quiet_by (counting e b) s1 s2). { apply (works_counting e b s1 s'); [rewrite (counting_same e b (lg s1) (lg s)) by lia; exact W|lia|exact Q]. }
  eapply fed_by_cons; [exact P|exact H|exact Q1|]. constructor. clear - Q1. induction Q1; auto.
Qed.

(** ** The process *)
Lemma proc_call : forall i s g n x, o_cur s <> None -> o_pfile s = Some g -> f_proc g = Some (PUser n) ->
  x = S_PROCESS_START -> ush_service i (set_state x s) = bind (do_actions [] (e_proc (io_env i) n (f_name g)) (set_state x (emit (EvProc n (f_name g)) s))) (fun s => Ok (true, s)).
Proof.
  intros i s g n x Cu Pf Fp ->. rewrite service_eq. change (o_cur (set_state S_PROCESS_START s)) with (o_cur s). destruct (o_cur s) eqn:Ec; [|congruence].
  unfold svc. cbn [o_state set_state]. unfold ush_process_service. cbn [o_state o_pfile set_state]. rewrite Pf, Fp. reflexivity.
Qed.

Lemma no_text : forall b : bytes, arg_values b [] = Ok [].
Proof. reflexivity. Qed.

Lemma spoken_silent : forall d ws buf t l, silent l -> spoken d ws buf t l = t.
Proof.
  intros d ws buf t l F. induction F as [|a l (T & P) F IH]; [reflexivity|]. destruct (tree_call a) as [o|] eqn:E; [|congruence]. rewrite (spoken_tree _ _ _ _ _ _ _ E). exact IH.
Qed.

Definition poised_proc (own : list nat) (c : byte) (ws : list bytes) (hk : list action) (g : file) (w : world) (s : st) : Prop :=
  voice c ws hk s /\ bufs_ok s /\ knows own s w /\ o_cur s <> None /\ o_pfile s = Some g.

Lemma silent_ops : forall l s xs s', silent l -> do_ops (tree_calls l) s = Ok (xs, s') -> do_actions [] l s = Ok s'.
Proof.
  induction l as [|a l IH]; intros s xs s' F H; [injection H as _ <-; reflexivity|]. inversion F as [|? ? (T & P) Fl]; subst.
  destruct (tree_call a) as [o|] eqn:E; [|congruence]. unfold tree_calls in H. cbn [flat_map] in H. fold (tree_calls l) in H. rewrite (effect_some _ _ E) in H. cbn [app do_ops] in H.
  cbn [do_actions]. rewrite (tree_action [] [] a o s E P). destruct (do_op o s) as [[x s1]|]; [|discriminate H]. cbn [bind] in *.
  destruct (do_ops (tree_calls l) s1) as [[ys s2]|] eqn:E2; [|discriminate H]. cbn [bind] in H. injection H as _ <-. exact (IH _ _ _ Fl E2).
Qed.
Lemma op_cur : forall o s r s', do_op o s = Ok (r, s') -> o_cur s <> None -> o_cur s' <> None.
Proof.
  intros o s r s' H C. destruct o; cbn [do_op] in H.
  - unfold ush_node_mount in H. oks2; cbn [o_cur set_hp set_cur set_root]; congruence.
  - unfold ush_node_unmount in H. oks2; cbn [o_cur set_hp set_cur set_root]; congruence.
  - unfold ush_commands_add in H. oks2; cbn [o_cur set_hp set_cmds]; congruence.
  - unfold ush_commands_remove in H. oks2; cbn [o_cur set_hp set_cmds]; congruence.
  - unfold ush_node_set_current_dir in H. oks2; cbn [o_cur set_cur]; congruence.
Qed.
Lemma ops_cur : forall os s rs s', do_ops os s = Ok (rs, s') -> o_cur s <> None -> o_cur s' <> None.
Proof.
  induction os as [|o os IH]; intros s rs s' H C; cbn [do_ops] in H; [injection H as _ <-; exact C|].
  destruct (do_op o s) as [[r s1]|] eqn:E; [|discriminate H]. cbn [bind] in H. destruct (do_ops os s1) as [[rs1 s2]|] eqn:E2; [|discriminate H]. cbn [bind] in H. injection H as _ <-.
  eapply IH; [exact E2|]. eapply op_cur; eauto.
Qed.

Lemma only_tree_voice : forall own c ws hk s s', only_tree own s s' -> voice c ws hk s -> voice c ws hk s'.
Proof.
  intros own c ws hk s s' O (buf & t & Sp & R). exists buf, t. split; [exact (only_tree_speaks _ _ _ _ _ O Sp)|]. destruct O as (E & _). rewrite E. exact R.
Qed.

Lemma all_allowed_cat : forall pm own a b w, all_allowed pm own (a ++ b) w -> all_allowed pm own a w /\ all_allowed pm own b (snd (spec_ops a w)).
Proof.
  intros pm own a. induction a as [|o a IH]; intros b w H; [split; [exact Logic.I|exact H]|]. destruct H as (A & H). apply IH in H as (H1 & H2). split; [split; assumption|].
  cbn [spec_ops]. destruct (spec_op o w) as (r & w1). cbn [snd] in *. destruct (spec_ops a w1). exact H2.
Qed.

(** One call that prints nothing. *)
Lemma waits_once : forall e b own c ws hk g n w s, poised_proc own c ws hk g w s -> f_proc g = Some (PUser n) ->
  let calls := b (procs (lg s)) in silent calls -> all_allowed (d_pathmax (o_desc s)) own (tree_calls calls) w ->
  exists s', (forall i, io_env i = counting e b (lg s) -> ush_service i (set_state S_PROCESS_START s) = Ok (true, set_state S_PROCESS_START s')) /\
    poised_proc own c ws hk g (snd (spec_ops (tree_calls calls) w)) s' /\ o_desc s' = o_desc s /\ lg s' = lg s ++ [EvProc n (f_name g)].
Proof.
  intros e b own c ws hk g n w s (Vo & B & K & Cu & Pf) Fp calls Si Al. set (s1 := emit (EvProc n (f_name g)) s).
  destruct (C15_history_proof own (tree_calls calls) s1 w) as (s' & E & K' & O); [exact (knows_core own s s1 w eq_refl K)|exact Al|]. exists s'.
  pose proof (only_tree_fields _ _ _ O) as (D & I & U & L & _). split; [|split; [|split; [rewrite D; reflexivity|rewrite L; reflexivity]]].
  - intros i Ei. rewrite (proc_call i s g n _ Cu Pf Fp eq_refl), Ei. cbn [counting e_proc]. fold calls. fold s1. rewrite (silent_state calls _ s1 Si), (silent_ops _ _ _ _ Si E). reflexivity.
  - split; [apply (only_tree_voice own c ws hk s1); [exact O|apply voice_emit; exact Vo]|]. split; [unfold bufs_ok in *; rewrite D, I, U; exact B|]. split; [exact K'|].
    split; [exact (ops_cur _ _ _ _ E Cu)|]. destruct O as (-> & _). exact Pf.
Qed.

Lemma proc_not_polling : forall s, ~ polling (set_state S_PROCESS_START s).
Proof. intros s P. discriminate P. Qed.

Lemma proc_runs : forall e b own c ws hk g n d m s w cwd', poised_proc own c ws hk g w s -> o_desc s = d -> f_proc g = Some (PUser n) ->
  let j := procs (lg s) in
  (forall i, j <= i < j + m -> silent (b i)) -> speaking (b (j + m)) -> room_for d (hk ++ b (j + m)) ->
  let w' := snd (spec_ops (calls_of b j m) w) in
  all_allowed (d_pathmax d) own (calls_of b j m) w -> w_cwd w' = Some cwd' ->
  exists s', quiet_by (counting e b) (set_state S_PROCESS_START s) s' /\ editing 0 [] s' /\ bufs_ok s' /\ knows own s' w' /\ o_desc s' = d /\
    lg s' = lg s ++ repeat (EvProc n (f_name g)) (S m) ++ map EvOut (said d c ws (hk ++ b (j + m)) ++ prompt d (show cwd')).
Proof.
  intros e b own c ws hk g n d m. induction m as [|m IH]; intros s w cwd' Po Ds Fp j Si Sp Rm w' Al Wc.
  - rewrite Nat.add_0_r in *. unfold w', calls_of in *. cbn [seq flat_map] in *. rewrite app_nil_r in *. pose proof Po as (Vo & B & K & Cu & Pf).
    set (s1 := emit (EvProc n (f_name g)) s). set (E := counting e b (lg s1)). subst d.
    destruct (mixed_quiet E own [] ws [] hk (b j) c s1 w cwd') as (s2 & s' & E2 & Q & Ed & B' & K' & D' & L'); auto.
    { exact (proj1 Sp). } { intros buf t. apply proper_spoken. exact (proj1 Sp). } { apply voice_emit. exact Vo. }
    pose proof (do_actions_lg _ _ _ _ E2) as L2.
    exists s'. split; [|split; [exact Ed|split; [exact B'|split; [exact K'|split; [exact D'|]]]]].
    + eapply quiet_by_step; [apply proc_not_polling|rewrite (proc_call _ s g n _ Cu Pf Fp eq_refl); cbn [counting e_proc tick io_env]; change (lg (set_state S_PROCESS_START s)) with (lg s); fold j s1; rewrite (speaking_state _ _ _ Sp), E2; reflexivity|].
      apply quiet_counting; [rewrite L2; exact Q|]. rewrite L', L2, procs_app, procs_outs. apply Nat.add_0_r.
    + rewrite L'. unfold s1. cbn [emit set_lg lg]. rewrite <- app_assoc. reflexivity.
  - assert (Cs : calls_of b j (S m) = tree_calls (b j) ++ calls_of b (S j) m) by reflexivity. unfold w' in *. rewrite Cs in *. apply all_allowed_cat in Al as (A1 & A2). rewrite spec_ops_app in *.
    subst d. destruct (waits_once e b own c ws hk g n w s Po Fp) as (s1 & Sv & Po1 & D1 & L1); [apply Si; fold j; lia|exact A1|]. fold j in Po1.
    assert (J1 : procs (lg s1) = S j) by (rewrite L1, procs_app; cbn; fold j; lia).
    destruct (IH s1 _ cwd' Po1 D1 Fp) as (s' & Q & Ed & B' & K' & D' & L'); rewrite ?J1 in *.
    { intros i L. apply Si. lia. } { replace (S j + m) with (j + S m) by lia. exact Sp. } { replace (S j + m) with (j + S m) by lia. exact Rm. } { exact A2. } { exact Wc. }
    exists s'. split; [|split; [exact Ed|split; [exact B'|split; [exact K'|split; [exact D'|]]]]].
    + eapply quiet_by_step; [apply proc_not_polling|apply Sv; reflexivity|exact Q].
    + rewrite L', L1, <- !app_assoc. replace (S j + m) with (j + S m) by lia. reflexivity.
Qed.

Lemma hook_procs : forall d ws, procs (hook_events d ws) = 0.
Proof. intros d ws. unfold hook_events. destruct (d_exec d); reflexivity. Qed.

(** From the end of line to the process. *)
Lemma proc_starts : forall e b own w cwd l ws f s c k g, called e own w cwd l ws f s -> c = CR \/ c = LF -> ws <> [] -> f_exec f = Some (XUser k) ->
  e_exec e k (Some (f_name f)) ws = [AProcessStart g] ->
  exists u, took (counting e b (lg s)) c s (set_state S_PROCESS_START u) /\ poised_proc own c ws (hook_calls e (o_desc s) ws) g w u /\ o_desc u = o_desc s /\
    lg u = lg s ++ EvIn c :: map EvOut (eol_echo c) ++ hook_events (o_desc s) ws ++ [EvExec (XUser k) (Some (f_name f)) ws] /\ procs (lg u) = procs (lg s).
Proof.
  intros e b own w cwd l ws f s c k g (K & Wc & En & X & (Nm & Fi) & De) Hc Ne Fx Ex. set (E := counting e b (lg s)).
  destruct (hooked_line_took E l ws s c (show cwd) En (cwd_show _ _ _ _ K Wc) Hc Ne X) as (s2 & args & R & _ & Tk).
  pose proof R as (Kc & B & Vo & _ & _ & _ & Av & _ & L). pose proof (core_desc _ _ Kc) as D.
  assert (Fn : ush_file_find_by_name (hd [] ws) s = Ok (Some f)).
  { rewrite <- De. eapply find_denotes; eauto.
    - pose proof (entered_no_nul _ _ _ En) as Nn. destruct ws; [congruence|]. inversion Nn; auto.
    - inversion Fi; auto. }
  exists (set_pfile (Some g) (emit (EvExec (XUser k) (Some (f_name f)) ws) s2)). split; [|split; [|split; [exact D|]]].
  - apply Tk. unfold run_file. rewrite (find_core (hd [] ws) s s2 Kc), Fn. cbn [bind]. rewrite Fx. cbn [call_exec]. change (e_exec E) with (e_exec e). rewrite Ex. reflexivity.
  - split; [exact (voice_emit _ _ _ (EvExec (XUser k) (Some (f_name f)) ws) _ Vo)|]. split; [exact B|]. split; [apply (knows_core own s _ w); [exact Kc|exact K]|].
    split; [|reflexivity]. change (o_cur s2 <> None). apply (f_equal (fun x => snd (fst (fst x)))) in Kc. cbn in Kc. rewrite Kc.
    destruct K as (_ & _ & _ & _ & _ & C). rewrite Wc in C. destruct C as (dd & _ & ->). discriminate.
  - assert (Lu : lg (set_pfile (Some g) (emit (EvExec (XUser k) (Some (f_name f)) ws) s2)) = lg s ++ EvIn c :: map EvOut (eol_echo c) ++ hook_events (o_desc s) ws ++ [EvExec (XUser k) (Some (f_name f)) ws]).
    { change (lg s2 ++ [EvExec (XUser k) (Some (f_name f)) ws] = lg s ++ EvIn c :: map EvOut (eol_echo c) ++ hook_events (o_desc s) ws ++ [EvExec (XUser k) (Some (f_name f)) ws]).
      rewrite L, <- app_assoc. cbn [app]. rewrite <- app_assoc. reflexivity. }
    split; [exact Lu|]. rewrite Lu, procs_app. change (EvIn c :: ?m) with ([EvIn c] ++ m). rewrite !procs_app, procs_outs, hook_procs. cbn. lia.
Qed.

Lemma C59_process_proof : forall e b own w cwd l ws f s c k g n m cwd', called e own w cwd l ws f s -> c = CR \/ c = LF -> ws <> [] -> f_exec f = Some (XUser k) ->
  e_exec e k (Some (f_name f)) ws = [AProcessStart g] -> f_proc g = Some (PUser n) ->
  let d := o_desc s in let j := procs (lg s) in let hk := hook_calls e d ws in
  (forall i, j <= i < j + m -> silent (b i)) -> speaking (b (j + m)) -> room_for d (hk ++ b (j + m)) ->
  let w' := snd (spec_ops (calls_of b j m) w) in
  all_allowed (d_pathmax d) own (calls_of b j m) w -> w_cwd w' = Some cwd' ->
  exists s', fed_by (counting e b) [c] s s' /\ editing 0 [] s' /\ bufs_ok s' /\ knows own s' w' /\ o_desc s' = d /\
    lg s' = lg s ++ EvIn c :: map EvOut (eol_echo c) ++ hook_events d ws ++ EvExec (XUser k) (Some (f_name f)) ws ::
      repeat (EvProc n (f_name g)) (S m) ++ map EvOut (said d c ws (hk ++ b (j + m)) ++ prompt d (show cwd')).
Proof.
  intros e b own w cwd l ws f s c k g n m cwd' A Hc Ne Fx Ex Fp d j hk Si Sp Rm w' Al Wc'.
  destruct (proc_starts e b own w cwd l ws f s c k g A Hc Ne Fx Ex) as (u & Tk & Po & D & L & Pr).
  assert (Pj : procs (lg u) = j) by (rewrite Pr; reflexivity).
  destruct (proc_runs e b own c ws hk g n d m u w cwd' Po D Fp) as (s' & Q & Ed & B & K & D' & L'); rewrite ?Pj; auto.
  rewrite Pj in L', K. exists s'. split; [exact (took_counting e b c s _ s' Tk Pr Q)|]. split; [exact Ed|]. split; [exact B|]. split; [exact K|]. split; [exact D'|].
  rewrite L', L, <- ?app_assoc. cbn [app]. rewrite <- ?app_assoc. cbn [app]. rewrite <- ?app_assoc. reflexivity.
Qed.

(** ** A process that never prints *)
Lemma drive_arrives : forall a l os s s' q, esteps a os s s' -> length os <= both_ready l -> exists l', drive a (somes os ++ q) l s = drive a q l' s'.
Proof.
  intros a l. induction l as [|[r w] l IH]; intros os s s' q H L.
  - destruct H as [|]; [exists []; reflexivity|]. cbn in L. lia.
  - assert (BR : both_ready ((r, w) :: l) = (if r && w then 1 else 0) + both_ready l) by (unfold both_ready; cbn [filter fst snd]; destruct (r && w); reflexivity).
    destruct H as [s|o os s s2 s' H1 H2]; [exists ((r, w) :: l); reflexivity|]. rewrite BR in L. cbn [length] in L. cbn [drive]. destruct o as [c|].
    + cbn [somes flat_map app]. fold (somes os). destruct r.
      * destruct (service_any _ _ _ _ H1 (Some c) w eq_refl) as (b & [S|(_ & X & _)]); [|discriminate]. cbn [hd_error tl app]. rewrite S. cbn [bind]. destruct H1 as [P1 _]. rewrite P1.
        apply IH; [exact H2|]. destruct w; cbn [andb] in L; lia.
      * rewrite polling_none; [|destruct H1; auto|eapply estep_cur; eauto]. cbn [bind]. destruct (IH (Some c :: os) s s' q (es_cons _ _ _ _ _ _ H1 H2)) as (l' & E); [exact L|].
        exists l'. rewrite <- E. destruct H1 as [P1 _]. rewrite P1. reflexivity.
    + cbn [somes flat_map app]. fold (somes os).
      assert (Q : forall (x : option byte) (y : list byte), match o_state s, x with S_READ_CHAR, Some _ => tl y | _, _ => y end = y) by (intros x y; destruct H1 as [P1 _]; unfold polling in P1; destruct (o_state s); congruence).
      rewrite Q. destruct (service_any _ _ _ _ H1 (if r then hd_error (somes os ++ q) else None) w Logic.I) as (b & [S|(-> & _ & S)]); rewrite S; cbn [bind].
      * apply IH; [exact H2|]. destruct (r && w); lia.
      * apply (IH (None :: os) s s' q (es_cons _ _ _ _ _ _ H1 H2)). rewrite andb_false_r in L. exact L.
Qed.

Lemma works_esteps : forall e b s s', works (counting e b (lg s)) s s' -> procs (lg s') = procs (lg s) -> exists os, esteps (counting e b) os s s' /\ somes os = [].
Proof.
  intros e b s s' W. remember (counting e b (lg s)) as E eqn:HE. revert HE. induction W as [|s c s1 s3 P H W IH]; intros HE Pr; [exists []; split; [constructor|reflexivity]|].
  pose proof (works_procs _ _ _ W) as L1. destruct (service_grows _ _ _ _ H) as (evs & Lg). pose proof Lg as Lp. apply (f_equal procs) in Lp. rewrite procs_app in Lp.
  destruct IH as (os & Es & So); [rewrite HE; apply counting_same; lia|lia|]. exists (None :: os). split; [|exact So]. econstructor; [|exact Es]. rewrite HE in H. split; [exact P|eauto].
Qed.

Lemma idle_proc : forall e b g n u q l, o_cur u <> None -> o_pfile u = Some g -> f_proc g = Some (PUser n) -> (forall i, procs (lg u) <= i -> b i = []) ->
  drive (counting e b) q l (set_state S_PROCESS_START u) = Ok (q, set_state S_PROCESS_START (set_lg (lg u ++ repeat (EvProc n (f_name g)) (length l)) u)).
Proof.
  intros e b g n u q l. revert u. induction l as [|[r w] l IH]; intros u Cu Pf Fp Hb.
  - cbn [drive length repeat]. rewrite app_nil_r. destruct u; reflexivity.
  - cbn [drive]. rewrite (proc_call _ u g n _ Cu Pf Fp eq_refl). cbn [counting e_proc io_env]. change (lg (set_state S_PROCESS_START u)) with (lg u). rewrite (Hb _ (le_n _)).
    cbn [do_actions bind]. cbn [o_state set_state]. rewrite IH; auto.
    + cbn [emit set_lg lg length]. rewrite <- app_assoc. reflexivity.
    + intros i Li. apply Hb. cbn [emit set_lg lg] in Li. rewrite procs_app in Li. lia.
Qed.

Lemma C59_endless_proof : forall e b own w cwd l ws f s c k g n, called e own w cwd l ws f s -> c = CR \/ c = LF -> ws <> [] -> f_exec f = Some (XUser k) ->
  e_exec e k (Some (f_name f)) ws = [AProcessStart g] -> f_proc g = Some (PUser n) -> (forall i, procs (lg s) <= i -> b i = []) ->
  exists n0, forall q l1, n0 <= both_ready l1 -> exists i s1, drive (counting e b) (c :: q) l1 s = Ok (q, s1) /\
    lg s1 = lg s ++ EvIn c :: map EvOut (eol_echo c) ++ hook_events (o_desc s) ws ++ EvExec (XUser k) (Some (f_name f)) ws :: repeat (EvProc n (f_name g)) i /\
    forall q2 l2, exists s2, drive (counting e b) q2 l2 s1 = Ok (q2, s2) /\ lg s2 = lg s1 ++ repeat (EvProc n (f_name g)) (length l2).
Proof.
  intros e b own w cwd l ws f s c k g n A Hc Ne Fx Ex Fp Hb.
  destruct (proc_starts e b own w cwd l ws f s c k g A Hc Ne Fx Ex) as (u & (P & r & s1 & Sv & W) & (_ & _ & _ & Cu & Pf) & D & L & Pr).
  destruct (service_grows _ _ _ _ Sv) as (evs & Lg). pose proof Lg as Lp. apply (f_equal procs) in Lp. rewrite procs_app in Lp. pose proof (works_procs _ _ _ W) as L1. change (lg (set_state S_PROCESS_START u)) with (lg u) in L1.
  destruct (works_esteps e b s1 (set_state S_PROCESS_START u)) as (os & Es & So); [rewrite (counting_same e b (lg s1) (lg s)) by lia; exact W|change (lg (set_state S_PROCESS_START u)) with (lg u); lia|].
  assert (Es' : esteps (counting e b) (Some c :: os) s (set_state S_PROCESS_START u)) by (econstructor; [split; [exact P|eauto]|exact Es]).
  exists (length (Some c :: os)). intros q l1 Ll. destruct (drive_arrives _ l1 _ _ _ q Es' Ll) as (l' & E). cbn [somes flat_map app] in E. fold (somes os) in E. rewrite So in E. cbn [app] in E.
  rewrite (idle_proc e b g n u q l' Cu Pf Fp) in E by (intros i Li; apply Hb; lia).
  eexists (length l'), _. split; [exact E|]. split.
  - cbn [set_state set_lg lg]. rewrite L, <- ?app_assoc. cbn [app]. rewrite <- ?app_assoc. cbn [app]. reflexivity.
  - intros q2 l2. rewrite (idle_proc e b g n (set_lg _ u) q2 l2 Cu Pf Fp).
    + eexists. split; [reflexivity|]. reflexivity.
    + intros i Li. apply Hb. cbn [set_lg lg] in Li. rewrite procs_app in Li. lia.
Qed.

(** ** A file without a process *)
Lemma C59_none_proof : forall e own w cwd l ws f s c k g, called e own w cwd l ws f s -> c = CR \/ c = LF -> ws <> [] -> f_exec f = Some (XUser k) ->
  e_exec e k (Some (f_name f)) ws = [AProcessStart g] -> f_proc g = None ->
  exists s', does e c s (XUser k) f ws [] crlf cwd s' /\ core s' = core s.
Proof.
  intros e own w cwd l ws f s c k g (K & Wc & En & X & (Nm & Fi) & De) Hc Ne Fx Ex Fp.
  destruct (hooked_line_took e l ws s c (show cwd) En (cwd_show _ _ _ _ K Wc) Hc Ne X) as (s2 & args & R & _ & Tk).
  pose proof R as (Kc & B & _ & _ & _ & _ & _ & _ & L). pose proof (core_desc _ _ Kc) as D.
  assert (Fn : ush_file_find_by_name (hd [] ws) s = Ok (Some f)).
  { rewrite <- De. eapply find_denotes; eauto.
    - pose proof (entered_no_nul _ _ _ En) as Nn. destruct ws; [congruence|]. inversion Nn; auto.
    - inversion Fi; auto. }
  pose proof (core_cwd _ _ _ Kc (cwd_show _ _ _ _ K Wc)) as W2.
  set (s3 := set_state S_PROCESS_START (set_pfile (Some g) (emit (EvExec (XUser k) (Some (f_name f)) ws) s2))).
  assert (T3 : took e c s s3).
  { apply Tk. unfold run_file. rewrite (find_core (hd [] ws) s s2 Kc), Fn. cbn [bind]. rewrite Fx. cbn [call_exec]. rewrite Ex. reflexivity. }
  assert (W3 : works e s3 (set_state S_RESET s3)).
  { eapply works_step with (b := true); [discriminate| |constructor]. rewrite service_eq. cbn [o_cur s3 set_state set_pfile emit set_lg]. destruct (o_cur s2) eqn:C2; [|destruct (cwd_cur _ _ W2 C2)].
    unfold svc, ush_process_service. change (o_state s3) with S_PROCESS_START. change (o_pfile s3) with (Some g). cbv match. rewrite Fp. reflexivity. }
  destruct (quiet_reset e (set_state S_RESET s3) (show cwd) eq_refl) as (s' & Q & Ed & K' & B' & L'); [exact W2|exact B|].
  exists s'. split; [|rewrite K'; exact Kc]. split; [|split; [exact Ed|split; [exact B'|]]].
  - apply (took_fed e c s s3 T3). apply (works_quiet _ _ _ W3). exact Q.
  - rewrite L'. change (lg (set_state S_RESET s3)) with (lg s2 ++ [EvExec (XUser k) (Some (f_name f)) ws]). change (o_desc (set_state S_RESET s3)) with (o_desc s2). rewrite D, L, <- ?app_assoc. cbn [app].
    rewrite <- ?app_assoc. reflexivity.
Qed.

(** ** A process that ends by assigning a state *)
Lemma proc_waits : forall e b own c ws hk g n m s w, poised_proc own c ws hk g w s -> f_proc g = Some (PUser n) ->
  let j := procs (lg s) in let ops := flat_map (fun i => tree_calls (b i)) (seq j m) in
  (forall i, j <= i < j + m -> silent (b i)) -> all_allowed (d_pathmax (o_desc s)) own ops w ->
  exists s1, (forall s', quiet_by (counting e b) (set_state S_PROCESS_START s1) s' -> quiet_by (counting e b) (set_state S_PROCESS_START s) s') /\
    poised_proc own c ws hk g (snd (spec_ops ops w)) s1 /\ o_desc s1 = o_desc s /\ lg s1 = lg s ++ repeat (EvProc n (f_name g)) m /\ procs (lg s1) = j + m.
Proof.
  intros e b own c ws hk g n m. induction m as [|m IH]; intros s w Po Fp j ops Si Al.
  - exists s. split; [auto|]. split; [exact Po|]. split; [reflexivity|]. cbn [repeat]. rewrite app_nil_r, Nat.add_0_r. split; reflexivity.
  - unfold ops in *. cbn [seq flat_map] in *. apply all_allowed_cat in Al as (A1 & A2). rewrite spec_ops_app.
    destruct (waits_once e b own c ws hk g n w s Po Fp) as (s1 & Sv & Po1 & D1 & L1); [apply Si; fold j; lia|exact A1|]. fold j in Po1.
    assert (J1 : procs (lg s1) = S j) by (rewrite L1, procs_app; cbn; fold j; lia).
    destruct (IH s1 _ Po1 Fp) as (s2 & Q & Po2 & D2 & L2 & P2); rewrite ?J1 in *; [intros i L; apply Si; lia|rewrite D1; exact A2|].
    exists s2. split; [intros s' Q'; eapply quiet_by_step; [apply proc_not_polling|apply Sv; reflexivity|exact (Q _ Q')]|]. split; [exact Po2|]. split; [congruence|].
    split; [rewrite L2, L1, <- app_assoc; reflexivity|]. rewrite P2. lia.
Qed.

Lemma flat_map_S : forall b j m, calls_of b j m = flat_map (fun i => tree_calls (b i)) (seq j m) ++ tree_calls (b (j + m)).
Proof. intros b j m. unfold calls_of. rewrite seq_S, flat_map_app. cbn [flat_map]. rewrite app_nil_r. reflexivity. Qed.

Lemma do_actions_cat : forall args a b s s1, do_actions args a s = Ok s1 -> do_actions args (a ++ b) s = do_actions args b s1.
Proof.
  induction a as [|x a IH]; intros b s s1 H; [injection H as <-; reflexivity|]. cbn [do_actions app] in *. destruct (do_action args x s); [|discriminate H]. cbn [bind] in *. apply IH. exact H.
Qed.

Lemma C59_finish_proof : forall e b own w cwd l ws f s c k g n m cwd' pre x, called e own w cwd l ws f s -> c = CR \/ c = LF -> ws <> [] -> f_exec f = Some (XUser k) ->
  e_exec e k (Some (f_name f)) ws = [AProcessStart g] -> f_proc g = Some (PUser n) ->
  let d := o_desc s in let j := procs (lg s) in
  (forall i, j <= i < j + m -> silent (b i)) -> b (j + m) = pre ++ [ASetState x] -> silent pre -> x = S_RESET \/ x = S_RESET_PROMPT ->
  let w' := snd (spec_ops (calls_of b j m) w) in
  all_allowed (d_pathmax d) own (calls_of b j m) w -> w_cwd w' = Some cwd' ->
  exists s', fed_by (counting e b) [c] s s' /\ editing 0 [] s' /\ bufs_ok s' /\ knows own s' w' /\ o_desc s' = d /\
    lg s' = lg s ++ EvIn c :: map EvOut (eol_echo c) ++ hook_events d ws ++ EvExec (XUser k) (Some (f_name f)) ws ::
      repeat (EvProc n (f_name g)) (S m) ++ map EvOut (match x with S_RESET => crlf | _ => [] end ++ prompt d (show cwd')).
Proof.
  intros e b own w cwd l ws f s c k g n m cwd' pre x A Hc Ne Fx Ex Fp d j Si Eb Sp Hx w' Al Wc'.
  destruct (proc_starts e b own w cwd l ws f s c k g A Hc Ne Fx Ex) as (u & Tk & Po & D & L & Pr).
  pose proof (fun s' => took_counting e b c s _ s' Tk Pr) as Tc.
  assert (Ej : j = procs (lg u)) by (symmetry; exact Pr). unfold w' in *. rewrite flat_map_S in *. apply all_allowed_cat in Al as (A1 & A2). rewrite spec_ops_app in *.
  rewrite Ej in A1, A2, Si, Wc' |- *. fold d in D.
  destruct (proc_waits e b own c ws _ g n m u w Po Fp Si) as (s1 & Q1 & Po1 & D1 & L1 & P1); [rewrite D; exact A1|]. rewrite <- Ej in *.
  pose proof Po1 as (Vo & B & K & Cu & Pf). set (w1 := snd (spec_ops (flat_map (fun i => tree_calls (b i)) (seq j m)) w)) in *.
  assert (Tb : tree_calls (b (j + m)) = tree_calls pre) by (rewrite Eb; unfold tree_calls; rewrite flat_map_app; cbn; apply app_nil_r). rewrite Tb in *.
  set (s1' := emit (EvProc n (f_name g)) s1).
  destruct (C15_history_proof own (tree_calls pre) s1' w1) as (s2 & E & K2 & O); [exact (knows_core own s1 s1' w1 eq_refl K)|change (o_desc s1') with (o_desc s1); rewrite D1, D; exact A2|].
  pose proof (only_tree_fields _ _ _ O) as (D2 & I2 & U2 & L2 & _).
  assert (Sv : ush_service (tick (counting e b (lg s1)) None) (set_state S_PROCESS_START s1) = Ok (true, set_state x s2)).
  { rewrite (proc_call _ s1 g n _ Cu Pf Fp eq_refl). cbn [counting e_proc tick io_env]. rewrite P1, Eb. fold s1'.
    rewrite (do_actions_cat _ pre [ASetState x] _ (set_state S_PROCESS_START s2)); [reflexivity|]. rewrite (silent_state pre _ s1' Sp), (silent_ops _ _ _ _ Sp E). reflexivity. }
  assert (B2 : bufs_ok (set_state x s2)) by (unfold bufs_ok in *; cbn [o_desc inb outb set_state]; rewrite D2, I2, U2; exact B).
  assert (W2 : cwd_is (set_state x s2) (show cwd')) by (apply (cwd_show own _ (snd (spec_ops (tree_calls pre) w1))); [exact (knows_core own s2 (set_state x s2) _ eq_refl K2)|exact Wc']).
  set (E2 := counting e b (lg s2)).
  assert (Q : exists s', quiet E2 (set_state x s2) s' /\ editing 0 [] s' /\ core s' = core (set_state x s2) /\ bufs_ok s' /\
    lg s' = lg s2 ++ map EvOut (match x with S_RESET => crlf | _ => [] end ++ prompt d (show cwd'))).
  { assert (Dx : o_desc (set_state x s2) = d) by (cbn [o_desc set_state]; rewrite D2; change (o_desc s1') with (o_desc s1); congruence).
    destruct Hx as [->| ->].
    - destruct (quiet_reset E2 (set_state S_RESET s2) (show cwd') eq_refl W2 B2) as (s' & ? & ? & ? & ? & Ls). rewrite Dx in Ls. exists s'. auto.
    - destruct (quiet_reset_prompt E2 (set_state S_RESET_PROMPT s2) (show cwd') eq_refl W2 B2) as (s' & ? & ? & ? & ? & Ls). rewrite Dx in Ls. exists s'. auto. }
  destruct Q as (s' & Q & Ed & K' & B' & L'). exists s'.
  split; [|split; [exact Ed|split; [exact B'|split; [apply (knows_core own (set_state x s2)); [exact K'|exact (knows_core own s2 (set_state x s2) _ eq_refl K2)]|split]]]].
  - apply Tc. apply Q1. eapply quiet_by_step; [apply proc_not_polling|exact Sv|].
    apply quiet_counting; [exact Q|]. rewrite L', procs_app, procs_outs. apply Nat.add_0_r.
  - rewrite (core_desc _ _ K'). cbn [o_desc set_state]. rewrite D2. change (o_desc s1') with (o_desc s1). congruence.
  - rewrite L', L2. change (lg s1') with (lg s1 ++ [EvProc n (f_name g)]). rewrite L1, L. replace (S m) with (m + 1) by lia. rewrite repeat_app. cbn [repeat].
    rewrite <- ?app_assoc. cbn [app]. rewrite <- ?app_assoc. cbn [app]. rewrite <- ?app_assoc. reflexivity.
Qed.
