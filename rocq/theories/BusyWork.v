(** * BusyWork: commands that meet a changing tree are never stuck. *)
From Coq Require Import Arith.
From Verif Require Import Types Shell Words BaseFacts LogFacts Sched ServiceFacts SchedFacts Macro Editor EditFacts PromptFacts SchedProofs ExecFacts PathFacts CollapseFacts Line Spec Cmds CmdFacts Tree TreeFacts TreeFind TreeOps TreeProofs GetProofs PrintfFacts ReconfProofs CmdProofs Session SessionProofs Interrupt StepFacts InterruptProofs Busy BusyFacts BusyTrack BusyTab.

(** ** After the calls of a callback *)
Lemma speaks_wout : forall s buf t, speaks s s buf t -> wout s.
Proof. intros s buf t (_ & _ & _ & _ & H & _) Wb. destruct buf as [(full, p)|]; [eauto|contradiction]. Qed.
Lemma speaks_track : forall own W w held s buf t, speaks s s buf t -> track own W w held 8 s /\ phase (at_state s) = 1.
Proof.
  intros own W w held s buf t H. pose proof (speaks_wout _ _ _ H) as Wo. destruct H as (_ & _ & _ & _ & _ & [(St & _)|[(Pe & Nx)|(t0 & _ & Pe & Nx)]]).
  - split; [|unfold at_state; rewrite St; reflexivity]. split; [exact Wo|]. split; [congruence|]. unfold at_state. rewrite St. cbn [ready]. lia.
  - pose proof Pe as (St & _). split; [|unfold at_state; rewrite St, Nx; reflexivity]. split; [exact Wo|]. split; [intros _; eauto|]. unfold at_state. rewrite St, Nx. cbn [ready]. lia.
  - pose proof Pe as (St & _). split; [|unfold at_state; rewrite St, Nx; reflexivity]. split; [exact Wo|]. split; [intros _; eauto|]. unfold at_state. rewrite St, Nx. cbn [ready]. lia.
Qed.
Lemma speaks_self : forall s0 s buf t, speaks s0 s buf t -> speaks s s buf t.
Proof. intros s0 s buf t (_ & _ & _ & _ & H). repeat split; try apply H; reflexivity. Qed.
Lemma speaks_emit : forall ev s buf t, speaks s s buf t -> speaks (emit ev s) (emit ev s) buf t.
Proof. intros ev s buf t (_ & _ & _ & _ & H). repeat split; apply H. Qed.
Lemma only_tree_ex : forall own s s', only_tree own s s' -> exists a b c d, s' = set_cur a (set_cmds b (set_root c (set_hp d s))).
Proof. intros own s s' (E & _). eauto. Qed.
Lemma speaks_tree : forall own s s' buf t, only_tree own s s' -> speaks s s buf t -> speaks s' s' buf t.
Proof. intros own s s' buf t O (_ & _ & _ & _ & H). apply only_tree_ex in O as (a & b & c & d & ->). repeat split; apply H. Qed.
Lemma pending_inb : forall s t b, pending s t -> length b = length (inb s) -> exists t', pending (set_inb b s) t'.
Proof.
  intros s t b (P1 & P2 & P3) L. destruct (o_wbuf s) as [[off| |u]|] eqn:Wb.
  - exists (map (fun j => nth (off + (o_wpos s + j)) b NUL) (seq 0 (length t))). split; [exact P1|]. rewrite map_length, seq_length. split; [exact P2|].
    intros j c E. cbn [o_wpos set_inb]. assert (Lj : j < length t) by (apply nth_error_Some; rewrite nth_error_map in E; destruct (nth_error (seq 0 (length t)) j) eqn:X; [|discriminate]; assert (j < length (seq 0 (length t))) by (apply nth_error_Some; congruence); rewrite seq_length in *; apply nth_error_Some; assumption).
    rewrite nth_error_map, (nth_error_nth' _ 0), seq_nth in E by (rewrite ?seq_length; exact Lj). cbn [option_map Nat.add] in E. injection E as <-.
    assert (X : exists c0, nth_error t j = Some c0) by (destruct (nth_error t j) eqn:X; [eauto|apply nth_error_None in X; lia]). destruct X as (c0 & X). apply P3 in X.
    unfold wbuf_rd in *. cbn [o_wbuf set_inb inb]. rewrite Wb in *. unfold rd in X |- *. destruct (nth_error (inb s) _) eqn:Y; [|discriminate]. rewrite (nth_error_nth' _ NUL); [reflexivity|]. rewrite L. apply nth_error_Some. congruence.
  - exists t. split; [exact P1|]. split; [exact P2|]. intros j c E. apply P3 in E. unfold wbuf_rd in *. cbn [o_wbuf set_inb outb]. rewrite Wb in *. exact E.
  - exists t. split; [exact P1|]. split; [exact P2|]. intros j c E. apply P3 in E. unfold wbuf_rd in *. cbn [o_wbuf set_inb outb]. rewrite Wb in *. exact E.
  - exists t. split; [exact P1|]. split; [exact P2|]. intros j c E. apply P3 in E. unfold wbuf_rd in *. cbn [o_wbuf set_inb outb]. rewrite Wb in *. discriminate E.
Qed.
Lemma speaks_inb : forall s buf t b, speaks s s buf t -> length b = length (inb s) -> exists t', speaks (set_inb b s) (set_inb b s) buf t'.
Proof.
  intros s buf t b (_ & _ & _ & _ & H & [(St & E)|[(Pe & Nx)|(t0 & E & Pe & Nx)]]) L.
  - exists []. repeat split; [exact H|left; auto].
  - destruct (pending_inb _ _ _ Pe L) as (t' & P'). exists t'. do 4 (split; [reflexivity|]). split; [exact H|]. right. left. auto.
  - destruct (pending_inb _ _ _ Pe L) as (t' & P'). exists (t' ++ crlf). do 4 (split; [reflexivity|]). split; [exact H|]. right. right. eauto.
Qed.
Lemma goes_w : forall own x W w s w' s' evs, goes own x W w s w' s' -> lg s' = lg s ++ evs -> w' = snd (spec_ops (deeds x (lg s) evs) w).
Proof. intros own x W w s w' s' evs (ev2 & L & -> & _) E. rewrite E in L. apply app_inv_head in L as ->. reflexivity. Qed.

(** ** A command is called *)
Lemma status_total : forall own W w held A x s, 8 <= A -> track own W w held A (ush_print_status x s) /\ phase (at_state (ush_print_status x s)) = 1.
Proof. intros own W w held A x s L. split; [apply track_str; [discriminate|exact L]|reflexivity]. Qed.
Lemma str_total : forall own W w held n t s, n = S_RESET \/ n = S_RESET_PROMPT -> track own W w held 8 (write_str t n s) /\ phase (at_state (write_str t n s)) = 1.
Proof. intros own W w held n t s [-> | ->]; (split; [apply track_str; [discriminate|cbn [ready]; lia]|reflexivity]). Qed.
Lemma chain_head : forall h p ids, chain h p ids -> p = hd_error ids.
Proof. intros h p [|i r] C; [exact C|exact (proj1 C)]. Qed.

Lemma call_exec_total : forall own x W w held s args argv f n cb buf t e, ample own x W -> on_course own x W w s -> outside s -> speaks s s buf t -> e = app_of x (lg s) ->
  ush_parse_get_args s = Ok args -> arg_values (inb s) args = Ok argv -> length argv = o_argc s ->
  length (buf_text buf) <= 2 + length (formatted (hook_calls e (x_desc x) argv)) ->
  denotes w n = Some f -> f_exec f = Some cb ->
  exists s', call_exec e cb f args argv s = Ok s' /\
    forall w', goes own x W w s w' s' -> exists A', track own W w' (used_ids w' ++ held) A' s' /\ phase (at_state s') = 1.
Proof.
  intros own x W w held s args argv f n cb buf t e Am C O Sp -> Ga Av La Lb De Fx. pose proof C as (K & Wc & Ww & B & Ds & _).
  assert (Sw : short_words x argv). { unfold short_words. rewrite <- Ds, <- (proj1 B). exact (arg_values_short _ _ _ Av). }
  destruct (Am w Ww) as (Sk & Pm & Ph & Os & Ls & Cd & Ae). destruct (Ae (ins (lg s))) as (Gt & Hk & Stt & Ex). clear Ae.
  change (x_app x (ins (lg s))) with (app_of x (lg s)) in *.
  assert (Ow : own_callback f cb) by (destruct (denotes_own _ _ _ _ _ Sk De Fx) as [(k & ->)|(_ & X)]; [exact I|exact X]). apply denotes_file in De as Ff.
  unfold call_exec. set (ev := EvExec cb (Some (f_name f)) argv). set (s0 := emit ev s).
  assert (C0 : on_course own x W w s0) by (apply on_course_emit; exact C). assert (Sp0 : speaks s0 s0 buf t) by (apply speaks_emit; exact Sp).
  assert (Wo0 : wout s0) by (eapply speaks_wout; exact Sp0). pose proof C0 as (K0 & _).
  assert (Lx : last_job (lg s0) = Some (Runs cb)) by (unfold s0; cbn [lg emit set_lg]; apply last_job_exec).
  assert (Fnd : forall v, In v argv -> ush_file_find_by_name v s0 = Ok (denotes w v)).
  { intros v I. destruct (words_nth x argv v Sw I) as (Nv & Lv). eapply ample_find; eauto. }
  assert (Status : forall st s1, exists s', Ok (ush_print_status st s1) = Ok s' /\ forall w', goes own x W w s w' s' -> exists A', track own W w' (used_ids w' ++ held) A' s' /\ phase (at_state s') = 1).
  { intros st s1. eexists. split; [reflexivity|]. intros w' _. exists 8. apply status_total. lia. }
  assert (Str : forall u nx s1, nx = S_RESET \/ nx = S_RESET_PROMPT -> exists s', Ok (write_str u nx s1) = Ok s' /\ forall w', goes own x W w s w' s' -> exists A', track own W w' (used_ids w' ++ held) A' s' /\ phase (at_state s') = 1).
  { intros u nx s1 N. eexists. split; [reflexivity|]. intros w' _. exists 8. apply str_total. exact N. }
  assert (Same : forall s1 w', goes own x W w s w' s1 -> lg s1 = lg s ++ [ev] -> deed (app_of x (lg s)) ev = [] -> w' = w).
  { intros s1 w' G L D. rewrite (goes_w _ _ _ _ _ _ _ _ G L). cbn [deeds]. rewrite D. reflexivity. }
  assert (Start : forall g p s1 w', o_wbuf s1 = o_wbuf s0 -> outb s1 = outb s0 -> o_wpos s1 = o_wpos s0 -> o_wsize s1 = o_wsize s0 -> o_desc s1 = o_desc s0 -> 
     f_proc g = Some p -> (forall A, work_ready own w' (used_ids w' ++ held) (last_job (lg s1)) S_PROCESS_START (ush_process_start g s1) A -> 
        track own W w' (used_ids w' ++ held) A (ush_process_start g s1) /\ phase (at_state (ush_process_start g s1)) = 1)).
  { intros g p s1 w' E1 E2 E3 E4 E5 Fp A R. split; [|reflexivity]. split.
    - intros Wb. cbn in Wb. rewrite E1 in Wb. destruct (Wo0 Wb) as (full & q & Ho). exists full, q. unfold holds in *. cbn. rewrite E1, E2, E3, E4, E5. exact Ho.
    - split; [discriminate|]. exact R. }
  destruct cb as [| | | | | | |k]; cbn [own_callback] in Ow; try subst f.
  - unfold help_callback. destruct argv as [|a0 [|a1 [|? ?]]]; try apply Status.
    + eexists. split; [reflexivity|]. intros w' G.
      assert (Go : exists A, work_ready own w' (used_ids w' ++ held) (last_job (lg (set_pitem 0 (set_pidx 0 (set_pnode (o_cmds s0) s0))))) S_PROCESS_START (ush_process_start cmd_help (set_pitem 0 (set_pidx 0 (set_pnode (o_cmds s0) s0)))) A).
      { destruct G as (? & _ & _ & (K' & _ & W' & _ & Ds' & _)). destruct (Am w' W') as (_ & _ & _ & _ & Ls' & _). rewrite <- Ds' in Ls'. set (s1 := ush_process_start cmd_help _) in *.
        pose proof (gs_web own s1 w' _ K' Ls') as Wb. destruct K' as (_ & (_ & Ch & _) & _). apply chain_head in Ch. change (o_cmds s1) with (o_cmds s0) in Ch.
        destruct (map fst (w_groups w')) as [|i r] eqn:Eg.
        - exists 8. exists cmd_help, PHelp. split; [reflexivity|]. split; [reflexivity|]. split; [exact Lx|]. split; [reflexivity|]. exists []. rewrite Eg. split; [exact I|]. split; [apply incl_refl|]. split; [intros ? []|].
          change (o_pnode s1) with (o_cmds s0). rewrite Ch. cbn [hd_error]. lia.
        - pose proof Wb as ((nd & En & _) & _). exists (9 + cost (hp s1) r + 3 * length (n_files nd) + 2). exists cmd_help, PHelp. split; [reflexivity|]. split; [reflexivity|]. split; [exact Lx|]. split; [reflexivity|].
          exists (i :: r). rewrite Eg. split; [exact Wb|]. split; [apply incl_refl|]. split; [intros j Ij; apply in_or_app; left; apply in_or_app; right; rewrite Eg; exact Ij|].
          change (o_pnode s1) with (o_cmds s0). rewrite Ch. cbn [hd_error]. exists [], r, nd. split; [reflexivity|]. split; [exact En|]. split; [cbn; lia|]. split; [discriminate|].
          change (o_pitem s1) with 0. change (o_pidx s1) with 0. lia. }
      destruct Go as (A & Go). exists A. eapply Start; try exact Go; reflexivity.
    + rewrite Fnd by (right; left; reflexivity). cbn [bind]. destruct (denotes w a1) as [g|]; [|apply Status]. destruct (f_help g) as [u|]; [|apply Status]. apply Str. auto.
  - assert (LsStart : forall i s1, o_pnode s1 = Some i -> core s1 = core s0 -> lg s1 = lg s0 -> o_wbuf s1 = o_wbuf s0 -> outb s1 = outb s0 -> o_wpos s1 = o_wpos s0 -> o_wsize s1 = o_wsize s0 -> In i (map de_node (w_fs w)) ->
       exists s', Ok (ush_process_start cmd_ls s1) = Ok s' /\ forall w', goes own x W w s w' s' -> exists A', track own W w' (used_ids w' ++ held) A' s' /\ phase (at_state s') = 1).
    { intros i s1 E1 E2 E3 E4 E5 E6 E7 Ii. eexists. split; [reflexivity|]. intros w' G. assert (w' = w) as -> by (apply (Same _ _ G); [exact E3|reflexivity]).
      destruct G as (? & _ & _ & (K' & _ & _ & _ & Ds' & _)). set (s2 := ush_process_start cmd_ls s1) in *. 
      pose proof (fs_web own s2 w _ K' Ls) as Wb. rewrite <- Ds' in Wb. pose proof Ii as Ij. apply in_split in Ij as (G1 & G2 & Eg). pose proof Wb as Wb'. rewrite Eg in Wb'. destruct (web_in _ _ _ _ _ Wb') as (nd & En & _).
      eexists. eapply Start; [exact E4|exact E5|exact E6|exact E7|apply core_desc; exact E2|reflexivity|]. exists cmd_ls, PLs. split; [reflexivity|]. split; [reflexivity|]. split; [change (last_job (lg s1) = Some (Runs XLs)); rewrite E3; exact Lx|].
      exists (map de_node (w_fs w)), i, nd. split; [exact Wb|]. split; [apply incl_refl|]. split; [intros j Ij; apply in_or_app; left; apply in_or_app; left; exact Ij|].
      split; [intros j Ij; destruct K as (_ & _ & _ & U & _); apply U; left; exact Ij|]. split; [exact E1|]. split; [exact Ii|]. split; [exact En|]. cbv zeta. apply le_n. }
    unfold ls_callback. destruct argv as [|a0 [|a1 [|? ?]]]; try apply Status.
    + destruct (w_cwd w) as [cwd|] eqn:Ec; [|congruence]. pose proof K as (_ & _ & _ & _ & _ & Cu). rewrite Ec in Cu. destruct Cu as (d & D & Cu). apply dir_at_some in D as (Id & _).
      apply (LsStart (de_node d) (set_pnode (o_cur s0) s0)); try reflexivity; [exact Cu|apply in_map, Id].
    + destruct (words_nth x _ a1 Sw (or_intror (or_introl eq_refl))) as (N1 & L1). change (o_desc s0) with (o_desc s). 
      destruct (abs_path_world own s0 w a1 K0 N1) as (P & _ & Kh); [intros X; congruence|]. change (o_desc s0) with (o_desc s) in P.
      rewrite P by (rewrite Ds; pose proof (full_text_short (here w) a1); lia). cbn [bind].
      rewrite (get_by_path_text (hp s0) (o_root s0) (w_fs w)).
      2:{ apply K0. } 2:{ apply resolve_text_no_nul; auto. } 2:{ rewrite Ds. pose proof (resolve_text_length (here w) a1). pose proof (full_text_short (here w) a1). lia. }
      cbn [bind]. destruct (dir_named _ _) as [d|] eqn:Dn; cbn [option_map]; [|apply Status]. apply dir_named_in in Dn.
      apply (LsStart (de_node d) (set_pnode (Some (de_node d)) s0)); try reflexivity. apply in_map, Dn.
  - unfold cd_callback. destruct argv as [|a0 [|p [|? ?]]]; try apply Status.
    destruct (words_nth x [a0; p] p Sw (or_intror (or_introl eq_refl))) as (Np & Lp).
    assert (Al : allowed (d_pathmax (o_desc s0)) own w (TChdir p)).
    { split; [exact Np|]. split; [|intros X; congruence]. change (o_desc s0) with (o_desc s). rewrite Ds. pose proof (full_text_short (here w) p). lia. }
    destruct (op_step own _ _ w K0 Al) as (s1 & X1 & _ & O1). cbn [do_op] in X1. rewrite X1. cbn [bind]. destruct (fst (spec_op (TChdir p) w)); try apply Status.
    exists s1. split; [reflexivity|]. intros w' _. exists 8. eapply speaks_track. eapply speaks_tree; [exact O1|exact Sp0].
  - unfold pwd_callback. destruct argv as [|a0 [|a1 ?]]; try apply Status. destruct (w_cwd w) as [cwd|] eqn:Ec; [|congruence]. destruct (cwd_show _ _ _ _ K0 Ec) as (nd & Hn & Hp). rewrite Hn. cbn [bind].
    unfold path_of. rewrite Hp. cbn [bind]. unfold ush_print, ush_write_pointer. cbn [wptr_strlen bind]. apply Str. auto.
  - unfold cat_callback. destruct (length argv <? 2) eqn:L2; [apply Status|]. apply Nat.ltb_ge in L2.
    assert (Fn : forall v, In v (tl argv) -> ush_file_find_by_name v s0 = Ok (denotes w v)) by (intros v I; apply Fnd; destruct argv; [exact I|right; exact I]).
    destruct (first_unreadable w (tl argv)) as [st|] eqn:Fu.
    + destruct (unreadable_split _ _ _ Fu) as (pre & bad & post & Ea & Fp & M). rewrite Ea in Fn. rewrite Ea, (cat_check_bad pre bad post s0 (denotes w) st Fp Fn M). cbn [bind]. apply Status.
    + rewrite (cat_check_ok (tl argv) s0 (denotes w) (all_readable _ _ Fu) Fn). cbn [bind]. eexists. split; [reflexivity|]. intros w' G. assert (w' = w) as -> by (apply (Same _ _ G); reflexivity).
      exists (12 + o_argc s). eapply Start; try reflexivity. exists cmd_cat, PCat. split; [reflexivity|]. split; [reflexivity|]. split; [exact Lx|]. exists args, argv. split; [exact Ga|]. split; [exact Av|]. split; [exact La|].
      split; [apply first_readable; exact Fu|]. apply le_n.
  - unfold xxd_callback. destruct argv as [|a0 [|nm [|? ?]]]; try apply Status. rewrite Fnd by (right; left; reflexivity). cbn [bind]. destruct (denotes w nm) as [g|] eqn:Dg; [|apply Status].
    apply denotes_file in Dg. destruct (f_get g) as [cb|] eqn:Gg; [|apply Status]. destruct (Gt g cb [] Dg Gg) as ((extra & calls & Dl) & Du & Co & (_ & _ & A1 & _) & _).
    unfold call_get. set (s1 := emit (EvGet cb (f_name g)) s0). assert (K1 : knows own s1 w) by (eapply knows_ext; [..|exact K]; reflexivity).
    rewrite <- Ds in A1. destruct (tree_only_calls own _ s1 w Co K1 A1) as (s2 & E2 & _ & O2). rewrite E2. cbn [bind]. set (d := data_of _ _ _) in *. rewrite Dl. cbn [g_ptr g_size].
    eexists. split; [reflexivity|]. intros w' _. exists (14 + 4 * S (length d)). apply only_tree_ex in O2 as (y1 & y2 & y3 & y4 & ->).
    eapply Start; try reflexivity. exists cmd_xxd, PXxd. split; [reflexivity|]. split; [reflexivity|]. exists d, extra. split; [reflexivity|]. split; [reflexivity|]. split; [|apply le_n].
    cbn. rewrite Ds. exact Du.
  - unfold echo_callback. destruct argv as [|a0 [|tx [|op [|nm [|? ?]]]]]; try apply Status.
    + exists (set_state S_RESET s0). split; [reflexivity|]. intros w' _. exists 8. split; [|reflexivity]. apply track_state; [exact Wo0|discriminate|]. cbn [ready]. lia.
    + destruct (arg_values_nth _ _ _ 1 tx Av eq_refl) as (off & R1 & R2). rewrite R1. cbn [bind]. change (inb s0) with (inb s). destruct (echo_decoded _ _ _ R2) as (y & r & Eb & Ly & Nt & Sl & Dc). rewrite Sl. cbn [bind]. rewrite Dc. cbn [bind].
      set (b := y ++ _). destruct (c_str_ok b off) as (u & Eu).
      { unfold b. rewrite <- Ly, skipn_app, skipn_all, Nat.sub_diag. cbn [skipn app]. apply in_or_app. right. apply in_or_app. right. left. reflexivity. }
      unfold ush_print. rewrite (wp_eq (WIn off) S_RESET (set_inb b s0) u Eu). eexists. split; [reflexivity|]. intros w' _. exists 8. split; [|reflexivity].
      split; [intros X; discriminate X|]. split; [intros _; exists u; apply pending_wpb; apply points_str; exact Eu|]. cbn [ready]. cbn. lia.
    + destruct (negb _); [apply Status|]. rewrite Fnd by (cbn; auto). cbn [bind]. destruct (denotes w nm) as [g|] eqn:Dg; [|apply Status].
      apply denotes_file in Dg. destruct (f_set g) as [cb|] eqn:Gg; [|apply Status].
      destruct (arg_values_nth _ _ _ 1 tx Av eq_refl) as (off & R1 & R2). rewrite R1. cbn [bind]. change (inb s0) with (inb s). destruct (echo_decoded _ _ _ R2) as (y & r & Eb & Ly & Nt & Sl & Dc). rewrite Sl. cbn [bind]. rewrite Dc. cbn [bind].
      pose proof (decode_ascii_length _ _ _ _ _ _ Dc) as Lb'. set (b := y ++ decode tx ++ _) in *. set (data := firstn _ (skipn off b)).
      destruct (Stt g cb [a0; tx; op; nm] data Dg Gg) as (Hp & (P1 & P2 & P3 & _) & _).
      destruct (speaks_inb s0 buf t b Sp0 Lb') as (t' & Sp1). set (s1 := emit (EvSet cb (f_name g) data) (set_inb b s0)).
      assert (Sp2 : speaks s1 s1 buf t') by (apply speaks_emit; exact Sp1). assert (K1 : knows own s1 w) by (eapply knows_ext; [..|exact K]; reflexivity).
      assert (B1 : bufs_ok s1) by (destruct B as (X1 & X2 & X3 & X4); split; [cbn; congruence|auto]).
      destruct (mixed_speak own [] [] (e_set (app_of x (lg s)) cb (f_name g) data) s1 w buf t' Sp2 B1 eq_refl P1) as (s2 & buf2 & E2 & Sp3 & _).
      * change (o_desc s1) with (o_desc s). rewrite Ds. destruct P2 as [P2|P2]; [left; exact P2|right]. unfold formatted in *. rewrite flat_map_app, app_length in P2. lia.
      * exact K1.
      * change (o_desc s1) with (o_desc s). rewrite Ds. exact P3.
      * exists s2. split; [exact E2|]. intros w' _. exists 8. eapply speaks_track; exact Sp3.
  - destruct (Ex f k argv Ff Fx) as ((P1 & P2 & P3 & _) & _).
    destruct (mixed_speak own args argv (e_exec (app_of x (lg s)) k (Some (f_name f)) argv) s0 w buf t Sp0 B Av P1) as (s2 & buf2 & E2 & Sp3 & _).
    + change (o_desc s0) with (o_desc s). rewrite Ds. destruct P2 as [P2|P2]; [left; exact P2|right]. unfold formatted in *. rewrite flat_map_app, app_length in P2. lia.
    + exact K0.
    + change (o_desc s0) with (o_desc s). rewrite Ds. exact P3.
    + exists s2. split; [exact E2|]. intros w' _. exists 8. eapply speaks_track; exact Sp3.
Qed.

Lemma goes_det : forall own x W w s w1 w2 s', goes own x W w s w1 s' -> goes own x W w s w2 s' -> w1 = w2.
Proof. intros own x W w s w1 w2 s' (evs & L & -> & _) G. symmetry. eapply goes_w; eauto. Qed.
Lemma print_argc : forall ws args l s s', Forall (printing_call ws) l -> do_actions args l s = Ok s' -> o_argc s' = o_argc s.
Proof.
  intros ws args l s s' F. revert s. induction F as [|a l P F IH]; intros s H; cbn [do_actions] in H; [oks; reflexivity|]. ok1. rewrite (IH _ H). clear H IH F.
  destruct a; cbn [printing_call] in P; try contradiction; cbn [do_action] in E; try solve [oks2; lens; reflexivity].
  unfold ush_printf in E. ok1. assert (A : o_argc a = o_argc s).
  { clear E. destruct (o_wbuf s) as [[]|]; oks; try (apply wp_shape in E0 as (k & ->)); reflexivity. }
  clear E0. rewrite <- A. unfold c_vsnprintf in E. oks2; lens; reflexivity.
Qed.

Lemma finish_total : forall own x W w held s, ample own x W -> on_course own x W w s -> o_state s = S_RESET_PROMPT -> echoed s -> o_argc s <= nuls (inb s) ->
  exists s', ush_parse_finish (app_of x (lg s)) s = Ok s' /\
    forall w', goes own x W w s w' s' -> exists A', track own W w' (used_ids w' ++ held) A' s' /\ phase (at_state s') = 1.
Proof.
  intros own x W w held s Am C St (full & p & Ho & Lf) Na. pose proof C as (K & Wc & Ww & B & Ds & _). assert (O : outside s) by (apply outside_state; rewrite St; reflexivity || discriminate).
  destruct (args_ok (o_argc s) (inb s) 0 Na) as (args & ws & G1 & G2 & G3). unfold ush_parse_finish, ush_parse_get_args. rewrite G1. cbn [bind]. rewrite G2. cbn [bind].
  assert (Sp : speaks s s (Some (full, p)) []) by (do 4 (split; [reflexivity|]); split; [exact Ho|left; auto]).
  destruct ws as [|name rest]; [exists s; split; [reflexivity|]; intros w' _; exists 8; eapply speaks_track; exact Sp|].
  destruct (Am w Ww) as (_ & _ & _ & _ & _ & _ & Ae). destruct (Ae (ins (lg s))) as (_ & Hk & _ & _). clear Ae.
  destruct (Hk (name :: rest)) as ((Hp & Hr & Ha & Hc) & Hw). unfold after_hook in Hw. cbn [app] in Hr. change (x_app x (ins (lg s))) with (app_of x (lg s)) in *.
  assert (H1 : exists s1 buf t, (match d_exec (o_desc s) with None => Ok s | Some cb => do_actions args (e_exec (app_of x (lg s)) cb None (name :: rest)) (emit (EvExec (XUser cb) None (name :: rest)) s) end) = Ok s1 /\
     speaks s1 s1 buf t /\ length (buf_text buf) <= 2 + length (formatted (hook_calls (app_of x (lg s)) (x_desc x) (name :: rest))) /\ inb s1 = inb s /\ o_argc s1 = o_argc s /\
     (exists w1, goes own x W w s w1 s1) /\ outside s1 /\ app_of x (lg s1) = app_of x (lg s)).
  { unfold hook_calls in *. rewrite <- Ds in *. destruct (d_exec (o_desc s)) as [k|].
    - set (s0 := emit (EvExec (XUser k) None (name :: rest)) s). assert (Sp0 : speaks s0 s0 (Some (full, p)) []) by (apply speaks_emit; exact Sp).
      assert (K0 : knows own s0 w) by (eapply knows_ext; [..|exact K]; reflexivity).
      destruct (mixed_speaks own args (name :: rest) (e_exec (app_of x (lg s)) k None (name :: rest)) s0 w _ _ Sp0 B G2 Hp) as (s1 & buf & E1 & Sp1 & _ & _ & Ei & _ & L & Lb & _ & Ar & _); auto.
      { change (o_desc s0) with (o_desc s). cbn [buf_text]. unfold room_for in Hr. destruct Hr as [Hr|Hr]; [left; exact Hr|right; lia]. }
      exists s1, buf. eexists. split; [exact E1|]. split; [exact Sp1|]. cbn [buf_text] in Lb. split; [lia|].
      split; [exact Ei|]. split; [exact Ar|]. rewrite Ds in Ha.
      destruct (goes_calls own x W w s args (name :: rest) (EvExec (XUser k) None (name :: rest)) _ s1 C eq_refl Hp Ha Hc Hw E1) as (w1 & G & _ & S1).
      split; [exists w1; exact G|]. split; [eapply steady_outside; eauto|].
      unfold app_of. rewrite L. cbn [s0 emit lg set_lg]. unfold ins. rewrite flat_map_app. cbn [flat_map]. rewrite app_nil_r. reflexivity.
    - exists s, (Some (full, p)), []. split; [reflexivity|]. split; [exact Sp|]. split; [cbn; lia|]. split; [reflexivity|]. split; [reflexivity|]. split; [exists w; apply goes_refl; exact C|auto]. }
  destruct H1 as (s1 & buf & t & E1 & Sp1 & Lb & Ei & Ea & (w1 & Go) & O1 & Eapp). rewrite E1. cbn [bind]. pose proof Go as (? & _ & _ & C1).
  assert (Sw : short_words x (name :: rest)). { unfold short_words. rewrite <- Ds, <- (proj1 B). exact (arg_values_short _ _ _ G2). }
  destruct (words_nth x _ name Sw (or_introl eq_refl)) as (Nn & Ln). rewrite (ample_find own x W w1 s1 name Am C1 Nn Ln). cbn [bind].
  destruct (denotes w1 name) as [f|] eqn:De; [|eexists; split; [reflexivity|]; intros w' _; exists 8; apply status_total; lia].
  destruct (f_exec f) as [cb|] eqn:Fx; [|eexists; split; [reflexivity|]; intros w' _; exists 8; apply status_total; lia].
  destruct (call_exec_total own x W w1 held s1 args (name :: rest) f name cb buf t _ Am C1 O1 Sp1 eq_refl) as (s' & E & T); auto.
  - unfold ush_parse_get_args. rewrite Ea, Ei. exact G1.
  - rewrite Ei. exact G2.
  - rewrite Ea. exact G3.
  - rewrite Eapp. exact Lb.
  - rewrite Eapp in E. exists s'. split; [exact E|]. intros w' G. rewrite <- Eapp in E. destruct (call_exec_goes own x W w1 s1 args (name :: rest) f name cb s' Am C1 O1 De Fx Sw E) as (w2 & G4).
    assert (w' = w2) as -> by (eapply goes_det; [exact G|exact (goes_trans _ _ _ _ _ _ _ _ _ Go G4)]). apply T, G4.
Qed.

(** ** Taking a line apart, to its end *)
Lemma nuls_firstn : forall n l, nuls (firstn n l) <= nuls l.
Proof. intros n l. rewrite <- (firstn_skipn n l) at 2. rewrite nuls_app. lia. Qed.
Definition parse_state (n : fsm) : Prop := match n with S_PARSE_PREPARE | S_PARSE_SEARCH_ARG | S_PARSE_QUOTE_ARG | S_PARSE_STANDARD_ARG => True | _ => False end.
Lemma parse_total : forall own x W w held A i s, ample own x W -> on_course own x W w s -> track own W w held A s -> io_env i = app_of x (lg s) -> parse_state (o_state s) ->
  exists s', svc i s = Ok (true, s') /\ forall w', goes own x W w s w' s' -> stepped own W w' (used_ids w' ++ held) A s s'.
Proof.
  intros own x W w held A i s Am C T Ei Ps.
  assert (Held : forall s' , stepped own W w held A s s' -> lg s' = lg s -> forall w', goes own x W w s w' s' -> stepped own W w' (used_ids w' ++ held) A s s').
  { intros s' (A' & T' & L) Lg w' G. assert (w' = w) as -> by (rewrite (goes_w _ _ _ _ _ _ _ [] G); [reflexivity|rewrite app_nil_r; exact Lg]).
    exists A'. split; [|exact L]. eapply track_held; [|exact T']. apply incl_appr, incl_refl. }
  assert (Q : forall n, o_state s = n -> parsing_state n -> exists s', ush_parse_char (io_env i) s = Ok s' /\ forall w', goes own x W w s w' s' -> stepped own W w' (used_ids w' ++ held) A s s').
  { intros n St Pn. assert (Nn : n <> S_WRITE_CHAR) by (destruct Pn as [->|[->| ->]]; discriminate).
    destruct (track_at _ _ _ _ _ _ _ T St Nn) as (Wo & R). assert (R' : echoed s /\ parse_ready n s A) by (destruct Pn as [->|[->| ->]]; exact R). clear R. destruct R' as (Ech & e & Le & Ie & Oi & Ac & Ae).
    pose proof (line_end_lt _ _ Le) as Lb. assert (Pas : phase (at_state s) = 2) by (rewrite (at_eq s n St Nn); destruct Pn as [->|[->| ->]]; reflexivity).
    unfold ush_parse_char. rewrite Ei. destruct (nth_error (inb s) (o_inpos s)) as [ch|] eqn:Ec; [|apply nth_error_None in Ec; lia].
    unfold rd. rewrite Ec. cbn [bind]. destruct (ceq ch LF || ceq ch CR) eqn:El.
    - rewrite out_char_ok by (cbn; lia). cbn [bind]. set (s1 := set_state S_RESET_PROMPT _). 
      assert (O1 : outside s1) by (apply outside_state; cbn; reflexivity || discriminate).
      assert (G1 : goes own x W w s w s1). { apply goes_still; [exact C| |apply logs_refl; reflexivity|left; exact O1]. repeat split. cbn. apply upd_length. }
      pose proof G1 as (? & _ & _ & C1). assert (Ech1 : echoed s1) by exact Ech.
      destruct (finish_total own x W w held s1 Am C1 eq_refl Ech1) as (s' & E & F).
      { change (o_argc s <= nuls (upd (inb s) (o_outpos s) NUL)). eapply Nat.le_trans; [|apply (nuls_firstn (S (o_outpos s)))]. rewrite firstn_upd by lia. rewrite nuls_app. change (nuls [NUL]) with 1.
        assert (X : match n with S_PARSE_SEARCH_ARG => 0 | _ => 1 end <= 1) by (destruct n; cbn; lia). cbn. lia. }
      exists s'. split; [exact E|]. intros w' G. destruct (finish_goes own x W w s1 s' Am C1 O1 E) as (w2 & G2). assert (w' = w2) as -> by (eapply goes_det; [exact G|exact (goes_trans _ _ _ _ _ _ _ _ _ G1 G2)]).
      destruct (F w2 G2) as (A' & T' & P'). exists A'. split; [exact T'|]. split; [left|]; lia.
    - assert (Ne : o_inpos s <> e). { intros X. rewrite X in Ec. destruct Le as [Le|Le]; rewrite Le in Ec; injection Ec as <-; discriminate El. }
      rewrite <- St in *. destruct (std_total ch s e A Pn Le ltac:(lia) Oi Ac Ae) as (s' & E & P' & R' & (Po1 & Po2 & Po3 & Po4 & Po5)). exists s'. split; [exact E|]. apply Held; [|exact Po3].
      assert (Nw : o_state s' <> S_WRITE_CHAR) by (destruct P' as [X|[X|X]]; rewrite X; discriminate).
      assert (Pas' : phase (at_state s') = 2) by (rewrite (at_eq s' _ eq_refl Nw); destruct P' as [X|[X|X]]; rewrite X; reflexivity).
      exists (A - 1). split; [|split; [right; split; [congruence|left; lia]|lia]]. split; [rewrite Po1; exact Wo|]. split; [intros X; contradiction|].
      rewrite (at_eq s' _ eq_refl Nw). rewrite <- Po2 in Ech. destruct P' as [X|[X|X]]; rewrite X in *; (split; [exact Ech|exact R']). }
  unfold svc. destruct (o_state s) eqn:St; try contradiction; unfold ush_parse_service; rewrite St.
  - eexists. split; [reflexivity|]. apply Held; [|reflexivity]. destruct (track_at _ _ _ _ _ _ _ T St ltac:(discriminate)) as (Wo & Ech & e & Le).
    exists (S e). split; [|split; [left|]; unfold at_state; rewrite St; cbn; lia]. split; [exact Wo|]. split; [discriminate|]. cbn. split; [exact Ech|]. exists e. split; [exact Le|]. cbn. split; [lia|]. split; [lia|]. split; [lia|]. lia.
  - destruct (Q _ eq_refl (or_introl eq_refl)) as (s' & E & F). rewrite E. cbn [bind]. eauto.
  - destruct (Q _ eq_refl (or_intror (or_introl eq_refl))) as (s' & E & F). rewrite E. cbn [bind]. eauto.
  - destruct (Q _ eq_refl (or_intror (or_intror eq_refl))) as (s' & E & F). rewrite E. cbn [bind]. eauto.
Qed.

(** ** A built-in command goes on *)
Lemma work_step : forall own W w held A s s', proc_phase (o_state s) = true -> phase (at_state s') = 1 -> 1 <= A -> track own W w held (A - 1) s' -> stepped own W w held A s s'.
Proof. intros own W w held A s s' P Q L T. apply stepped_dec; [|exact L|exact T]. rewrite Q. unfold at_state. destruct (o_state s); try discriminate P; reflexivity. Qed.
Lemma put_phase : forall t n s s', put_out t n s s' -> at_state s' = n.
Proof. intros t n s s' (b & -> & _). reflexivity. Qed.
Lemma cost_in : forall h X k Y nd, nth_error h k = Some nd -> 3 * length (n_files nd) + 3 + cost h Y <= cost h (X ++ k :: Y).
Proof. intros h X k Y nd E. induction X as [|i X IH]; cbn [app cost]; [unfold node_cost; rewrite E; lia|lia]. Qed.

Lemma help_total : forall own W w held A s f, bufs_ok s -> track own W w held A s -> o_state s = S_PROCESS_START -> o_pfile s = Some f -> f_proc f = Some PHelp ->
  exists s', help_service s = Ok s' /\ lg s' = lg s /\ stepped own W w held A s s'.
Proof.
  intros own W w held A s f B T St Pf Fp. destruct (track_at _ _ _ _ _ _ _ T St ltac:(discriminate)) as (Wo & R). destruct R as (f' & p & Pf' & Fp' & R). rewrite Pf in Pf'. injection Pf' as <-. rewrite Fp in Fp'. injection Fp' as <-.
  destruct R as (Lx & _ & G & Wb & Ig & Ih & R). unfold help_service. rewrite St.
  assert (P : proc_phase (o_state s) = true) by (rewrite St; reflexivity).
  destruct (o_pnode s) as [i|] eqn:Pn.
  2:{ eexists. split; [reflexivity|]. split; [reflexivity|]. apply work_step; [exact P|reflexivity|lia|]. apply track_state; [exact Wo|discriminate|]. cbn [ready]. lia. }
  destruct R as (G1 & G2 & nd & Eg & En & Pi & Pd & Le). unfold getn, rd. rewrite En. cbn [bind].
  assert (Hn : help_node (o_desc s) nd /\ (n_next nd = None \/ exists k, n_next nd = Some k /\ In k G2)).
  { rewrite Eg in Wb. destruct (web_in _ _ _ _ _ Wb) as (nd' & En' & H). rewrite En in En'. injection En' as <-. exact H. }
  destruct Hn as (Hn & Nx). unfold help_node in Hn.
  (* one more file, or its description *)
  assert (Rd : forall s1 pi, o_desc s1 = o_desc s -> hp s1 = hp s -> lg s1 = lg s -> o_pfile s1 = o_pfile s -> o_pnode s1 = Some i -> o_pidx s1 = pi -> pi <= 2 ->
     (pi = 1 -> forall f, nth_error (n_files nd) (o_pitem s1) = Some f -> f_desc f <> None) ->
     9 + cost (hp s) G2 + 3 * (length (n_files nd) - o_pitem s1) + (2 - pi) <= A - 1 -> forall Q, ready own W w held Q (last_job (lg s1)) S_PROCESS_START s1 (A - 1)).
  { intros s1 pi E1 E2 E3 E4 E5 E6 L1 D1 L2 Q. exists f, PHelp. rewrite E4. split; [exact Pf|]. split; [exact Fp|]. split; [rewrite E3; exact Lx|]. split; [reflexivity|]. exists G. rewrite E1, E2. split; [exact Wb|]. split; [exact Ig|]. split; [exact Ih|].
    rewrite E5. exists G1, G2, nd. split; [exact Eg|]. split; [exact En|]. rewrite E6. auto. }
  destruct (Nat.leb_spec (length (n_files nd)) (o_pitem s)) as [Ld|Ld].
  { eexists. split; [reflexivity|]. split; [reflexivity|]. apply work_step; [exact P|unfold at_state; cbn; rewrite St; reflexivity|lia|]. split; [exact Wo|]. split; [cbn; rewrite St; discriminate|].
    unfold at_state. cbn [o_state set_pnode set_pitem set_pidx]. rewrite St. exists f, PHelp. split; [exact Pf|]. split; [exact Fp|]. split; [exact Lx|]. split; [reflexivity|].
    exists G. split; [exact Wb|]. split; [exact Ig|]. split; [exact Ih|]. cbn [o_pnode set_pnode]. destruct Nx as [->|(k & -> & Ik)]; [lia|]. apply in_split in Ik as (X & Y & Ex). rewrite Eg, Ex in Wb.
    replace (G1 ++ i :: X ++ k :: Y) with ((G1 ++ i :: X) ++ k :: Y) in Wb by (rewrite <- app_assoc; reflexivity). destruct (web_in _ _ _ _ _ Wb) as (ndk & Ek & _).
    exists (G1 ++ i :: X), Y, ndk. split; [rewrite Eg, Ex, <- app_assoc; reflexivity|]. split; [exact Ek|]. cbn. split; [lia|]. split; [discriminate|]. pose proof (cost_in (hp s) X k Y ndk Ek) as Co. rewrite <- Ex in Co. lia. }
  destruct (nth_error (n_files nd) (o_pitem s)) as [g|] eqn:Ef; [|apply nth_error_None in Ef; lia]. cbn [bind].
  assert (Lg : listable (o_desc s) g) by (rewrite Forall_forall in Hn; apply Hn; eapply nth_error_In; exact Ef). destruct Lg as (Lr & Nn).
  destruct (o_pidx s) as [|[|[|k]]] eqn:Pi0; [| | |lia].
  - destruct (f_desc g) as [d|] eqn:Fd.
    + destruct (print_out_put (name_column (d_cfg (o_desc s)) (f_name g)) S_PROCESS_START (set_pidx 1 s) B) as (s' & E & Pt); [apply name_column_no_nul; exact Nn|erewrite name_column_length by exact Fd; exact Lr|].
      exists s'. split; [exact E|]. split; [destruct Pt as (b & -> & _); reflexivity|]. apply work_step; [exact P|rewrite (put_phase _ _ _ _ Pt); reflexivity|lia|].
      eapply track_out; [exact Pt|discriminate|]. apply (Rd _ 1); try reflexivity; [exact Pn|lia| |cbn; lia]. intros _ g' X. cbn in X. rewrite Ef in X. injection X as <-. congruence.
    + destruct (print_out_put (f_name g) S_PROCESS_START (set_pidx 2 s) B) as (s' & E & Pt); [exact Nn|unfold name_room in Lr; rewrite Fd in Lr; exact Lr|].
      exists s'. split; [exact E|]. split; [destruct Pt as (b & -> & _); reflexivity|]. apply work_step; [exact P|rewrite (put_phase _ _ _ _ Pt); reflexivity|lia|].
      eapply track_out; [exact Pt|discriminate|]. apply (Rd _ 2); try reflexivity; [exact Pn|discriminate|cbn; lia].
  - pose proof (Pd eq_refl g eq_refl) as Fd. destruct (f_desc g) as [d|]; [|congruence]. cbn [deref bind]. eexists. split; [reflexivity|]. split; [reflexivity|]. apply work_step; [exact P|reflexivity|lia|].
    apply (track_str own W w held (A - 1) d S_PROCESS_START (set_pidx 2 s)); [discriminate|]. apply (Rd _ 2); try reflexivity; [exact Pn|discriminate|cbn; lia].
  - eexists. split; [reflexivity|]. split; [reflexivity|]. apply work_step; [exact P|reflexivity|lia|].
    match goal with |- track _ _ _ _ _ (set_pitem ?k (set_pidx 0 (write_str ?t _ _))) => apply (track_str own W w held (A - 1) t S_PROCESS_START (set_pitem k (set_pidx 0 s))) end; [discriminate|].
    apply (Rd _ 0); try reflexivity; [exact Pn|lia|discriminate|cbn; lia].
Qed.

Lemma ls_total : forall own W w held A s f, bufs_ok s -> knows own s w -> 6 < d_outsize (o_desc s) -> track own W w held A s -> proc_phase (o_state s) = true -> o_pfile s = Some f -> f_proc f = Some PLs ->
  exists s', ls_service s = Ok s' /\ lg s' = lg s /\ stepped own W w held A s s'.
Proof.
  intros own W w held A s f B K L6 T P Pf Fp. assert (Nw : o_state s <> S_WRITE_CHAR) by (intros X; rewrite X in P; discriminate).
  destruct (track_at _ _ _ _ _ _ _ T eq_refl Nw) as (Wo & R).
  assert (R' : work_ready own w held (last_job (lg s)) (o_state s) s A) by (destruct (o_state s); try discriminate P; exact R). clear R.
  destruct R' as (f' & p & Pf' & Fp' & R). rewrite Pf in Pf'. injection Pf' as <-. rewrite Fp in Fp'. injection Fp' as <-.
  destruct R as (Lx & G & i & nd & Wb & Ig & Ih & Io & Pn & Ii & En & R). cbv zeta in R. unfold ls_service. rewrite Pn. cbn [getp]. unfold getn, rd. rewrite En. cbn [bind].
  assert (Rd : forall n s1, proc_phase n = true -> o_desc s1 = o_desc s -> hp s1 = hp s -> lg s1 = lg s -> o_pfile s1 = o_pfile s -> o_pnode s1 = Some i ->
     match n with
     | S_PROCESS_SERVICE => match o_pchild s1 with
        | None => 12 + 4 * length (n_files nd) <= A - 1
        | Some j => exists G1 G2, G = G1 ++ j :: G2 /\ o_pidx s1 <= 3 /\ 12 + 4 * length (n_files nd) + 4 * length G2 + (4 - o_pidx s1) <= A - 1
        end
     | S_PROCESS_FINISH => o_pidx s1 <= 3 /\ (o_pidx s1 = 2 -> forall f, nth_error (n_files nd) (o_pitem s1) = Some f -> f_desc f <> None) /\ 8 + 4 * (length (n_files nd) - o_pitem s1) + (3 - o_pidx s1) <= A - 1
     | _ => False end -> forall Q, ready own W w held Q (last_job (lg s1)) n s1 (A - 1)).
  { intros n s1 Pp E1 E2 E3 E4 E5 H Q. assert (X : work_ready own w held (last_job (lg s1)) n s1 (A - 1)); [|destruct n; try discriminate Pp; exact X].
    exists f, PLs. rewrite E4. split; [exact Pf|]. split; [exact Fp|]. split; [rewrite E3; exact Lx|]. exists G, i, nd. rewrite E1, E2. split; [exact Wb|]. split; [exact Ig|]. split; [exact Ih|]. split; [exact Io|].
    split; [exact E5|]. split; [exact Ii|]. split; [exact En|]. cbv zeta. destruct n; try contradiction; exact H. }
  assert (Hn : ls_node (o_desc s) nd).
  { pose proof Ii as Ij. apply in_split in Ij as (G1 & G2 & Eg). rewrite Eg in Wb. destruct (web_in _ _ _ _ _ Wb) as (nd' & En' & H & _). rewrite En in En'. injection En' as <-. exact H. }
  destruct (o_state s) eqn:St; try discriminate P.
  - eexists. split; [reflexivity|]. split; [reflexivity|]. apply work_step; [rewrite St; reflexivity|reflexivity|lia|].
    match goal with |- track _ _ _ _ _ (set_pidx 0 (set_pchild ?k (write_str ?t ?n _))) => apply (track_str own W w held (A - 1) t n (set_pidx 0 (set_pchild k s))) end; [discriminate|].
    apply Rd; try reflexivity; [exact Pn|]. cbn [o_pchild set_pidx set_pchild o_pidx]. destruct (listed_children own s w G i nd K Ig (Io i Ii) En) as [->|(j & -> & Ij)]; [lia|].
    apply in_split in Ij as (G1 & G2 & Eg). exists G1, G2. split; [exact Eg|]. split; [lia|]. rewrite Eg, app_length in R. cbn [length] in R. lia.
  - destruct (o_pchild s) as [j|] eqn:Pc.
    2:{ eexists. split; [reflexivity|]. split; [reflexivity|]. apply work_step; [rewrite St; reflexivity|reflexivity|lia|]. apply track_state; [exact Wo|discriminate|]. apply Rd; try reflexivity; [exact Pn|]. cbn. split; [lia|]. split; [discriminate|]. lia. }
    destruct R as (G1 & G2 & Eg & Pi & Le). pose proof Wb as Wb'. rewrite Eg in Wb'. destruct (web_in _ _ _ _ _ Wb') as (ndj & Ej & (Pj & _) & Nx). rewrite Ej. cbn [bind].
    destruct (o_pidx s) as [|[|[|[|k]]]] eqn:Pi0; [| | | |lia].
    + eexists. split; [reflexivity|]. split; [reflexivity|]. apply work_step; [rewrite St; reflexivity|reflexivity|lia|].
      match goal with |- track _ _ _ _ _ (set_pidx 1 (write_str ?t ?n _)) => apply (track_str own W w held (A - 1) t n (set_pidx 1 s)) end; [discriminate|]. apply Rd; try reflexivity; [exact Pn|]. cbn [o_pchild set_pidx o_pidx]. rewrite Pc.
      exists G1, G2. split; [exact Eg|]. split; lia.
    + unfold path_of. destruct (n_path ndj) as [pt|]; [|congruence]. cbn [bind]. eexists. split; [reflexivity|]. split; [reflexivity|]. apply work_step; [rewrite St; reflexivity|reflexivity|lia|].
      match goal with |- track _ _ _ _ _ (set_pidx 2 (write_str ?t ?n _)) => apply (track_str own W w held (A - 1) t n (set_pidx 2 s)) end; [discriminate|]. apply Rd; try reflexivity; [exact Pn|]. cbn [o_pchild set_pidx o_pidx]. rewrite Pc.
      exists G1, G2. split; [exact Eg|]. split; lia.
    + eexists. split; [reflexivity|]. split; [reflexivity|]. apply work_step; [rewrite St; reflexivity|reflexivity|lia|].
      match goal with |- track _ _ _ _ _ (set_pidx 3 (write_str ?t ?n _)) => apply (track_str own W w held (A - 1) t n (set_pidx 3 s)) end; [discriminate|]. apply Rd; try reflexivity; [exact Pn|]. cbn [o_pchild set_pidx o_pidx]. rewrite Pc.
      exists G1, G2. split; [exact Eg|]. split; lia.
    + eexists. split; [reflexivity|]. split; [reflexivity|]. apply work_step; [rewrite St; reflexivity|unfold at_state; cbn; rewrite St; reflexivity|lia|]. split; [exact Wo|]. split; [cbn; rewrite St; discriminate|].
      unfold at_state. cbn [o_state set_pchild set_pidx]. rewrite St. apply Rd; try reflexivity; [exact Pn|]. cbn [o_pchild set_pchild set_pidx o_pidx].
      destruct Nx as [->|(k & -> & Ik)]; [lia|]. apply in_split in Ik as (X & Y & Ex). exists (G1 ++ j :: X), Y. split; [rewrite Eg, Ex, <- app_assoc; reflexivity|]. split; [lia|].
      rewrite Ex, app_length in Le. cbn [length] in Le. lia.
  - destruct R as (Pi & Pd & Le). destruct (Nat.leb_spec (length (n_files nd)) (o_pitem s)) as [Ld|Ld].
    { eexists. split; [reflexivity|]. split; [reflexivity|]. apply work_step; [rewrite St; reflexivity|reflexivity|lia|]. apply track_state; [exact Wo|discriminate|]. cbn [ready]. lia. }
    destruct (nth_error (n_files nd) (o_pitem s)) as [g|] eqn:Ef; [|apply nth_error_None in Ef; lia]. cbn [bind]. destruct Hn as (_ & Hn).
    assert (Lg : listable (o_desc s) g) by (rewrite Forall_forall in Hn; apply Hn; eapply nth_error_In; exact Ef). destruct Lg as (Lr & Nn).
    destruct (o_pidx s) as [|[|[|[|k]]]] eqn:Pi0; [| | | |lia].
    + destruct (print_out_put (ls_flags g) S_PROCESS_FINISH s B) as (s' & E & Pt).
      { unfold ls_flags, ls_flag. destruct (f_get g), (f_set g), (f_exec g), (f_help g); intros I; cbn in I; intuition discriminate. }
      { exact L6. }
      rewrite E. cbn [bind]. destruct Pt as (b & -> & Eb). eexists. split; [reflexivity|]. split; [reflexivity|]. apply work_step; [rewrite St; reflexivity|reflexivity|lia|].
      apply (track_out own W w held (A - 1) (ls_flags g) S_PROCESS_FINISH (set_pidx 1 s)); [exists b; split; [reflexivity|exact Eb]|discriminate|].
      apply Rd; try reflexivity; [exact Pn|]. cbn. split; [lia|]. split; [discriminate|]. lia.
    + destruct (f_desc g) as [d|] eqn:Fd.
      * destruct (print_out_put (name_column (d_cfg (o_desc s)) (f_name g)) S_PROCESS_FINISH (set_pidx 2 s) B) as (s' & E & Pt); [apply name_column_no_nul; exact Nn|erewrite name_column_length by exact Fd; exact Lr|].
        exists s'. split; [exact E|]. split; [destruct Pt as (b & -> & _); reflexivity|]. apply work_step; [rewrite St; reflexivity|rewrite (put_phase _ _ _ _ Pt); reflexivity|lia|].
        eapply track_out; [exact Pt|discriminate|]. apply Rd; try reflexivity; [exact Pn|]. cbn. split; [lia|]. split; [|lia]. intros _ g' X. rewrite Ef in X. injection X as <-. congruence.
      * destruct (print_out_put (f_name g) S_PROCESS_FINISH (set_pidx 3 s) B) as (s' & E & Pt); [exact Nn|unfold name_room in Lr; rewrite Fd in Lr; exact Lr|].
        exists s'. split; [exact E|]. split; [destruct Pt as (b & -> & _); reflexivity|]. apply work_step; [rewrite St; reflexivity|rewrite (put_phase _ _ _ _ Pt); reflexivity|lia|].
        eapply track_out; [exact Pt|discriminate|]. apply Rd; try reflexivity; [exact Pn|]. cbn. split; [lia|]. split; [discriminate|lia].
    + pose proof (Pd eq_refl g eq_refl) as Fd. destruct (f_desc g) as [d|]; [|congruence]. cbn [deref bind]. eexists. split; [reflexivity|]. split; [reflexivity|]. apply work_step; [rewrite St; reflexivity|reflexivity|lia|].
      apply (track_str own W w held (A - 1) d S_PROCESS_FINISH (set_pidx 3 s)); [discriminate|]. apply Rd; try reflexivity; [exact Pn|]. cbn. split; [lia|]. split; [discriminate|lia].
    + eexists. split; [reflexivity|]. split; [reflexivity|]. apply work_step; [rewrite St; reflexivity|reflexivity|lia|].
      match goal with |- track _ _ _ _ _ (set_pitem ?k (set_pidx 0 (write_str ?t _ _))) => apply (track_str own W w held (A - 1) t S_PROCESS_FINISH (set_pitem k (set_pidx 0 s))) end; [discriminate|].
      apply Rd; try reflexivity; [exact Pn|]. cbn. split; [lia|]. split; [discriminate|lia].
Qed.

Lemma xxd_total : forall own W w held A s f, bufs_ok s -> track own W w held A s -> proc_phase (o_state s) = true -> o_pfile s = Some f -> f_proc f = Some PXxd ->
  exists s', xxd_service s = Ok s' /\ lg s' = lg s /\ stepped own W w held A s s'.
Proof.
  intros own W w held A s f B T P Pf Fp. assert (Nw : o_state s <> S_WRITE_CHAR) by (intros X; rewrite X in P; discriminate).
  destruct (track_at _ _ _ _ _ _ _ T eq_refl Nw) as (Wo & R).
  assert (R' : work_ready own w held (last_job (lg s)) (o_state s) s A) by (destruct (o_state s); try discriminate P; exact R). clear R.
  destruct R' as (f' & p & Pf' & Fp' & R). rewrite Pf in Pf'. injection Pf' as <-. rewrite Fp in Fp'. injection Fp' as <-.
  destruct R as (d & extra & Pd & Ps & Du & R). pose proof Du as (D1 & D2 & D3 & D4).
  assert (Rd : forall n s1, proc_phase n = true -> o_desc s1 = o_desc s -> o_pfile s1 = o_pfile s -> o_pdata s1 = o_pdata s -> o_pdsize s1 = o_pdsize s ->
     match n with
     | S_PROCESS_SERVICE => o_pidx s1 <= 3 /\ (o_pidx s1 <= 2 -> o_pitem s1 < length d \/ o_pitem s1 = 0) /\
        11 + 4 * (S (length d) - o_pitem s1) + (match o_pidx s1 with 0 => 2 | 1 => 1 | 2 => 0 | _ => 3 end) <= A - 1
     | S_PROCESS_FINISH => 8 <= A - 1
     | _ => False end -> forall Q, ready own W w held Q (last_job (lg s1)) n s1 (A - 1)).
  { intros n s1 Pp E1 E2 E3 E4 H Q. assert (X : work_ready own w held (last_job (lg s1)) n s1 (A - 1)); [|destruct n; try discriminate Pp; exact X].
    exists f, PXxd. rewrite E2. split; [exact Pf|]. split; [exact Fp|]. exists d, extra. rewrite E1, E3, E4. split; [exact Pd|]. split; [exact Ps|]. split; [exact Du|]. destruct n; try contradiction; exact H. }
  unfold xxd_service. destruct (o_state s) eqn:St; try discriminate P.
  - eexists. split; [reflexivity|]. split; [reflexivity|]. apply work_step; [rewrite St; reflexivity|reflexivity|lia|]. apply track_state; [exact Wo|discriminate|]. apply Rd; try reflexivity. cbn [o_pidx o_pitem set_pidx set_pitem]. split; [lia|]. split; [auto|lia].
  - destruct R as (Pi & Pt & Le). destruct B as (B1 & B2 & B3 & B4). set (cols := cfg_cols (d_cfg (o_desc s))) in *. destruct (o_pidx s) as [|[|[|[|k]]]] eqn:Pi0; [| | | |lia].
    + assert (Eh : fmt_hex 8 (N.of_nat (o_pitem s)) = hex_digits 8 (N.of_nat (o_pitem s))).
      { apply fmt_hex_eq. change (16 ^ N.of_nat 8)%N with (2 ^ 32)%N. destruct (Pt ltac:(lia)) as [X|X]; [lia|rewrite X; reflexivity]. }
      rewrite Eh. clear Eh. destruct (print_out_put (hex_digits 8 (N.of_nat (o_pitem s)) ++ lit ": ") S_PROCESS_SERVICE s (conj B1 (conj B2 (conj B3 B4)))) as (s' & E & Po).
      { apply no_nul_app. split; [apply hex_digits_no_nul|]. intros I; cbn in I; intuition discriminate. }
      { rewrite app_length, hex_digits_length. cbn [length lit list_ascii_of_string]. lia. }
      rewrite E. cbn [bind]. destruct Po as (b & -> & Eb). eexists. split; [reflexivity|]. split; [reflexivity|]. apply work_step; [rewrite St; reflexivity|reflexivity|lia|].
      apply (track_out own W w held (A - 1) (hex_digits 8 (N.of_nat (o_pitem s)) ++ lit ": ") S_PROCESS_SERVICE (set_pidx 1 s)); [exists b; split; [reflexivity|exact Eb]|discriminate|].
      apply Rd; try reflexivity. cbn [o_pidx o_pitem set_pidx set_pitem]. split; [lia|]. split; [intros _; apply Pt; lia|lia].
    + destruct (outb s) as [|y r] eqn:Ob; [cbn in B2; lia|]. cbn [length] in B2. replace (wr (y :: r) 0 NUL) with (Ok (NUL :: r)) by reflexivity. cbn [bind].
      pose proof (xxd_hex_ok s d (or_intror (ex_intro _ extra Pd)) Ps cols (o_pitem s) [] r (no_nul_nil) ltac:(lia)) as E. cbn [app] in E. rewrite E. cbn [bind].
      set (t := hex_cols cols (o_pitem s) d ++ lit " ").
      assert (Nt : no_nul t) by (apply no_nul_app; split; [apply hex_cols_no_nul|intros I; cbn in I; intuition discriminate]).
      rewrite strcat_ok by (try apply hex_cols_no_nul; rewrite skipn_length; cbn [length lit list_ascii_of_string]; lia). cbn [bind]. fold t.
      set (b := t ++ NUL :: _). rewrite (wp_eq WOut S_PROCESS_SERVICE (set_outb b s) t) by (apply c_str_0; exact Nt). cbn [bind]. eexists. split; [reflexivity|]. split; [reflexivity|]. apply work_step; [rewrite St; reflexivity|reflexivity|lia|].
      eapply (track_out own W w held (A - 1) t S_PROCESS_SERVICE (set_pidx 2 s)); [exists b; split; [reflexivity|]|discriminate|].
      { split; [unfold b; eauto|]. split; [exact Nt|]. cbn. unfold t. rewrite app_length, hex_cols_length. cbn [length lit list_ascii_of_string]. fold cols. lia. }
      apply Rd; try reflexivity. cbn [o_pidx o_pitem set_pidx set_pitem]. split; [lia|]. split; [intros _; apply Pt; lia|lia].
    + destruct (outb s) as [|y r] eqn:Ob; [cbn in B2; lia|]. cbn [length] in B2. replace (wr (y :: r) 0 NUL) with (Ok (NUL :: r)) by reflexivity. cbn [bind].
      pose proof (xxd_chr_ok s d (or_intror (ex_intro _ extra Pd)) Ps cols (o_pitem s) [] r (no_nul_nil) ltac:(lia)) as E. cbn [app] in E. rewrite E. cbn [bind].
      set (t := chr_cols cols (o_pitem s) d). assert (Nt : no_nul t) by apply chr_cols_no_nul.
      set (b := t ++ NUL :: _). rewrite (wp_eq WOut S_PROCESS_SERVICE (set_outb b (set_pitem (o_pitem s + cols) s)) t) by (apply c_str_0; exact Nt). cbn [bind]. eexists. split; [reflexivity|]. split; [reflexivity|]. apply work_step; [rewrite St; reflexivity|reflexivity|lia|].
      eapply (track_out own W w held (A - 1) t S_PROCESS_SERVICE (set_pidx 3 (set_pitem (o_pitem s + cols) s))); [exists b; split; [reflexivity|]|discriminate|].
      { split; [unfold b; eauto|]. split; [exact Nt|]. cbn. unfold t. rewrite chr_cols_length. lia. }
      apply Rd; try reflexivity. cbn [o_pidx o_pitem set_pidx set_pitem]. split; [lia|]. split; [lia|]. destruct (Pt ltac:(lia)) as [X|X]; lia.
    + rewrite Ps. destruct (Nat.leb_spec (length d) (o_pitem s)) as [Ld|Ld].
      * eexists. split; [reflexivity|]. split; [reflexivity|]. apply work_step; [rewrite St; reflexivity|reflexivity|lia|]. apply track_str; [discriminate|]. apply Rd; try reflexivity. lia.
      * eexists. split; [reflexivity|]. split; [reflexivity|]. apply work_step; [rewrite St; reflexivity|reflexivity|lia|]. apply (track_str own W w held (A - 1) CRLF S_PROCESS_SERVICE (set_pidx 0 s)); [discriminate|].
        apply Rd; try reflexivity. cbn [o_pidx o_pitem set_pidx set_pitem]. split; [lia|]. split; [auto|lia].
  - eexists. split; [reflexivity|]. split; [reflexivity|]. apply work_step; [rewrite St; reflexivity|reflexivity|lia|]. apply track_state; [exact Wo|discriminate|]. cbn [ready]. lia.
Qed.

Lemma cat_total : forall own x W w held A s f, ample own x W -> on_course own x W w s -> track own W w held A s -> proc_phase (o_state s) = true -> o_pfile s = Some f -> f_proc f = Some PCat ->
  exists s', cat_service (app_of x (lg s)) s = Ok s' /\ forall w', goes own x W w s w' s' -> stepped own W w' (used_ids w' ++ held) A s s'.
Proof.
  intros own x W w held A s f Am C T P Pf Fp. assert (Nw : o_state s <> S_WRITE_CHAR) by (intros X; rewrite X in P; discriminate).
  destruct (track_at _ _ _ _ _ _ _ T eq_refl Nw) as (Wo & R).
  assert (R' : work_ready own w held (last_job (lg s)) (o_state s) s A) by (destruct (o_state s); try discriminate P; exact R). clear R.
  destruct R' as (f' & p & Pf' & Fp' & R). rewrite Pf in Pf'. injection Pf' as <-. rewrite Fp in Fp'. injection Fp' as <-.
  destruct R as (Lx & args & ws & Ga & Av & La & Rd & R).
  assert (Same : forall s' w', goes own x W w s w' s' -> lg s' = lg s -> w' = w).
  { intros s' w' G L. rewrite (goes_w _ _ _ _ _ _ _ [] G); [reflexivity|rewrite app_nil_r; exact L]. }
  unfold cat_service. destruct (o_state s) eqn:St; try discriminate P.
  - eexists. split; [reflexivity|]. intros w' G. rewrite (Same _ _ G eq_refl). apply work_step; [rewrite St; reflexivity|reflexivity|lia|]. apply track_state; [exact Wo|discriminate|].
    exists f, PCat. split; [exact Pf|]. split; [exact Fp|]. split; [exact Lx|]. exists args, ws. split; [exact Ga|]. split; [exact Av|]. split; [exact La|]. split; [exact Rd|]. cbn. split; lia.
  - destruct R as (Pi & Le). destruct (Nat.leb_spec (o_argc s) (o_pitem s)) as [Ld|Ld].
    { eexists. split; [reflexivity|]. intros w' G. rewrite (Same _ _ G eq_refl). apply work_step; [rewrite St; reflexivity|reflexivity|lia|]. apply track_state; [exact Wo|discriminate|].
      exists f, PCat. split; [exact Pf|]. split; [exact Fp|]. split; [exact Lx|]. exists args, ws. split; [exact Ga|]. split; [exact Av|]. split; [exact La|]. split; [exact Rd|]. cbn. lia. }
    rewrite Ga. cbn [bind]. destruct (nth_error ws (o_pitem s)) as [v|] eqn:Ev; [|apply nth_error_None in Ev; lia].
    destruct (arg_values_nth _ _ _ _ v Av Ev) as (off & R1 & R2). rewrite R1. cbn [bind]. rewrite R2. cbn [bind]. pose proof C as (K & Wc & Ww & B & Ds & _).
    pose proof (nth_error_In _ _ Ev) as Iv. pose proof (proj1 (Forall_forall _ _) (arg_values_short _ _ _ Av) v Iv) as (Nv & Lv). rewrite (proj1 B), Ds in Lv.
    rewrite (ample_find own x W w s v Am C Nv Lv). cbn [bind].
    assert (It : In v (tl ws)). { destruct ws as [|w0 ws]; [destruct Iv|]. destruct (o_pitem s) as [|k]; [lia|]. eapply nth_error_In. exact Ev. }
    pose proof (Rd v It) as U. unfold unreadable in U. destruct (denotes w v) as [g|] eqn:Dg; [|discriminate]. cbn [deref bind]. destruct (f_get g) as [cb|] eqn:Gg; [|discriminate]. cbn [deref bind]. apply denotes_file in Dg.
    destruct (Am w Ww) as (_ & _ & _ & _ & _ & _ & Ae). destruct (Ae (ins (lg s))) as (Gt & _). change (x_app x (ins (lg s))) with (app_of x (lg s)) in *.
    destruct (Gt g cb [] Dg Gg) as ((extra & calls & Dl) & _ & Co & (_ & _ & A1 & _) & _ & Rk). clear Gt Ae.
    unfold call_get. set (s1 := emit (EvGet cb (f_name g)) s). assert (K1 : knows own s1 w) by (eapply knows_ext; [..|exact K]; reflexivity).
    rewrite <- Ds in A1. destruct (tree_only_calls own _ s1 w Co K1 A1) as (s2 & E2 & _ & O2). rewrite E2. cbn [bind]. set (d := data_of _ _ _) in *. rewrite Dl. cbn [g_ptr g_size].
    apply only_tree_ex in O2 as (y1 & y2 & y3 & y4 & ->). cbn [o_state set_cur set_cmds set_root set_hp s1 emit set_lg]. rewrite St. eexists. split; [reflexivity|]. intros w' G.
    assert (Ew : w' = after_get (app_of x (lg s)) w cb g).
    { rewrite (goes_w _ _ _ _ _ _ _ [EvGet cb (f_name g)] G); [|reflexivity]. cbn [deeds deed]. rewrite app_nil_r. reflexivity. }
    apply work_step; [rewrite St; reflexivity|reflexivity|lia|].
    match goal with |- track _ _ _ _ _ ?z => set (s3 := z) end. split; [intros X; discriminate X|]. split.
    + intros _. exists d. change s3 with (ush_write_pointer_bin (WStr (d ++ extra)) (length d) S_PROCESS_SERVICE (set_pitem (S (o_pitem s)) (set_cur y1 (set_cmds y2 (set_root y3 (set_hp y4 s1)))))).
      apply pending_wpb. intros j c E. unfold rd. rewrite nth_error_app1 by (apply nth_error_Some; congruence). rewrite E. reflexivity.
    + change (at_state s3) with S_PROCESS_SERVICE. exists f, PCat. split; [exact Pf|]. split; [exact Fp|]. split.
      { change (last_job (lg s ++ [EvGet cb (f_name g)]) = Some (Runs XCat)). rewrite last_job_get. exact Lx. }
      exists args, ws. split; [exact Ga|]. split; [exact Av|]. split; [exact La|]. split; [intros u Iu; rewrite Ew; apply Rk, Rd, Iu|]. cbn. split; lia.
  - eexists. split; [reflexivity|]. intros w' G. rewrite (Same _ _ G eq_refl). apply work_step; [rewrite St; reflexivity|reflexivity|lia|]. apply track_state; [exact Wo|discriminate|]. cbn [ready]. lia.
Qed.

(** ** Any call of ush_service *)
Lemma service_total : forall own x W w held A i s, ample own x W -> on_course own x W w s -> track own W w held A s -> io_env i = app_of x (lg s) ->
  (polling s -> io_rd i = Some TAB -> cfg_autocomp (d_cfg (x_desc x)) = true -> tab_fine x W s) ->
  exists b s', ush_service i s = Ok (b, s') /\ forall w', goes own x W w s w' s' ->
    exists A', track own W w' (used_ids w' ++ held) A' s' /\ (~ polling s -> io_wr i = true -> onward s A s' A').
Proof.
  intros own x W w held A i s Am C T Ei Tb.
  assert (Same : forall s' w', goes own x W w s w' s' -> logs harmless s s' -> w' = w).
  { intros s' w' G (evs & L & F). rewrite (goes_w _ _ _ _ _ _ _ evs G L), (deeds_none _ _ _ F). reflexivity. }
  assert (Fin : forall b s', svc i s = Ok (b, s') -> (forall w', goes own x W w s w' s' -> stepped own W w' (used_ids w' ++ held) A s s') -> exists b s', svc i s = Ok (b, s') /\ forall w', goes own x W w s w' s' ->
    exists A', track own W w' (used_ids w' ++ held) A' s' /\ (~ polling s -> io_wr i = true -> onward s A s' A')).
  { intros b s' E H. exists b, s'. split; [exact E|]. intros w' G. destruct (H w' G) as (A' & T' & L). eauto. }
  assert (Up : forall s', stepped own W w held A s s' -> logs harmless s s' -> forall w', goes own x W w s w' s' -> stepped own W w' (used_ids w' ++ held) A s s').
  { intros s' (A' & T' & L) Lg w' G. rewrite (Same _ _ G Lg). exists A'. split; [|exact L]. eapply track_held; [|exact T']. apply incl_appr, incl_refl. }
  rewrite service_eq. pose proof C as (K & Wc & _ & B & Ds & _). destruct (o_cur s) as [cu|] eqn:Cu; [|exfalso; exact (knows_cur _ _ _ K Wc Cu)].
  assert (Pr : match o_state s with S_RESET | S_RESET_PROMPT | S_PROMPT_PREFIX | S_PROMPT_HOST | S_PROMPT_SPACE | S_PROMPT_PATH | S_PROMPT_SUFFIX => True | _ => False end -> exists b s', svc i s = Ok (b, s') /\ forall w', goes own x W w s w' s' ->
    exists A', track own W w' (used_ids w' ++ held) A' s' /\ (~ polling s -> io_wr i = true -> onward s A s' A')).
  { intros Hs. destruct (prompt_total own x W w held A i s C T Hs) as (s' & E & L & St). eapply Fin; [exact E|]. apply Up; [exact St|]. apply logs_refl. exact L. }
  assert (Pa : parse_state (o_state s) -> exists b s', svc i s = Ok (b, s') /\ forall w', goes own x W w s w' s' ->
    exists A', track own W w' (used_ids w' ++ held) A' s' /\ (~ polling s -> io_wr i = true -> onward s A s' A')).
  { intros Hs. destruct (parse_total own x W w held A i s Am C T Ei Hs) as (s' & E & St). eapply Fin; [exact E|exact St]. }
  assert (Po : proc_phase (o_state s) = true -> exists b s', svc i s = Ok (b, s') /\ forall w', goes own x W w s w' s' ->
    exists A', track own W w' (used_ids w' ++ held) A' s' /\ (~ polling s -> io_wr i = true -> onward s A s' A')).
  { intros P. assert (Nw : o_state s <> S_WRITE_CHAR) by (intros X; rewrite X in P; discriminate). destruct (track_at _ _ _ _ _ _ _ T eq_refl Nw) as (_ & R).
    assert (R' : work_ready own w held (last_job (lg s)) (o_state s) s A) by (destruct (o_state s); try discriminate P; exact R). destruct R' as (f & p & Pf & Fp & R').
    assert (Es : svc i s = ush_process_service i s) by (unfold svc; destruct (o_state s); try discriminate P; reflexivity).
    assert (Ep : ush_process_service i s = bind (match p with PHelp => help_service s | PLs => ls_service s | PCat => cat_service (io_env i) s | PXxd => xxd_service s
        | PUser n => do_actions [] (e_proc (io_env i) n (f_name f)) (emit (EvProc n (f_name f)) s) end) (fun s => Ok (true, s))).
    { unfold ush_process_service. rewrite Pf, Fp. destruct (o_state s); try discriminate P; reflexivity. }
    assert (Go : forall s', match p with PHelp => help_service s | PLs => ls_service s | PCat => cat_service (io_env i) s | PXxd => xxd_service s
        | PUser n => do_actions [] (e_proc (io_env i) n (f_name f)) (emit (EvProc n (f_name f)) s) end = Ok s' -> svc i s = Ok (true, s')).
    { intros s' E. rewrite Es, Ep, E. reflexivity. }
    destruct p.
    - destruct R' as (_ & St & _). destruct (help_total own W w held A s f B T St Pf Fp) as (s' & E & L & Sp). eapply Fin; [apply Go; exact E|]. apply Up; [exact Sp|]. apply logs_refl. exact L.
    - assert (L6 : 6 < d_outsize (o_desc s)) by (rewrite Ds; destruct C as (_ & _ & Ww & _); destruct (Am w Ww) as (_ & _ & _ & L & _); exact L).
      destruct (ls_total own W w held A s f B K L6 T P Pf Fp) as (s' & E & L & Sp). eapply Fin; [apply Go; exact E|]. apply Up; [exact Sp|]. apply logs_refl. exact L.
    - destruct (cat_total own x W w held A s f Am C T P Pf Fp) as (s' & E & Sp). rewrite <- Ei in E. eapply Fin; [apply Go; exact E|exact Sp].
    - destruct (xxd_total own W w held A s f B T P Pf Fp) as (s' & E & L & Sp). eapply Fin; [apply Go; exact E|]. apply Up; [exact Sp|]. apply logs_refl. exact L.
    - contradiction. }
  assert (Ac : completing (o_state s) -> exists b s', svc i s = Ok (b, s') /\ forall w', goes own x W w s w' s' ->
    exists A', track own W w' (used_ids w' ++ held) A' s' /\ (~ polling s -> io_wr i = true -> onward s A s' A')).
  { intros Hs. destruct (ac_total own x W w held A i s Am C T Hs) as (s' & E & L & St). eapply Fin; [exact E|]. apply Up; [exact St|]. apply logs_refl. exact L. }
  destruct (o_state s) eqn:St; try (apply Pr; exact I); try (apply Pa; exact I); try (apply Po; reflexivity); try (apply Ac; exact I);
    try (exfalso; destruct T as (_ & _ & R); unfold at_state in R; rewrite St in R; exact R).
  - destruct (start_total own x W w held A i s C T St) as (s' & E & L & Sp). eapply Fin; [exact E|]. apply Up; [exact Sp|]. apply logs_refl. exact L.
  - destruct (read_total own x W w held A i s C T St (Tb St)) as (b & s' & E & L & A' & T'). exists b, s'. split; [exact E|]. intros w' G. rewrite (Same _ _ G L). exists A'.
    split; [exact T'|]. intros N. elim N. exact St.
  - destruct (write_total own W w held A (io_wr i) s T St) as (s' & E & L & T' & Sp). exists true, s'. split; [unfold svc; rewrite St, E; reflexivity|]. intros w' G. rewrite (Same _ _ G L).
    destruct (io_wr i).
    + destruct (Sp eq_refl) as (A' & T2 & Le). exists A'. split; [eapply track_held; [|exact T2]; apply incl_appr, incl_refl|auto].
    + exists A. split; [eapply track_held; [|exact T']; apply incl_appr, incl_refl|discriminate].
Qed.
