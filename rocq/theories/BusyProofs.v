(** * BusyProofs: behind C54. *)
From Coq Require Import Arith.
From Verif Require Import Types Shell Words BaseFacts LogFacts Sched ServiceFacts SchedFacts Macro Editor EditFacts PromptFacts SchedProofs Line Spec Cmds CmdFacts Complete Tree TreeFacts TreeProofs GetProofs PrintfFacts ReconfProofs CmdProofs Session SessionProofs IdleFacts IdleProofs Interrupt StepFacts InterruptProofs Busy BusyFacts BusyTrack BusyTab BusyWork.

(** ** At the beginning *)
Lemma begins_rest : forall own x w s, begins own x w s -> at_rest own x w s.
Proof.
  intros own x w s [(a & <- & Sh & _)|(D & K & Wc & B & Pe & Nx & _)]; [eapply C53_polls_proof; exact Sh|]. split; [exact D|]. split; [exact K|]. split; [exact Wc|]. split; [exact B|]. right. auto.
Qed.
Lemma settled_wout : forall s, bufs_ok s -> settled s -> wout s.
Proof.
  intros s (_ & B2 & _ & B4) H Wb. destruct (H Wb) as (t & r & Ob & Nt & Lt & Ws & Wp). exists t, (length t). assert (L : length t < d_outsize (o_desc s)) by lia.
  assert (Ep : printf_text (d_outsize (o_desc s)) t = t) by (rewrite printf_eq, cut_fits by exact L; apply Nat.ltb_lt in L; rewrite L, app_nil_r; reflexivity).
  split; [exact Wb|]. split; [exact Nt|]. split; [exists r; rewrite cut_fits by exact L; exact Ob|]. rewrite Ep. split; [exact Wp|]. split; [lia|]. split; [exact Ws|right; exact L].
Qed.
Lemma begins_track : forall own x W w held s, begins own x w s -> exists A, track own W w held A s.
Proof.
  intros own x W w held s [(a & _ & Sh & Se)|(D & K & Wc & B & Pe & Nx & Wb)].
  - destruct Sh as (_ & _ & _ & _ & (P & E1 & E2 & r & E3) & B & E4 & E5). exists 0. split; [apply settled_wout; assumption|]. split; [rewrite P; discriminate|].
    unfold at_state. rewrite P. cbn [ready]. split; [rewrite E1; exact E4|]. eauto.
  - exists 7. split; [intros X; congruence|]. split; [intros _; eauto|]. pose proof Pe as (St & _). unfold at_state. rewrite St, Nx. cbn [ready]. lia.
Qed.
Lemma begins_calm : forall own x w s, begins own x w s -> calm s.
Proof.
  intros own x w s [(a & _ & Sh & Se)|(D & K & Wc & B & (St & _) & Nx & Wb)]; [apply settled_calm; [eapply shows_polling; exact Sh|exact Se]|].
  apply calm_aloof, aloof_write; [exact St|rewrite Nx; reflexivity].
Qed.

(** ** Calls between calls of ush_service *)
Lemma cost_evolves : forall x h h' P G, evolves x h h' -> (forall i, x = Some i -> ~ In i G) -> web P h G -> cost h' G = cost h G.
Proof.
  intros x h h' P G Ev N H. induction G as [|i G IH]; [reflexivity|]. destruct H as ((nd & E & _) & H). cbn [cost]. rewrite IH; [|intros j X I; exact (N j X (or_intror I))|exact H]. f_equal.
  destruct (Ev i nd) as (nd' & E' & F & _); [intros X; apply (N i X); left; reflexivity|exact E|]. unfold node_cost. rewrite E, E', F. reflexivity.
Qed.
Lemma web_app : forall P h G1 G2, web P h (G1 ++ G2) -> web P h G2.
Proof. intros P h G1 G2 H. induction G1 as [|i G1 IH]; [exact H|]. destruct H as (_ & H). auto. Qed.

Lemma grown_held : forall o w' G G' held, grown o w' G G' -> incl G held -> incl G' (used_ids w' ++ held).
Proof. intros o w' G G' held [->|(id & _ & U & ->)] I; [apply incl_appr; exact I|]. intros j [<-|Ij]; [apply in_or_app; left; exact U|]. apply in_or_app. right. apply I, Ij. Qed.
Lemma used_own : forall own s w i, knows own s w -> In i (used_ids w) -> In i own.
Proof. intros own s w i (_ & _ & _ & U & _) I. apply U. unfold used, used_ids in *. apply in_app_or in I. exact I. Qed.

(** The enumeration goes on in the changed tree. *)
Lemma cursor_grows : forall o h h' w' Gc Gd Gc' Gd' st p it ix b A b', evolves (handed o) h h' -> (forall id, handed o = Some id -> ~ In id Gc /\ ~ In id Gd) ->
  grown o w' Gc Gc' -> grown o w' Gd Gd' -> ac_cursor Gc Gd h st p it ix b A -> exists A', ac_cursor Gc' Gd' h' st p it ix b' A'.
Proof.
  intros o h h' w' Gc Gd Gc' Gd' st p it ix b A b' Ev N G1 G2 Cu. destruct st as [|[|[|?]]], p as [i|]; cbn [ac_cursor] in *; try contradiction; try (eexists; apply le_n).
  - destruct Cu as (Ga & Gb & nd & E & En & Le & _). assert (Ni : handed o <> Some i) by (intros X; apply (proj1 (N i X)); rewrite E; apply in_elt). destruct (Ev i nd Ni En) as (nd' & En' & _).
    destruct G1 as [->|(id & _ & _ & ->)]; [eexists; exists Ga, Gb, nd'|eexists; exists (id :: Ga), Gb, nd']; (split; [rewrite E; reflexivity|]); (split; [exact En'|]); (split; [exact Le|apply le_n]).
  - destruct Cu as (nd & Ii & En & Le & _). assert (Ni : handed o <> Some i) by (intros X; exact (proj2 (N i X) Ii)). destruct (Ev i nd Ni En) as (nd' & En' & _).
    eexists. exists nd'. split; [destruct G2 as [->|(id & _ & _ & ->)]; [exact Ii|right; exact Ii]|]. split; [exact En'|]. split; [exact Le|apply le_n].
  - destruct Cu as (Ga & Gb & E & Le & _). destruct G2 as [->|(id & _ & _ & ->)]; [eexists; exists Ga, Gb|eexists; exists (id :: Ga), Gb]; (split; [rewrite E; reflexivity|]); (split; [exact Le|apply le_n]).
Qed.
Lemma gnode_linkless : forall d B, linkless (gnode d B).
Proof. intros d B nd nd' F P A. unfold gnode. rewrite F. exact A. Qed.
Lemma dnode_linkless : forall d B, linkless (dnode d B).
Proof. intros d B nd nd' F P A. unfold dnode, gnode. rewrite F, P. exact A. Qed.

Lemma op_ac : forall own (W : world -> Prop) w held lx A o s r s' n, do_op o s = Ok (r, s') -> only_tree own s s' -> let w' := snd (spec_op o w) in knows own s' w' -> W w' ->
  (forall id, handed o = Some id -> ~ In id held) -> ac_ready own W w held lx n s A -> exists A', ac_ready own W w' (used_ids w' ++ held) lx n s' A'.
Proof.
  intros own W w held lx A o s r s' n Do Ot w' K Ww N (Lx & B & t & Gc & Gd & (Nf & Wc & Ic & Hc & Wd & Id & Hd & Io) & Wt & Ai & R). pose proof (op_evolves _ _ _ _ Do) as Ev.
  destruct (gs_grows (gnode (o_desc s) B) own o s w r s' Gc (gnode_linkless _ _) Wc Ic Do K) as (Gc' & Wc' & Ic' & Gr1); [apply fits_group; intros m Hm; apply (Nf w'); auto|intros id H I; exact (N id H (Hc id I))|].
  destruct (fs_grows (dnode (o_desc s) B) own o s w r s' Gd (dnode_linkless _ _) Wd Id Do K) as (Gd' & Wd' & Id' & Gr2); [eapply fits_dir; [exact K|intros m Hm; apply (Nf w'); auto]|intros id H I; exact (N id H (Hd id I))|].
  fold w' in Ic', Gr1, Id', Gr2.
  apply only_tree_ex in Ot as (y1 & y2 & y3 & h & Es).
  assert (Wb' : webs own W w' (used_ids w' ++ held) B Gc' Gd' s').
  { unfold webs. replace (o_desc s') with (o_desc s) by (rewrite Es; reflexivity). split; [exact Nf|]. split; [exact Wc'|]. split; [exact Ic'|]. split; [eapply grown_held; eauto|]. split; [exact Wd'|]. split; [exact Id'|]. split; [eapply grown_held; eauto|].
    destruct Gr2 as [->|(id & _ & U & ->)]; [exact Io|]. intros j [<-|Ij]; [eapply used_own; eauto|auto]. }
  assert (Wt' : word_at B t s') by (rewrite Es; exact Wt).
  assert (Ai' : match n with S_AC_PREPARE => B = before_word (B ++ t) | _ => o_acin s' = Some (length B) end) by (rewrite Es; exact Ai).
  assert (Md : forall m, ac_mode_ok m B t s -> ac_mode_ok m B t s') by (intros m M; rewrite Es; exact M).
  assert (Cg : forall m b, ac_cursor Gc Gd (hp s) (o_pstage s) (o_pnode s) (o_pitem s) (o_pidx s) b A -> exists A', ac_cursor Gc' Gd' (hp s') (o_pstage s') (o_pnode s') (o_pitem s') (o_pidx s') (ac_base m (o_desc s') (hp s') B t Gc' Gd') A').
  { intros m b Cu. replace (o_pstage s') with (o_pstage s) by (rewrite Es; reflexivity). replace (o_pnode s') with (o_pnode s) by (rewrite Es; reflexivity). replace (o_pitem s') with (o_pitem s) by (rewrite Es; reflexivity). replace (o_pidx s') with (o_pidx s) by (rewrite Es; reflexivity).
    eapply cursor_grows; [exact Ev| |exact Gr1|exact Gr2|exact Cu]. intros id H. split; intros I; [exact (N id H (Hc id I))|exact (N id H (Hd id I))]. }
  assert (E1 : o_acsuf s' = o_acsuf s) by (rewrite Es; reflexivity). assert (E2 : o_acprev s' = o_acprev s) by (rewrite Es; reflexivity). clear Es.
  assert (Fin : forall A', match n with
    | S_AC_PREPARE => ac_base S_AC_COUNT (o_desc s') (hp s') B t Gc' Gd' + ac_round (hp s') Gc' Gd' + 3 <= A'
    | S_AC_START => ac_base S_AC_COUNT (o_desc s') (hp s') B t Gc' Gd' + ac_round (hp s') Gc' Gd' + 2 <= A'
    | S_AC_COUNT | S_AC_OPTIMISE | S_AC_PRINT => ac_mode_ok n B t s' /\ ac_cursor Gc' Gd' (hp s') (o_pstage s') (o_pnode s') (o_pitem s') (o_pidx s') (ac_base n (o_desc s') (hp s') B t Gc' Gd') A'
    | S_AC_FINISH => ac_mode_ok (o_acprev s') B t s' /\ ac_base (o_acprev s') (o_desc s') (hp s') B t Gc' Gd' <= A'
    | S_AC_RECALL_SUFFIX => o_acsuf s' <= length t /\ ac_round (hp s') Gc' Gd' + 30 <= A'
    | S_AC_PROMPT => 8 <= A'
    | _ => False
    end -> ac_ready own W w' (used_ids w' ++ held) lx n s' A').
  { intros A' H. split; [exact Lx|]. exists B, t, Gc', Gd'. auto. }
  rewrite E1, E2 in Fin. clear E1 E2. destruct n; try contradiction.
  - eexists. apply Fin, le_n.
  - eexists. apply Fin, le_n.
  - destruct R as (M & Cu). destruct (Cg S_AC_COUNT _ Cu) as (A' & Cu'). exists A'. apply Fin. auto.
  - destruct R as (M & Cu). destruct (Cg S_AC_OPTIMISE _ Cu) as (A' & Cu'). exists A'. apply Fin. auto.
  - destruct R as (M & Cu). destruct (Cg S_AC_PRINT _ Cu) as (A' & Cu'). exists A'. apply Fin. auto.
  - destruct R as (M & _). eexists. apply Fin. split; [apply Md; exact M|apply le_n].
  - exists A. apply Fin, R.
  - destruct R as (M & _). eexists. apply Fin. split; [exact M|apply le_n].
Qed.

Lemma op_track : forall own (W : world -> Prop) w held A o s r s', track own W w held A s -> do_op o s = Ok (r, s') -> only_tree own s s' ->
  let w' := snd (spec_op o w) in knows own s' w' -> W w' -> (forall f, file_of w' f -> listable (o_desc s) f) -> considerate s w held o ->
  exists A', track own W w' (used_ids w' ++ held) A' s'.
Proof.
  intros own W w held A o s r s' (T1 & T2 & T3) Do Ot w' K Ww Ls Cn. pose proof (op_evolves _ _ _ _ Do) as Ev.
  assert (Ac : completing (at_state s) -> ac_ready own W w held (last_job (lg s)) (at_state s) s A -> exists A', ac_ready own W w' (used_ids w' ++ held) (last_job (lg s)) (at_state s) s' A').
  { intros Cm R. destruct Cn as [P|Cn]; [unfold polling in P; unfold at_state in Cm; rewrite P in Cm; destruct Cm|]. pose proof R as (Lx & _). rewrite Lx in Cn. eapply op_ac; eauto. }
  apply only_tree_ex in Ot as (y1 & y2 & y3 & h & Es). rewrite Es.
  match goal with |- exists A', track _ _ _ _ A' ?z => assert (Go : forall A', ready own W w' (used_ids w' ++ held) (echoed s) (last_job (lg s)) (at_state s) z A' -> track own W w' (used_ids w' ++ held) A' z) end.
  { intros A' R. split; [exact T1|]. split; [exact T2|exact R]. }
  assert (Wk : proc_phase (at_state s) = true -> work_ready own w held (last_job (lg s)) (at_state s) s A -> exists A', work_ready own w' (used_ids w' ++ held) (last_job (lg s)) (at_state s) s' A').
  { intros Pp (f & p & Pf & Fp & R). destruct Cn as [P|Cn]; [unfold polling in P; unfold at_state in Pp; rewrite P in Pp; discriminate|].
    assert (Pf' : o_pfile s' = Some f) by (rewrite Es; exact Pf). assert (Ds : o_desc s' = o_desc s) by (rewrite Es; reflexivity).
    assert (E1 : o_pnode s' = o_pnode s) by (rewrite Es; reflexivity). assert (E2 : o_pitem s' = o_pitem s) by (rewrite Es; reflexivity). assert (E3 : o_pidx s' = o_pidx s) by (rewrite Es; reflexivity).
    assert (E4 : o_pchild s' = o_pchild s) by (rewrite Es; reflexivity).
    destruct p.
    - destruct R as (Lx & Ns & G & Wb & Ig & Ih & R). rewrite Lx in Cn. assert (N : forall id, handed o = Some id -> ~ In id G) by (intros id H I; exact (Cn id H (Ih id I))).
      destruct (help_grows own (o_desc s) o s w r s' G Wb Ig Do K Ls N) as (G' & Wb' & Ig' & Gr). fold w' in Ig', Gr.
      exists A, f, PHelp. split; [exact Pf'|]. split; [exact Fp|]. split; [exact Lx|]. split; [exact Ns|]. exists G'. rewrite Ds. split; [exact Wb'|]. split; [exact Ig'|].
      split; [eapply grown_held; eauto|]. rewrite E1. destruct (o_pnode s) as [i|]; [|exact R]. destruct R as (G1 & G2 & nd & Eg & En & Pi & Pd & Le).
      assert (Ni : handed o <> Some i) by (intros X; apply (N i X); rewrite Eg; apply in_or_app; right; left; reflexivity).
      destruct (Ev i nd Ni En) as (nd' & En' & Fn & _).
      assert (Ec : cost (hp s') G2 = cost (hp s) G2).
      { eapply cost_evolves; [exact Ev| |]; [intros j X I; apply (N j X); rewrite Eg; apply in_or_app; right; right; exact I|]. rewrite Eg in Wb. apply web_app in Wb. exact (proj2 Wb). }
      destruct Gr as [Gr|(id & _ & _ & Gr)]; [exists G1, G2, nd'|exists (id :: G1), G2, nd']; (split; [rewrite Gr, Eg; reflexivity|]); (split; [exact En'|]); rewrite E2, E3, Fn, Ec; auto.
    - destruct R as (Lx & G & i & nd & Wb & Ig & Ih & Io & Pn & Ii & En & R). rewrite Lx in Cn. assert (N : forall id, handed o = Some id -> ~ In id G) by (intros id H I; exact (Cn id H (Ih id I))).
      destruct (ls_grows own (o_desc s) o s w r s' G Wb Ig Do K Ls N) as (G' & Wb' & Ig' & Gr). fold w' in Ig', Gr.
      assert (Ni : handed o <> Some i) by (intros X; exact (N i X Ii)). destruct (Ev i nd Ni En) as (nd' & En' & Fn & _).
      exists (A + 4), f, PLs. split; [exact Pf'|]. split; [exact Fp|]. split; [exact Lx|]. exists G', i, nd'. rewrite Ds. split; [exact Wb'|]. split; [exact Ig'|].
      split; [eapply grown_held; eauto|]. split; [destruct Gr as [->|(id & _ & U & ->)]; [exact Io|intros j [<-|Ij]; [eapply used_own; eauto|auto]]|]. split; [rewrite E1; exact Pn|].
      split; [destruct Gr as [->|(id & _ & U & ->)]; [exact Ii|right; exact Ii]|]. split; [exact En'|]. cbv zeta in *. rewrite Fn, E2, E3, E4.
      assert (Lg : length G' <= S (length G)) by (destruct Gr as [->|(id & _ & _ & ->)]; cbn [length]; lia).
      destruct (at_state s); try discriminate Pp.
      + lia.
      + destruct (o_pchild s) as [j|]; [|lia]. destruct R as (G1 & G2 & Eg & Pi & Le).
        destruct Gr as [Gr|(id & _ & _ & Gr)]; [exists G1, G2|exists (id :: G1), G2]; (split; [rewrite Gr, Eg; reflexivity|]); split; lia.
      + destruct R as (Pi & Pd & Le). split; [exact Pi|]. split; [exact Pd|lia].
    - destruct R as (Lx & args & ws & Ga & Av & La & Rd & R). rewrite Lx in Cn. exists A, f, PCat. split; [exact Pf'|]. split; [exact Fp|]. split; [exact Lx|].
      rewrite Es. exists args, ws. split; [exact Ga|]. split; [exact Av|]. split; [exact La|]. split; [intros v Iv; apply Cn, Rd, Iv|exact R].
    - exists A, f, PXxd. split; [exact Pf'|]. split; [exact Fp|]. rewrite Es. exact R.
    - contradiction. }
  rewrite Es in Wk, Ac. destruct (at_state s) eqn:Ea; try contradiction; try (exists A; apply Go; exact T3);
    try (destruct (Ac I T3) as (A' & R'); exists A'; apply Go; exact R'); (destruct (Wk eq_refl T3) as (A' & R'); exists A'; apply Go; exact R').
Qed.

Lemma print_same : forall a s, printing_call [] a -> do_action [] a (set_state S_RESET_PROMPT s) = do_action [] a s.
Proof.
  intros a s P. destruct a; cbn [printing_call] in P; try contradiction; cbn [do_action]; reflexivity.
Qed.

Lemma print_total : forall own W w held a s, wout s -> bufs_ok s -> printing_call [] a -> (forall u, a = APrintf u -> 20 <= d_outsize (o_desc s)) ->
  exists s', do_action [] a s = Ok s' /\ track own W w held 8 s' /\ aloof s'.
Proof.
  intros own W w held a s Wo B P L. set (s0 := set_state S_RESET_PROMPT s).
  assert (Sp : exists buf, speaks s0 s0 buf [] /\ (20 <= d_outsize (o_desc s) \/ length (buf_text buf) < d_outsize (o_desc s))).
  { destruct (o_wbuf s) as [p|] eqn:Wb.
    - destruct p as [k| |u].
      + exists None. split; [|right; destruct B as (_ & _ & _ & B); cbn; lia]. do 4 (split; [reflexivity|]). split; [cbn; congruence|left; auto].
      + destruct (Wo Wb) as (full & q & H). exists (Some (full, q)). split; [|apply H]. do 4 (split; [reflexivity|]). split; [exact H|left; auto].
      + exists None. split; [|right; destruct B as (_ & _ & _ & B); cbn; lia]. do 4 (split; [reflexivity|]). split; [cbn; congruence|left; auto].
    - exists None. split; [|right; destruct B as (_ & _ & _ & B); cbn; lia]. do 4 (split; [reflexivity|]). split; [cbn; congruence|left; auto]. }
  destruct Sp as (buf & Sp & Rm). destruct (call_speaks [] [] a s0 s0 buf [] Sp B eq_refl P) as (s' & buf' & t' & E & Sp' & _).
  { destruct a; cbn [printing_call] in P; try contradiction; cbn [formatted]; rewrite ?Nat.add_0_r; try exact Rm. left. eapply L. reflexivity. }
  exists s'. split; [rewrite <- (print_same a s P); exact E|]. split; [eapply speaks_track, speaks_self; exact Sp'|].
  eapply action_keepsq; [|exact E|apply aloof_state; [discriminate|reflexivity]]. destruct a; cbn in *; auto. contradiction.
Qed.

Lemma flush_total : forall own W w held s u, bufs_ok s -> ~ In NUL u -> length u < d_outsize (o_desc s) ->
  exists s', do_actions [] [AWriteOut u; AFlush] s = Ok s' /\ track own W w held 8 s' /\ aloof s'.
Proof.
  intros own W w held s u B Nu L. pose proof B as (_ & B2 & _). cbn [do_actions do_action]. rewrite c_strcpy_0 by lia. cbn [bind]. set (b := u ++ NUL :: _).
  unfold ush_flush. rewrite (wp_eq WOut S_RESET_PROMPT (set_outb b s) u) by (apply c_str_0; exact Nu). cbn [bind]. eexists. split; [reflexivity|]. split; [|apply aloof_write; reflexivity].
  eapply (track_out own W w held 8 u S_RESET_PROMPT s); [exists b; split; [reflexivity|]|discriminate|cbn [ready]; lia]. split; [unfold b; eauto|]. split; assumption.
Qed.

Lemma reset_track : forall own W w held s, track own W w held 8 (ush_reset s) /\ aloof (ush_reset s).
Proof. intros own W w held s. split; [apply track_str; [discriminate|cbn [ready]; lia]|apply aloof_write; reflexivity]. Qed.

(** ** Whatever happens *)
Lemma lived_reached : forall own x W w0 s0 ops held s, lived own x W w0 s0 ops held s -> reached own x W w0 s0 ops s.
Proof.
  intros own x W w0 s0 ops held s H. induction H as [|ops held s i b s' evs H IH Ei Tb Sv Lg|ops held s o r s' H IH A D|ops held s a s' H IH P L D|ops held s u s' H IH N L D|ops held s H IH].
  - constructor.
  - eapply reached_service; eauto.
  - destruct A as (A1 & A2 & A3 & _). eapply reached_call; eauto.
  - eapply reached_print; eauto.
  - eapply reached_flush; eauto.
  - apply reached_reset. exact IH.
Qed.
Lemma note_track : forall own W w held A s, track own W w (used_ids w ++ held) A s -> track own W w (note s w held) A s.
Proof.
  intros own W w held A s T. unfold note. destruct (o_state s) eqn:St; try exact T. destruct T as (T1 & T2 & T3). split; [exact T1|]. split; [exact T2|].
  unfold at_state in *. rewrite St in *. exact T3.
Qed.

Lemma lived_course : forall own x W w0 s0 ops held s, ample own x W -> W w0 -> begins own x w0 s0 -> lived own x W w0 s0 ops held s ->
  on_course own x W (snd (spec_ops ops w0)) s.
Proof. intros own x W w0 s0 ops held s Am Ww Bg H. eapply reached_course; [exact Am|exact Ww|eapply begins_rest; exact Bg|eapply lived_reached; exact H]. Qed.

Lemma lived_track : forall own x W w0 s0 ops held s, ample own x W -> W w0 -> begins own x w0 s0 -> lived own x W w0 s0 ops held s ->
  exists A, track own W (snd (spec_ops ops w0)) held A s.
Proof.
  intros own x W w0 s0 ops held s Am Ww Bg H. induction H as [|ops held s i b s' evs H IH Ei Tb Sv Lg ops'|ops held s o r s' H IH A D ops'|ops held s a s' H IH P L D|ops held s u s' H IH N L D|ops held s H IH].
  - eapply begins_track; exact Bg.
  - destruct IH as (A & T). pose proof (lived_course _ _ _ _ _ _ _ _ Am Ww Bg H) as C. destruct (service_total own x W _ held A i s Am C T Ei Tb) as (b2 & s2 & E & Go). rewrite Sv in E. injection E as <- <-.
    destruct (service_goes own x W _ i s b s' Am C Ei Sv) as (w' & G). destruct (Go w' G) as (A' & T' & _).
    assert (Ew : w' = snd (spec_ops ops' w0)) by (unfold ops'; rewrite (goes_w _ _ _ _ _ _ _ _ G Lg), spec_ops_app; reflexivity). rewrite <- Ew. exists A'. apply note_track. exact T'.
  - destruct IH as (B & T). destruct A as (A1 & A2 & A3 & A4). pose proof (lived_course _ _ _ _ _ _ _ _ Am Ww Bg H) as (K & _ & _ & _ & Ds & _). rewrite <- Ds in A1.
    destruct (op_step own o s _ K A1) as (s2 & E & K' & Ot). rewrite D in E. injection E as -> <-.
    destruct (op_track own W _ held B o s _ s' T D Ot K' A3) as (A' & T'); [|exact A4|].
    { rewrite Ds. destruct (Am _ A3) as (_ & _ & _ & _ & X & _). exact X. }
    assert (Ew : snd (spec_op o (snd (spec_ops ops w0))) = snd (spec_ops ops' w0)) by (unfold ops'; rewrite spec_ops_app, spec_ops_cons; reflexivity). rewrite Ew in T'. exists A'. apply note_track. exact T'.
  - destruct IH as (A & T). pose proof (lived_course _ _ _ _ _ _ _ _ Am Ww Bg H) as (_ & _ & _ & B & Ds & _). rewrite <- Ds in L. exists 8.
    destruct (print_total own W (snd (spec_ops ops w0)) held a s (proj1 T) B P L) as (s2 & E & T' & _). rewrite D in E. injection E as <-. exact T'.
  - pose proof (lived_course _ _ _ _ _ _ _ _ Am Ww Bg H) as (_ & _ & _ & B & Ds & _). rewrite <- Ds in L. exists 8.
    destruct (flush_total own W (snd (spec_ops ops w0)) held s u B N L) as (s2 & E & T' & _). rewrite D in E. injection E as <-. exact T'.
  - exists 8. apply reset_track.
Qed.

Lemma lived_calm : forall own x W w0 s0 ops held s, well_behaved x -> ample own x W -> W w0 -> begins own x w0 s0 -> lived own x W w0 s0 ops held s -> calm s.
Proof.
  intros own x W w0 s0 ops held s Wb Am Ww Bg H. induction H as [|ops held s i b s' evs H IH Ei Tb Sv Lg|ops held s o r s' H IH A D|ops held s a s' H IH P L D|ops held s u s' H IH N L D|ops held s H IH].
  - eapply begins_calm; exact Bg.
  - eapply service_calm; [rewrite Ei; apply Wb|exact IH|exact Sv].
  - destruct A as (A1 & A2 & A3 & A4). pose proof (lived_course _ _ _ _ _ _ _ _ Am Ww Bg H) as (K & _ & _ & _ & Ds & _). rewrite <- Ds in A1.
    destruct (op_step own o s _ K A1) as (s2 & E & _ & Ot). rewrite D in E. injection E as -> <-. apply only_tree_ex in Ot as (y1 & y2 & y3 & h & ->). exact IH.
  - destruct (lived_track _ _ _ _ _ _ _ _ Am Ww Bg H) as (A & T). pose proof (lived_course _ _ _ _ _ _ _ _ Am Ww Bg H) as (_ & _ & _ & B & Ds & _). rewrite <- Ds in L.
    destruct (print_total own W (snd (spec_ops ops w0)) held a s (proj1 T) B P L) as (s2 & E & _ & Al). rewrite D in E. injection E as <-. apply calm_aloof. exact Al.
  - pose proof (lived_course _ _ _ _ _ _ _ _ Am Ww Bg H) as (_ & _ & _ & B & Ds & _). rewrite <- Ds in L.
    destruct (flush_total own W (snd (spec_ops ops w0)) held s u B N L) as (s2 & E & _ & Al). rewrite D in E. injection E as <-. apply calm_aloof. exact Al.
  - apply calm_aloof. apply (reset_track own W w0 []).
Qed.

Lemma rests : forall own x W w held A i s b s', ample own x W -> on_course own x W w s -> track own W w held A s -> phase (at_state s) = 0 -> ~ polling s -> ush_service i s = Ok (b, s') -> logs harmless s s'.
Proof.
  intros own x W w held A i s b s' Am C T P N H. pose proof C as (K & Wc & _). rewrite service_eq in H. destruct (o_cur s) as [cu|] eqn:Cu; [|discriminate].
  assert (Pr : match o_state s with S_RESET | S_RESET_PROMPT | S_PROMPT_PREFIX | S_PROMPT_HOST | S_PROMPT_SPACE | S_PROMPT_PATH | S_PROMPT_SUFFIX => True | _ => False end -> logs harmless s s').
  { intros X. destruct (prompt_total own x W w held A i s C T X) as (s2 & E & L & _). rewrite H in E. injection E as _ <-. apply logs_refl. exact L. }
  assert (Ac : completing (o_state s) -> logs harmless s s').
  { intros X. destruct (ac_total own x W w held A i s Am C T X) as (s2 & E & L & _). rewrite H in E. injection E as _ <-. apply logs_refl. exact L. }
  unfold polling in N. destruct (o_state s) eqn:St; try (apply Pr; exact I); try (apply Ac; exact I); try (exfalso; unfold at_state in P; rewrite St in P; discriminate P); try congruence;
    try (exfalso; destruct T as (_ & _ & R); unfold at_state in R; rewrite St in R; exact R).
  - destruct (start_total own x W w held A i s C T St) as (s2 & E & L & _). rewrite H in E. injection E as _ <-. apply logs_refl. exact L.
  - destruct (write_total own W w held A (io_wr i) s T St) as (s2 & E & L & _). unfold svc in H. rewrite St, E in H. injection H as _ <-. exact L.
Qed.

Lemma less_phase : forall m a l m' a' l', less m' a' l' m a l -> m' <= m.
Proof. intros m a l m' a' l' [L|(-> & _)]; lia. Qed.

Lemma quiet_by_det : forall e s s1 s2, quiet_by e s s1 -> quiet_by e s s2 -> s1 = s2.
Proof.
  intros e s s1 s2 Q. revert s2. induction Q as [s P|s b s1 s3 N H _ IH]; intros s2 Q2; inversion Q2; subst; try contradiction; [reflexivity|]. apply IH.
  match goal with X : ush_service _ s = Ok (_, ?y) |- quiet_by e s1 s2 => rewrite H in X; injection X as _ <- end. assumption.
Qed.
(** The shell gets back to polling; whatever it was doing, it ends with a prompt. *)
Lemma track_quiet : forall own x W m A l w held s, ample own x W -> on_course own x W w s -> track own W w held A s -> m = phase (at_state s) -> l = todo s ->
  exists w' s' held' A', quiet_by (app_of x) s s' /\ goes own x W w s w' s' /\ polling s' /\ track own W w' held' A' s' /\
    (m = 0 -> logs harmless s s') /\ (1 <= m -> editing 0 [] s' /\ exists e1, lg s' = lg s ++ e1 ++ map EvOut (prompt (x_desc x) (show (here w')))).
Proof.
  intros own x W m A l. revert m A l. apply (less_ind (fun m A l => forall w held s, ample own x W -> on_course own x W w s -> track own W w held A s -> m = phase (at_state s) -> l = todo s ->
    exists w' s' held' A', quiet_by (app_of x) s s' /\ goes own x W w s w' s' /\ polling s' /\ track own W w' held' A' s' /\
    (m = 0 -> logs harmless s s') /\ (1 <= m -> editing 0 [] s' /\ exists e1, lg s' = lg s ++ e1 ++ map EvOut (prompt (x_desc x) (show (here w')))))).
  intros m A l IH w held s Am C T -> ->. destruct (polling_dec s) as [P|P].
  - exists w, s, held, A. split; [apply quiet_by_here; exact P|]. split; [apply goes_refl; exact C|]. split; [exact P|]. split; [exact T|]. split; [intros _; apply logs_refl; reflexivity|].
    unfold polling in P. unfold at_state. rewrite P. cbn. lia.
  - assert (D : o_state s = S_RESET_PROMPT \/ o_state s <> S_RESET_PROMPT) by (destruct (o_state s); (left; reflexivity) || (right; discriminate)). 
    set (i := tick (app_of x (lg s)) None). destruct (service_total own x W w held A i s Am C T eq_refl) as (b & s1 & E & Go); [contradiction|].
    destruct (service_goes own x W w i s b s1 Am C eq_refl E) as (w1 & G). destruct (Go w1 G) as (A1 & T1 & On). destruct (On P eq_refl) as (Le & Ke). pose proof G as (_ & _ & _ & C1).
    destruct (IH _ _ _ Le w1 _ s1 Am C1 T1 eq_refl eq_refl) as (w2 & s2 & h2 & A2 & Q & G2 & P2 & T2 & Z2 & N2).
    assert (Q0 : quiet_by (app_of x) s s2) by (eapply quiet_by_step; eauto). pose proof (goes_trans _ _ _ _ _ _ _ _ _ G G2) as G0.
    exists w2, s2, h2, A2. split; [exact Q0|]. split; [exact G0|]. split; [exact P2|]. split; [exact T2|]. split.
    + intros Z. eapply logs_trans; [exact (rests own x W w held A i s b s1 Am C T Z P E)|]. apply Z2. apply less_phase in Le. lia.
    + intros M. destruct D as [D|D].
      * pose proof C as (K & Wc & Ww & B & Ds & _). destruct (w_cwd w) as [cwd|] eqn:Ec; [|congruence]. pose proof (cwd_show _ _ _ _ K Ec) as Wd.
        destruct (quiet_reset_prompt (x_app x (ins (lg s))) s (show cwd) D Wd B) as (s3 & Q3 & Ed & _ & _ & L3).
        assert (s3 = s2) as -> by (eapply quiet_by_det; [apply (quiet_on_input (x_app x)); exact Q3|exact Q0]). split; [exact Ed|]. exists []. cbn [app]. rewrite Ds in L3.
        assert (w2 = w) as ->; [|unfold here; rewrite Ec; exact L3]. rewrite (goes_w _ _ _ _ _ _ _ _ G0 L3), deeds_none; [reflexivity|]. apply Forall_forall. intros ev I. apply in_map_iff in I as (? & <- & _). exact I.
      * destruct (N2 (Ke M D)) as (Ed & e1 & L2). split; [exact Ed|]. destruct G as (e0 & L1 & _). exists (e0 ++ e1). rewrite L2, L1, <- !app_assoc. reflexivity.
Qed.

Lemma quiet_noin : forall e s s', quiet_by e s s' -> logs ev_noin s s'.
Proof.
  intros e s s' Q. induction Q as [s P|s b s1 s2 N H _ IH]; [apply logs_refl; reflexivity|]. eapply logs_trans; [eapply service_noin; eauto|exact IH].
Qed.
Lemma noin_ins : forall evs, Forall ev_noin evs -> ins evs = [].
Proof. intros evs F. induction F as [|ev evs He F IH]; [reflexivity|]. destruct ev; cbn in *; try contradiction; exact IH. Qed.

Lemma polling_shows : forall own x W w held A s, on_course own x W w s -> track own W w held A s -> polling s -> exists l, shows own x (mkSess w (ins (lg s)) (o_esc s) l) s.
Proof.
  intros own x W w held A s (K & Wc & _ & B & Ds & _) (_ & _ & R) P. unfold polling in P. unfold at_state in R. rewrite P in R. destruct R as (Es & l & r & Ei & Ip & El). exists l.
  split; [exact Ds|]. split; [exact K|]. split; [exact Wc|]. split; [reflexivity|]. split; [|split; [exact B|split; [exact Es|exact El]]]. split; [exact P|]. split; [reflexivity|]. split; [exact Ip|eauto].
Qed.

(** ** C54 *)
Lemma C54_service_proof : forall own x W w0 s0 ops held s i, ample own x W -> W w0 -> begins own x w0 s0 -> lived own x W w0 s0 ops held s ->
  io_env i = app_of x (lg s) -> (polling s -> io_rd i = Some TAB -> cfg_autocomp (d_cfg (x_desc x)) = true -> tab_fine x W s) ->
  exists b s' evs, ush_service i s = Ok (b, s') /\ lg s' = lg s ++ evs /\ let w := snd (spec_ops (ops ++ deeds x (lg s) evs) w0) in knows own s' w /\ w_cwd w <> None /\ W w.
Proof.
  intros own x W w0 s0 ops held s i Am Ww Bg H Ei Tb. destruct (lived_track _ _ _ _ _ _ _ _ Am Ww Bg H) as (A & T). pose proof (lived_course _ _ _ _ _ _ _ _ Am Ww Bg H) as C.
  destruct (service_total own x W _ held A i s Am C T Ei Tb) as (b & s' & E & _). destruct (service_goes own x W _ i s b s' Am C Ei E) as (w' & evs & Lg & Ew & K & Wc & Ww' & _).
  exists b, s', evs. split; [exact E|]. split; [exact Lg|]. rewrite spec_ops_app, <- Ew. auto.
Qed.

Lemma C54_call_proof : forall own x W w0 s0 ops held s o, ample own x W -> W w0 -> begins own x w0 s0 -> lived own x W w0 s0 ops held s ->
  let w := snd (spec_ops ops w0) in allowed (d_pathmax (x_desc x)) own w o ->
  exists s', do_op o s = Ok (fst (spec_op o w), s') /\ knows own s' (snd (spec_op o w)) /\ only_tree own s s'.
Proof.
  intros own x W w0 s0 ops held s o Am Ww Bg H w A. pose proof (lived_course _ _ _ _ _ _ _ _ Am Ww Bg H) as (K & _ & _ & _ & Ds & _). rewrite <- Ds in A. apply op_step; assumption.
Qed.

Lemma C54_print_proof : forall own x W w0 s0 ops held s a, ample own x W -> W w0 -> begins own x w0 s0 -> lived own x W w0 s0 ops held s ->
  printing_call [] a -> (forall u, a = APrintf u -> 20 <= d_outsize (x_desc x)) -> exists s', do_action [] a s = Ok s'.
Proof.
  intros own x W w0 s0 ops held s a Am Ww Bg H P L. destruct (lived_track _ _ _ _ _ _ _ _ Am Ww Bg H) as (A & T). pose proof (lived_course _ _ _ _ _ _ _ _ Am Ww Bg H) as (_ & _ & _ & B & Ds & _). rewrite <- Ds in L.
  destruct (print_total own W (snd (spec_ops ops w0)) held a s (proj1 T) B P L) as (s' & E & _). eauto.
Qed.

Lemma C54_flush_proof : forall own x W w0 s0 ops held s u, ample own x W -> W w0 -> begins own x w0 s0 -> lived own x W w0 s0 ops held s ->
  ~ In NUL u -> length u < d_outsize (x_desc x) -> exists s', do_actions [] [AWriteOut u; AFlush] s = Ok s'.
Proof.
  intros own x W w0 s0 ops held s u Am Ww Bg H N L. pose proof (lived_course _ _ _ _ _ _ _ _ Am Ww Bg H) as (_ & _ & _ & B & Ds & _). rewrite <- Ds in L.
  destruct (flush_total own W (snd (spec_ops ops w0)) held s u B N L) as (s' & E & _). eauto.
Qed.

Lemma C54_returns_proof : forall own x W w0 s0 ops held s q, well_behaved x -> ample own x W -> W w0 -> begins own x w0 s0 -> lived own x W w0 s0 ops held s ->
  exists evs a, let z := sess_run x a q in
    se_world a = snd (spec_ops (ops ++ deeds x (lg s) evs) w0) /\ se_read a = ins (lg s) /\
    ((exists e1, evs = e1 ++ map EvOut (prompt (x_desc x) (show (here (se_world a)))) /\ se_line a = [] /\ se_esc a = 0) \/ (exists t, evs = map EvOut t)) /\
    (tabs_fit x a q -> (forall l, exists q' s2, drive (app_of x) q l s = Ok (q', s2)) /\
    exists n s2, (forall l, n <= both_ready l -> drive (app_of x) q l s = Ok ([], s2)) /\
      shows own x (snd z) s2 /\ settled s2 /\ W (se_world (snd z)) /\ lg s2 = lg s ++ evs ++ fst z).
Proof.
  intros own x W w0 s0 ops held s q Wb Am Ww Bg H. destruct (lived_track _ _ _ _ _ _ _ _ Am Ww Bg H) as (A & T). pose proof (lived_course _ _ _ _ _ _ _ _ Am Ww Bg H) as C.
  destruct (track_quiet own x W _ A _ _ held s Am C T eq_refl eq_refl) as (w' & s1 & held' & A' & Q & (evs & Lg & Ew & C1) & P1 & T1 & Z & N).
  destruct (quiet_noin _ _ _ Q) as (ev2 & Lg2 & Fn). rewrite Lg in Lg2. apply app_inv_head in Lg2. subst ev2.
  assert (Rd : ins (lg s1) = ins (lg s)) by (rewrite Lg; unfold ins; rewrite flat_map_app; fold (ins evs); rewrite (noin_ins _ Fn), app_nil_r; reflexivity).
  assert (X : exists l k, shows own x (mkSess w' (ins (lg s1)) k l) s1 /\ ((exists e1, evs = e1 ++ map EvOut (prompt (x_desc x) (show (here w'))) /\ l = [] /\ k = 0) \/ (exists t, evs = map EvOut t))).
  { assert (Dm : phase (at_state s) = 0 \/ 1 <= phase (at_state s)) by lia. destruct Dm as [M|M].
    - destruct (polling_shows own x W w' held' A' s1 C1 T1 P1) as (l & Sh). exists l, (o_esc s1). split; [exact Sh|]. right. destruct (Z M) as (ev2 & L2 & F2). rewrite Lg in L2. apply app_inv_head in L2. subst ev2. clear -Fn F2.
      induction evs as [|ev evs IH]; [exists []; reflexivity|]. inversion Fn; inversion F2; subst. destruct IH as (t & ->); auto. destruct ev; cbn in *; try contradiction. exists (c :: t). reflexivity.
    - destruct (N M) as (Ed & e1 & L2). exists [], 0. split; [|left; exists e1; split; [rewrite Lg in L2; apply app_inv_head in L2; exact L2|auto]]. destruct C1 as (K & Wc & _ & B & Ds & _).
      split; [exact Ds|]. split; [exact K|]. split; [exact Wc|]. split; [reflexivity|]. split; [exact Ed|]. split; [exact B|]. split; [cbn; lia|]. split; intros []. }
  destruct X as (l & k & Sh & Ends). set (a := mkSess w' (ins (lg s1)) k l) in *.
  exists evs, a. cbv zeta. split; [unfold a; cbn [se_world]; rewrite spec_ops_app; exact Ew|]. split; [exact Rd|]. split; [exact Ends|].
  assert (W1 : W (se_world a)) by (destruct C1 as (_ & _ & X & _); exact X).
  intros Nt. pose proof (tabs_run own x W q a s1 (ample_snug own x W Am) W1 Sh Nt) as Li. destruct (schedule_done own x q a s s1 Q Sh Li) as (B & n & s3 & Dr & Sh3 & Lg3). split; [exact B|]. exists n, s3. split; [exact Dr|].
  split; [exact Sh3|]. split; [|split; [exact (ample_walk own x W q a Am W1)|rewrite Lg3, Lg, app_assoc; reflexivity]].
  apply calm_settled; [exact (shows_polling _ _ _ _ Sh3)|]. eapply drive_calm; [exact Wb|exact (lived_calm _ _ _ _ _ _ _ _ Wb Am Ww Bg H)|].
  apply (Dr (repeat (true, true) n)). clear. induction n as [|n IH]; [reflexivity|]. apply le_n_S in IH. exact IH.
Qed.

(** ** A whole schedule *)
Lemma note_in : forall s w held id, In id (note s w held) -> In id held \/ In id (used_ids w).
Proof. intros s w held id I. assert (J : In id (used_ids w ++ held) \/ In id (used_ids w)) by (unfold note in I; destruct (o_state s); auto). destruct J as [J|J]; [|auto]. apply in_app_or in J as [J|J]; auto. Qed.

Lemma C54_drive_proof : forall own x W w0 s0 l cs ops held s q s', lived own x W w0 s0 ops held s ->
  (forall l1 l2 q1 s1, l = l1 ++ l2 -> drive (app_of x) cs l1 s = Ok (TAB :: q1, s1) -> polling s1 -> cfg_autocomp (d_cfg (x_desc x)) = true -> tab_fine x W s1) ->
  drive (app_of x) cs l s = Ok (q, s') ->
  exists evs held', lg s' = lg s ++ evs /\ lived own x W w0 s0 (ops ++ deeds x (lg s) evs) held' s' /\
    forall id, In id held' -> In id held \/ exists p r, evs = p ++ r /\ In id (used_ids (snd (spec_ops (ops ++ deeds x (lg s) p) w0))).
Proof.
  intros own x W w0 s0 l. induction l as [|(r, v) l IH]; intros cs ops held s q s' H Tb D; cbn [drive] in D.
  - oks. exists [], held. cbn [deeds]. rewrite !app_nil_r. split; [reflexivity|]. split; [exact H|auto].
  - ok1. destruct a as [b s1]. destruct (service_grows _ _ _ _ E) as (e1 & L1).
    assert (R1 : lived own x W w0 s0 (ops ++ deeds x (lg s) e1) (note s1 (snd (spec_ops (ops ++ deeds x (lg s) e1) w0)) held) s1).
    { eapply lived_service; [exact H| | |exact E|exact L1]; [reflexivity|]. intros P Rd Ca. cbn [io_rd] in Rd. destruct r; [|discriminate]. destruct cs as [|c cs]; [discriminate|]. injection Rd as ->. apply (Tb [] ((true, v) :: l) cs s eq_refl eq_refl P Ca). }
    match type of D with drive _ ?c _ _ = _ => destruct (IH c _ _ s1 q s' R1) as (e2 & h2 & L2 & R2 & Hh); [|exact D|] end.
    { intros l1 l2 q1 s2 El Dl. apply (Tb ((r, v) :: l1) l2 q1 s2); [rewrite El; reflexivity|]. cbn [drive]. rewrite E. exact Dl. }
    exists (e1 ++ e2), h2. split; [rewrite L2, L1, app_assoc; reflexivity|]. split; [rewrite deeds_app, app_assoc, <- L1; exact R2|].
    intros id I. destruct (Hh id I) as [J|(p & r' & Ep & J)].
    + apply note_in in J as [J|J]; [auto|]. right. exists e1, e2. split; [reflexivity|exact J].
    + right. exists (e1 ++ p), r'. split; [rewrite Ep, app_assoc; reflexivity|]. rewrite deeds_app, app_assoc, <- L1. exact J.
Qed.

Lemma drive_suffix : forall a l cs s q s', drive a cs l s = Ok (q, s') -> exists p, cs = p ++ q.
Proof.
  intros a l. induction l as [|(r, v) l IH]; intros cs s q s' D; cbn [drive] in D; [oks; exists []; reflexivity|]. ok1. destruct a0 as [b s1]. apply IH in D as (p & D).
  destruct (o_state s); try (exists p; exact D). destruct r; [|exists p; exact D]. destruct cs as [|c cs]; [exists p; exact D|]. exists (c :: p). cbn [hd_error tl] in D. rewrite D. reflexivity.
Qed.
Lemma no_tab : forall a (P : st -> Prop) l cs s, ~ In TAB cs -> forall l1 l2 q1 s1, l = l1 ++ l2 -> drive a cs l1 s = Ok (TAB :: q1, s1) -> P s1.
Proof. intros a P l cs s N l1 l2 q1 s1 _ D. apply drive_suffix in D as (p & ->). elim N. apply in_elt. Qed.
Lemma plain_keys : forall x W l cs s, existsb (ceq TAB) cs = false ->
  forall l1 l2 q1 s1, l = l1 ++ l2 -> drive (app_of x) cs l1 s = Ok (TAB :: q1, s1) -> polling s1 -> cfg_autocomp (d_cfg (x_desc x)) = true -> tab_fine x W s1.
Proof.
  intros x W l cs s E l1 l2 q1 s1 El D _ _. apply (no_tab (app_of x) (tab_fine x W) l cs s) with (l1 := l1) (l2 := l2) (q1 := q1); [|exact El|exact D].
  intros I. assert (X : existsb (ceq TAB) cs = true) by (apply existsb_exists; exists TAB; split; [exact I|reflexivity]). congruence.
Qed.
Lemma one_tab : forall a (P : st -> Prop) l s, polling s -> P s -> forall l1 l2 q1 s1, (true, true) :: l = l1 ++ l2 -> drive a [TAB] l1 s = Ok (TAB :: q1, s1) -> P s1.
Proof.
  intros a P l s Po H l1 l2 q1 s1 E D. destruct l1 as [|(r, v) l1]; [cbn in D; injection D as _ <-; exact H|]. injection E as <- <- E. cbn [drive] in D. ok1. destruct a0 as [b s2].
  unfold polling in Po. rewrite Po in D. cbn [hd_error tl] in D. apply drive_suffix in D as (p & D). destruct p; discriminate.
Qed.

Lemma tab_key : forall x W l s, polling s -> tab_fine x W s ->
  forall l1 l2 q1 s1, (true, true) :: l = l1 ++ l2 -> drive (app_of x) [TAB] l1 s = Ok (TAB :: q1, s1) -> polling s1 -> cfg_autocomp (d_cfg (x_desc x)) = true -> tab_fine x W s1.
Proof. intros x W l s P H l1 l2 q1 s1 El D _ _. exact (one_tab (app_of x) (tab_fine x W) l s P H l1 l2 q1 s1 El D). Qed.

Lemma init_wbuf : forall d ib ob s s', ush_init d ib ob s = Ok s' -> o_wbuf s' = Some (WStr greeting).
Proof. intros d ib ob s s' H. unfold ush_init in H. do 3 ok1. injection H as <-. reflexivity. Qed.
Lemma start_again : forall d d0 b ib0 ob0 h l ib ob own os f, 2 <= d_insize d -> 4 <= d_outsize d -> length ib = d_insize d -> length ob = d_outsize d ->
  (cfg_commands (d_cfg d) = true -> buildin_commands (d_cfg d) <> []) -> In b own -> childless own h ->
  let w0 := mkWorld [] (if cfg_commands (d_cfg d) then [(b, buildin_commands (d_cfg d))] else []) None in
  all_allowed (d_pathmax d) own os w0 -> w_cwd (snd (spec_ops os w0)) <> None ->
  exists s0 s1, ush_init d ib ob (st_zero d0 b ib0 ob0 h l) = Ok s0 /\ do_ops os s0 = Ok (fst (spec_ops os w0), s1) /\
    begins own (mkSetting d f) (snd (spec_ops os w0)) s1.
Proof.
  intros d d0 b ib0 ob0 h l ib ob own os f I1 O1 Li Lo Bc Ib Hz w0 Al Wc.
  destruct (init_proof d d0 b ib0 ob0 h l ib ob own) as (s0 & E0 & K0 & D0 & Ei & Eo & El & _ & P0 & N0 & _); auto; [lia|].
  fold w0 in K0. rewrite <- D0 in Al. destruct (C15_history_proof own os s0 w0 K0 Al) as (s1 & E1 & K1 & (T1 & _)).
  assert (F : o_desc s1 = d /\ inb s1 = ib /\ outb s1 = ob /\ o_wnext s1 = S_RESET_PROMPT /\ pending s1 greeting /\ o_wbuf s1 = Some (WStr greeting)).
  { rewrite T1. split; [exact D0|]. split; [exact Ei|]. split; [exact Eo|]. split; [exact N0|]. split; [exact P0|]. exact (init_wbuf _ _ _ _ _ E0). }
  destruct F as (F1 & F2 & F3 & F5 & F6 & F7). exists s0, s1. split; [exact E0|]. split; [exact E1|]. right.
  split; [exact F1|]. split; [exact K1|]. split; [exact Wc|]. split; [unfold bufs_ok; rewrite F1, F2, F3; auto|]. split; [exact F6|]. split; [exact F5|]. rewrite F7. discriminate.
Qed.
Lemma C54_start_proof : forall d d0 b ib0 ob0 h l ib ob own os f, 2 <= d_insize d -> 4 <= d_outsize d -> length ib = d_insize d -> length ob = d_outsize d ->
  (cfg_commands (d_cfg d) = true -> buildin_commands (d_cfg d) <> []) -> In b own -> (forall i, In i own -> nth_error h i = Some node_zero) ->
  let w0 := mkWorld [] (if cfg_commands (d_cfg d) then [(b, buildin_commands (d_cfg d))] else []) None in
  all_allowed (d_pathmax d) own os w0 -> w_cwd (snd (spec_ops os w0)) <> None ->
  exists s0 s1, ush_init d ib ob (st_zero d0 b ib0 ob0 h l) = Ok s0 /\ do_ops os s0 = Ok (fst (spec_ops os w0), s1) /\
    begins own (mkSetting d f) (snd (spec_ops os w0)) s1.
Proof. intros. eapply start_again; eauto. apply blank_childless; auto. Qed.
