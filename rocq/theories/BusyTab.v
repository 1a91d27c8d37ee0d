(** * BusyTab: completion at work is never stuck. *)
From Coq Require Import Arith.
From Verif Require Import Types Shell Words BaseFacts PathFacts LogFacts Sched ServiceFacts SchedFacts Macro Editor EditFacts PromptFacts Line Spec Cmds CmdFacts CollapseFacts PathProofs Tree TreeFacts TreeFind TreeOps TreeProofs Complete CompleteFacts CompleteProofs GetProofs PrintfFacts ReconfProofs CmdProofs Session SessionProofs Interrupt StepFacts InterruptProofs Busy BusyFacts BusyTrack.

Definition ac_mode_state (n : fsm) : Prop := n = S_AC_COUNT \/ n = S_AC_OPTIMISE \/ n = S_AC_PRINT.
Lemma track_in : forall own W w held A off u n s, c_str (inb s) off = Ok u -> n <> S_WRITE_CHAR -> ready own W w held False (last_job (lg s)) n s A -> track own W w held A (ush_write_pointer_bin (WIn off) (length u) n s).
Proof.
  intros own W w held A off u n s Eu N R. split; [intros X; discriminate X|]. split; [intros _; exists u; apply pending_wpb; apply points_str; exact Eu|].
  match goal with |- ready _ _ _ _ _ _ ?k _ _ => change k with n end. destruct n; try exact R; try contradiction; try (destruct R as (X & _); contradiction).
Qed.
Lemma track_now : forall own W w held A n s, wout s -> o_state s = n -> n <> S_WRITE_CHAR -> ready own W w held (echoed s) (last_job (lg s)) n s A -> track own W w held A s.
Proof. intros own W w held A n s Wo E N R. split; [exact Wo|]. split; [congruence|]. rewrite (at_eq s n E N). exact R. Qed.

Lemma cost_at : forall h G1 i G2 nd, nth_error h i = Some nd -> 3 * length (n_files nd) + 3 + cost h G2 <= cost h (G1 ++ i :: G2).
Proof. intros h G1 i G2 nd E. induction G1 as [|j G1 IH]; cbn [app cost]; [unfold node_cost; rewrite E; lia|lia]. Qed.
Lemma cost_len : forall P h G, web P h G -> 3 * length G <= cost h G.
Proof. intros P h G. induction G as [|i G IH]; intros H; [cbn; lia|]. destruct H as ((nd & E & _) & H). apply IH in H. cbn [length cost]. unfold node_cost. rewrite E. lia. Qed.

(** The directory whose sub-directories are enumerated is mounted. *)
Lemma tab_parent : forall own s w cwd off x, knows own s w -> w_cwd w = Some cwd -> o_acin s = Some off -> c_str (inb s) off = Ok x -> no_nul x -> length (full_text cwd x) < d_pathmax (o_desc s) -> o_pstage s = 1 ->
  exists d nd, In d (w_fs w) /\ nth_error (hp s) (de_node d) = Some nd /\
    ush_autocomp_check_for_finish s = Ok (set_pstage 2 (set_pitem 0 (set_pidx 0 (set_pnode (n_children nd) s)))).
Proof.
  intros own s w cwd off x Kn Cw W1 W2 N L Ps.
  pose proof Kn as (R & _ & _ & _ & _ & Wc). rewrite Cw in Wc. destruct Wc as (dc & Dc & Ec). pose proof R as (Fo & St & _).
  pose proof (dir_at_some _ _ _ Dc) as (Ic & Pc). destruct (St dc Ic) as (ndc & Enc & _).
  destruct (abs_path_world own s w x Kn N) as (Ab & _ & Okc); [rewrite Cw; discriminate|]. unfold here in *. rewrite Cw in *. specialize (Ab L).
  assert (Fin : forall pn d nd, (match x with [] => Ok (o_cur s) | _ => r <- ush_node_get_parent_by_path (d_pathmax (o_desc s)) (hp s) (o_root s) (show (resolve_text cwd x)) ;;
      match r with None => Ok (o_cur s) | Some i => Ok (Some i) end end) = Ok pn -> pn = Some (de_node d) -> nth_error (hp s) (de_node d) = Some nd ->
      ush_autocomp_check_for_finish s = Ok (set_pstage 2 (set_pitem 0 (set_pidx 0 (set_pnode (n_children nd) s))))).
  { intros pn d nd E1 E2 E3. unfold ush_autocomp_check_for_finish, ac_input. rewrite Ps, W1, W2. cbn [bind]. rewrite Ab. cbn [bind]. rewrite E1. cbn [bind]. rewrite E2. cbn [getp]. rewrite (getn_ok _ _ _ E3). reflexivity. }
  destruct x as [|c r] eqn:Ex; [exists dc, ndc; split; [exact Ic|]; split; [exact Enc|]; eapply Fin; eauto|].
  rewrite <- Ex in *. assert (Nx : x <> []) by (rewrite Ex; discriminate).
  assert (Nr : no_nul (show (resolve_text cwd x))) by (apply resolve_text_no_nul; auto).
  assert (Lr : length (show (resolve_text cwd x)) < d_pathmax (o_desc s)) by (pose proof (resolve_text_length cwd x); lia).
  destruct (path_upper_any _ Nr) as (b & u & U1 & U2 & U3 & U4).
  assert (G : ush_node_get_parent_by_path (d_pathmax (o_desc s)) (hp s) (o_root s) (show (resolve_text cwd x)) = Ok (match u with [] => None | _ => option_map de_node (dir_named u (w_fs w)) end))
    by (eapply parent_by_text; eauto; lia).
  remember (match u with [] => None | _ => option_map de_node (dir_named u (w_fs w)) end) as r0 eqn:Er. destruct r0 as [i|].
  - assert (exists d, In d (w_fs w) /\ de_node d = i) as (d & Id & <-).
    { destruct u as [|c0 u]; [discriminate|]. destruct (dir_named (c0 :: u) (w_fs w)) as [d|] eqn:Dn; [|discriminate]. injection Er as ->. exists d. split; [|reflexivity]. apply (dir_named_some _ _ _ Fo Dn). }
    destruct (St d Id) as (nd & En & _). exists d, nd. split; [exact Id|]. split; [exact En|]. apply (Fin (Some (de_node d)) d nd); auto. rewrite Ex in G |- *. rewrite G. reflexivity.
  - exists dc, ndc. split; [exact Ic|]. split; [exact Enc|]. apply (Fin (o_cur s) dc ndc); auto. rewrite Ex in G |- *. rewrite G. reflexivity.
Qed.

Lemma word_line : forall B t s, word_at B t s -> line_ok s.
Proof. intros B t s (H1 & (r & H2) & _ & H4 & H5 & _). split; [exact H5|]. exists (B ++ t), r. auto. Qed.
Lemma word_str : forall B t s, word_at B t s -> c_str (inb s) (length B) = Ok t.
Proof. intros B t s (_ & (r & H2) & H3 & _). rewrite H2, <- app_assoc. apply c_str_app; [reflexivity|]. apply no_nul_app in H3. apply H3. Qed.
Lemma word_short : forall B t s, bufs_ok s -> word_at B t s -> length B + length t < d_insize (o_desc s).
Proof. intros B t s (B1 & _) (_ & (r & H2) & _). rewrite <- B1, H2, !app_length. cbn [length]. lia. Qed.

(** The enumeration starts over. *)
Lemma cursor_start : forall own W w held B Gc Gd s b A, knows own s w -> webs own W w held B Gc Gd s -> b + ac_round (hp s) Gc Gd <= A ->
  ac_cursor Gc Gd (hp s) 0 (o_cmds s) 0 0 b A.
Proof.
  intros own W w held B Gc Gd s b A K (_ & Wc & Ic & _) L. unfold ac_round in L. destruct K as (_ & (_ & Ch & _) & _).
  assert (Hd : o_cmds s = hd_error (map fst (w_groups w))) by (destruct (map fst (w_groups w)); [exact Ch|exact (proj1 Ch)]). rewrite Hd.
  destruct (map fst (w_groups w)) as [|i r]; cbn [hd_error ac_cursor]; [lia|].
  assert (Ii : In i Gc) by (apply Ic; left; reflexivity). apply in_split in Ii as (G1 & G2 & E). pose proof Wc as Wc'. rewrite E in Wc'. destruct (web_in _ _ _ _ _ Wc') as (nd & En & _).
  exists G1, G2, nd. split; [exact E|]. split; [exact En|]. split; [lia|]. pose proof (cost_at (hp s) G1 i G2 nd En) as Co. rewrite <- E in Co. lia.
Qed.

Section Step.
Variables (own : list nat) (x : setting) (W : world -> Prop) (w : world) (held : list nat) (A : nat) (i : io) (s : st).
Hypothesis Am : ample own x W.
Hypothesis C : on_course own x W w s.
Hypothesis T : track own W w held A s.
Variables (B t : bytes) (Gc Gd : list nat).
Hypothesis Jb : last_job (lg s) = Some Completes.
Hypothesis Wb : webs own W w held B Gc Gd s.
Hypothesis Wd : word_at B t s.
Hypothesis Ai : o_acin s = Some (length B).

Lemma ac_wout : wout s. Proof. apply T. Qed.

(** The same word, in one of the three enumerations. *)
Lemma ac_intro : forall s1 n A1, ac_mode_state n -> hp s1 = hp s -> o_desc s1 = o_desc s -> inb s1 = inb s -> o_inpos s1 = o_inpos s -> o_esc s1 = o_esc s -> o_acin s1 = o_acin s -> lg s1 = lg s ->
  ac_mode_ok n B t s1 -> ac_cursor Gc Gd (hp s) (o_pstage s1) (o_pnode s1) (o_pitem s1) (o_pidx s1) (ac_base n (o_desc s) (hp s) B t Gc Gd) A1 ->
  forall Q, ready own W w held Q (last_job (lg s1)) n s1 A1.
Proof.
  intros s1 n A1 Hn E1 E2 E3 E4 E5 E6 E7 M Cu Q.
  assert (X : ac_ready own W w held (last_job (lg s1)) n s1 A1); [|destruct Hn as [->|[->| ->]]; exact X].
  split; [rewrite E7; exact Jb|]. exists B, t, Gc, Gd. split; [|split; [|split]].
  - unfold webs. rewrite E1, E2. exact Wb.
  - unfold word_at. rewrite E2, E3, E4, E5. exact Wd.
  - rewrite E6. destruct Hn as [->|[->| ->]]; exact Ai.
  - rewrite E1, E2. destruct Hn as [->|[->| ->]]; (split; [exact M|exact Cu]).
Qed.

Lemma mode_found : forall n nm s1, ac_mode_ok n B t s -> name_fits (o_desc s) B nm -> prefixb t nm = true -> o_accand s1 = Some nm -> o_acprevc s1 = o_acprevc s -> o_acsuf s1 = o_acsuf s -> o_desc s1 = o_desc s -> ac_mode_ok n B t s1.
Proof.
  intros n nm s1 M F P E1 E2 E3 E4. unfold ac_mode_ok in *. cbv zeta in *. rewrite E1, E2, E3, E4. destruct n; try exact M; try (split; [|apply M]); intros _; eauto.
Qed.

(** A step of an enumeration, which may print. *)
Lemma ac_step : forall n s1 s' u, ac_mode_state n -> o_state s = n -> 1 <= A ->
  s' = (if fsm_eqb n S_AC_PRINT then write_str u n s1 else s1) \/ s' = s1 ->
  o_state s1 = n -> o_wbuf s1 = o_wbuf s -> outb s1 = outb s -> o_wpos s1 = o_wpos s -> o_wsize s1 = o_wsize s ->
  hp s1 = hp s -> o_desc s1 = o_desc s -> inb s1 = inb s -> o_inpos s1 = o_inpos s -> o_esc s1 = o_esc s -> o_acin s1 = o_acin s -> lg s1 = lg s ->
  ac_mode_ok n B t s1 -> ac_cursor Gc Gd (hp s) (o_pstage s1) (o_pnode s1) (o_pitem s1) (o_pidx s1) (ac_base n (o_desc s) (hp s) B t Gc Gd) (A - 1) ->
  lg s' = lg s /\ stepped own W w held A s s'.
Proof.
  intros n s1 s' u Hn St L Es S1 W1 W2 W3 W4 E1 E2 E3 E4 E5 E6 E7 M Cu. assert (Nw : n <> S_WRITE_CHAR) by (destruct Hn as [->|[->| ->]]; discriminate).
  assert (Ph : phase (at_state s) = 0) by (rewrite (at_eq s n St Nw); destruct Hn as [->|[->| ->]]; reflexivity).
  assert (Ph' : phase n = 0) by (destruct Hn as [->|[->| ->]]; reflexivity).
  assert (Wo : wout s1). { intros X. rewrite W1 in X. destruct (ac_wout X) as (full & q & Ho). exists full, q. unfold holds in *. rewrite W1, W2, W3, W4, E2. exact Ho. }
  assert (Sil : lg s1 = lg s /\ stepped own W w held A s s1).
  { split; [exact E7|]. apply stepped_dec; [rewrite (at_eq s1 n S1 Nw), Ph; exact Ph'|exact L|]. apply (track_now own W w held (A - 1) n); auto. apply ac_intro; auto. }
  destruct Es as [->| ->]; [|exact Sil]. destruct (fsm_eqb n S_AC_PRINT); [|exact Sil]. split; [exact E7|].
  apply stepped_dec; [rewrite Ph; exact Ph'|exact L|]. apply track_str; [exact Nw|]. apply ac_intro; auto.
Qed.

Lemma process_total : forall n, ac_mode_state n -> o_state s = n -> ac_mode_ok n B t s -> ac_cursor Gc Gd (hp s) (o_pstage s) (o_pnode s) (o_pitem s) (o_pidx s) (ac_base n (o_desc s) (hp s) B t Gc Gd) A ->
  exists s', ush_autocomp_state_candidates_process s = Ok s' /\ lg s' = lg s /\ stepped own W w held A s s'.
Proof.
  intros n Hn St M Cu. set (b := ac_base n (o_desc s) (hp s) B t Gc Gd) in *. pose proof C as (K & Wc & Ww & Bo & Ds & _).
  pose proof (word_str B t s Wd) as Cs. assert (In_ : ac_input s = Ok (length B, t)) by (unfold ac_input; rewrite Ai, Cs; reflexivity).
  pose proof Wb as (_ & Wg & Ig & _ & Wf & If & Ih & Io). unfold ush_autocomp_state_candidates_process.
  (* go on without printing *)
  assert (Go : forall s1, o_state s1 = n -> o_wbuf s1 = o_wbuf s -> outb s1 = outb s -> o_wpos s1 = o_wpos s -> o_wsize s1 = o_wsize s ->
    hp s1 = hp s -> o_desc s1 = o_desc s -> inb s1 = inb s -> o_inpos s1 = o_inpos s -> o_esc s1 = o_esc s -> o_acin s1 = o_acin s -> lg s1 = lg s ->
    ac_mode_ok n B t s1 -> 1 <= A -> ac_cursor Gc Gd (hp s) (o_pstage s1) (o_pnode s1) (o_pitem s1) (o_pidx s1) b (A - 1) -> exists s', Ok s1 = Ok s' /\ lg s' = lg s /\ stepped own W w held A s s').
  { intros s1 H1 H2 H3 H4 H5 H6 H7 H8 H9 H10 H11 H12 H13 H14 H15. exists s1. split; [reflexivity|]. apply (ac_step n s1 s1 []); auto. }
  assert (Fl : forall G1 k G2 nd f, web (gnode (o_desc s) B) (hp s) (G1 ++ k :: G2) -> nth_error (hp s) k = Some nd -> nth_error (n_files nd) (o_pitem s) = Some f -> name_fits (o_desc s) B (f_name f)).
  { intros G1 k G2 nd f H E Ef. destruct (web_in _ _ _ _ _ H) as (nd' & E' & Hn' & _). rewrite E in E'. injection E' as <-. unfold gnode in Hn'. rewrite Forall_forall in Hn'. apply Hn'. eapply nth_error_In; exact Ef. }
  destruct (o_pnode s) as [k|] eqn:Pn.
  - unfold ush_autocomp_check_for_next. rewrite Pn. cbn [getp].
    destruct (o_pstage s) as [|[|[|?]]] eqn:Ps; cbn [ac_cursor] in Cu; [| | |destruct Cu].
    + destruct Cu as (G1 & G2 & nd & Eg & En & Pi & Le). rewrite (getn_ok _ _ _ En). cbn [bind].
      destruct (Nat.leb_spec (length (n_files nd)) (o_pitem s)) as [Ld|Ld]; cbn [bind].
      { apply Go; auto; [lia|]. cbn. rewrite Ps. pose proof Wg as Wg'. rewrite Eg in Wg'. destruct (web_in _ _ _ _ _ Wg') as (nd' & E' & _ & Nx). rewrite En in E'. injection E' as <-.
        destruct Nx as [->|(j & -> & Ij)]; cbn [ac_cursor]; [lia|]. apply in_split in Ij as (X & Y & Ex). rewrite Ex in Wg'.
        replace (G1 ++ k :: X ++ j :: Y) with ((G1 ++ k :: X) ++ j :: Y) in Wg' by (rewrite <- app_assoc; reflexivity). destruct (web_in _ _ _ _ _ Wg') as (ndj & Ej & _).
        exists (G1 ++ k :: X), Y, ndj. split; [rewrite Eg, Ex, <- app_assoc; reflexivity|]. split; [exact Ej|]. split; [lia|].
        pose proof (cost_at (hp s) X j Y ndj Ej) as Co. rewrite <- Ex in Co. lia. }
      unfold ush_autocomp_process_file_prepare. rewrite In_. cbn [bind]. rewrite Ps, Pn. cbn [getp]. rewrite (getn_ok _ _ _ En). cbn [bind]. destruct (nth_error (n_files nd) (o_pitem s)) as [f|] eqn:Ef; [|apply nth_error_None in Ef; lia].
      unfold rd. rewrite Ef. cbn [bind]. unfold ush_utils_startswith. destruct (prefixb t (f_name f)) eqn:Pf; cbn [bind].
      2:{ apply Go; auto; [lia|]. cbn. rewrite Ps, Pn. exists G1, G2, nd. split; [exact Eg|]. split; [exact En|]. split; lia. }
      rewrite Eg in Wg. pose proof (Fl _ _ _ _ _ Wg En Ef) as Fn.
      unfold ush_autocomp_process_file_index. rewrite Ps, St. destruct (o_pidx s) as [|[|[|?]]] eqn:Px; [| | |lia].
      * cbn [deref bind]. eexists. split; [reflexivity|]. apply (ac_step n (set_accand (Some (f_name f)) (set_account (S (o_account s)) (set_pidx 1 s))) _ (f_name f)); auto; try reflexivity; [lia| | |].
        { left. destruct (fsm_eqb n S_AC_PRINT); reflexivity. }
        { eapply mode_found; eauto. }
        { cbn. rewrite Ps, Pn. exists G1, G2, nd. split; [exact Eg|]. split; [exact En|]. split; lia. }
      * eexists. split; [reflexivity|]. apply (ac_step n (set_pidx 2 s) _ CRLF); auto; try reflexivity; [lia| |].
        { left. destruct (fsm_eqb n S_AC_PRINT); reflexivity. }
        { cbn. rewrite Ps, Pn. exists G1, G2, nd. split; [exact Eg|]. split; [exact En|]. split; lia. }
      * apply Go; auto; [lia|]. cbn. rewrite Ps, Pn. exists G1, G2, nd. split; [exact Eg|]. split; [exact En|]. split; lia.
    + destruct Cu as (nd & Ik & En & Pi & Le). rewrite (getn_ok _ _ _ En). cbn [bind].
      destruct (Nat.leb_spec (length (n_files nd)) (o_pitem s)) as [Ld|Ld]; cbn [bind].
      { apply Go; auto; [lia|]. cbn. rewrite Ps. cbn [ac_cursor]. lia. }
      unfold ush_autocomp_process_file_prepare. rewrite In_. cbn [bind]. rewrite Ps, Pn. cbn [getp]. rewrite (getn_ok _ _ _ En). cbn [bind]. destruct (nth_error (n_files nd) (o_pitem s)) as [f|] eqn:Ef; [|apply nth_error_None in Ef; lia].
      unfold rd. rewrite Ef. cbn [bind]. unfold ush_utils_startswith. destruct (prefixb t (f_name f)) eqn:Pf; cbn [bind].
      2:{ apply Go; auto; [lia|]. cbn. rewrite Ps, Pn. exists nd. split; [exact Ik|]. split; [exact En|]. split; lia. }
      assert (Fn : name_fits (o_desc s) B (f_name f)).
      { pose proof Ik as Ij. apply in_split in Ij as (G1 & G2 & Eg). pose proof Wf as Wf'. rewrite Eg in Wf'. destruct (web_in _ _ _ _ _ Wf') as (nd' & E' & (Hg & _) & _). rewrite En in E'. injection E' as <-.
        unfold gnode in Hg. rewrite Forall_forall in Hg. apply Hg. eapply nth_error_In; exact Ef. }
      unfold ush_autocomp_process_file_index. rewrite Ps, St. destruct (o_pidx s) as [|[|[|?]]] eqn:Px; [| | |lia].
      * cbn [deref bind]. eexists. split; [reflexivity|]. apply (ac_step n (set_accand (Some (f_name f)) (set_account (S (o_account s)) (set_pidx 1 s))) _ (f_name f)); auto; try reflexivity; [lia| | |].
        { left. destruct (fsm_eqb n S_AC_PRINT); reflexivity. }
        { eapply mode_found; eauto. }
        { cbn. rewrite Ps, Pn. exists nd. split; [exact Ik|]. split; [exact En|]. split; lia. }
      * eexists. split; [reflexivity|]. apply (ac_step n (set_pidx 2 s) _ CRLF); auto; try reflexivity; [lia| |].
        { left. destruct (fsm_eqb n S_AC_PRINT); reflexivity. }
        { cbn. rewrite Ps, Pn. exists nd. split; [exact Ik|]. split; [exact En|]. split; lia. }
      * apply Go; auto; [lia|]. cbn. rewrite Ps, Pn. exists nd. split; [exact Ik|]. split; [exact En|]. split; lia.
    + destruct Cu as (G1 & G2 & Eg & Pi & Le). cbn [bind]. unfold ush_autocomp_process_file_prepare. rewrite In_. cbn [bind]. rewrite Ps, Pn. cbn [getp]. pose proof Wf as Wf'. rewrite Eg in Wf'. destruct (web_in _ _ _ _ _ Wf') as (nd & En & (_ & p & Pp & Fn) & Nx).
      rewrite (getn_ok _ _ _ En). cbn [bind]. unfold path_of. rewrite Pp. cbn [bind]. set (nm := ush_utils_path_last p) in *.
      assert (Adv : forall px, px <= 2 -> ac_cursor Gc Gd (hp s) 2 (n_next nd) (o_pitem s) 0 b (b + 2 + 3 * length G2 + (2 - px) - 1)).
      { intros px Lp. destruct Nx as [->|(j & -> & Ij)]; cbn [ac_cursor]; [lia|]. apply in_split in Ij as (X & Y & Ex). exists (G1 ++ k :: X), Y. split; [rewrite Eg, Ex, <- app_assoc; reflexivity|]. split; [lia|].
        rewrite Ex, app_length. cbn [length]. lia. }
      assert (Up : forall st p0 it ix a1 a2, a1 <= a2 -> ac_cursor Gc Gd (hp s) st p0 it ix b a1 -> ac_cursor Gc Gd (hp s) st p0 it ix b a2).
      { intros st p0 it ix a1 a2 La H. destruct st as [|[|[|?]]], p0; cbn [ac_cursor] in *; try lia; try contradiction.
        - destruct H as (? & ? & ? & ? & ? & ? & ?). do 3 eexists. do 3 (split; [eassumption|]). lia.
        - destruct H as (? & ? & ? & ? & ?). eexists. do 3 (split; [eassumption|]). lia.
        - destruct H as (? & ? & ? & ? & ?). do 2 eexists. do 2 (split; [eassumption|]). lia. }
      unfold ush_utils_startswith. destruct (prefixb t nm) eqn:Pf; cbn [bind].
      2:{ apply Go; auto; [lia|]. cbn. rewrite Ps. eapply Up; [|apply (Adv (o_pidx s) Pi)]. lia. }
      unfold ush_autocomp_process_file_index. change (o_pstage (set_acname (Some nm) s)) with (o_pstage s). change (o_pidx (set_acname (Some nm) s)) with (o_pidx s). change (o_state (set_acname (Some nm) s)) with (o_state s).
      rewrite Ps, St. destruct (o_pidx s) as [|[|[|?]]] eqn:Px; [| | |lia].
      * change (o_acname (set_acname (Some nm) s)) with (Some nm). cbn [deref bind].
        assert (Ex : exists s', (s0 <- (if fsm_eqb n S_AC_PRINT then Ok (write_str nm n (set_acname (Some nm) s)) else Ok (set_acname (Some nm) s)) ;; Ok (set_accand (o_acname s0) (set_account (S (o_account s0)) (set_pidx 1 s0)))) = Ok s' /\
          s' = if fsm_eqb n S_AC_PRINT then write_str nm n (set_accand (Some nm) (set_account (S (o_account s)) (set_pidx 1 (set_acname (Some nm) s)))) else set_accand (Some nm) (set_account (S (o_account s)) (set_pidx 1 (set_acname (Some nm) s)))).
        { destruct (fsm_eqb n S_AC_PRINT); cbn [bind]; eexists; (split; [reflexivity|]); reflexivity. }
        destruct Ex as (s' & E1 & E2). exists s'. split; [exact E1|]. apply (ac_step n (set_accand (Some nm) (set_account (S (o_account s)) (set_pidx 1 (set_acname (Some nm) s)))) _ nm); auto; try reflexivity; [lia| |].
        { eapply mode_found; eauto. }
        { cbn. rewrite Ps, Pn. exists G1, G2. split; [exact Eg|]. split; lia. }
      * eexists. split; [reflexivity|]. apply (ac_step n (set_pidx 2 (set_acname (Some nm) s)) _ CRLF); auto; try reflexivity; [lia| |].
        { left. destruct (fsm_eqb n S_AC_PRINT); reflexivity. }
        { cbn. rewrite Ps, Pn. exists G1, G2. split; [exact Eg|]. split; lia. }
      * change (o_pnode (set_acname (Some nm) s)) with (o_pnode s). rewrite Pn. cbn [getp]. change (hp (set_acname (Some nm) s)) with (hp s). rewrite (getn_ok _ _ _ En). cbn [bind].
        apply Go; auto; [lia|]. cbn. rewrite Ps. eapply Up; [|apply (Adv 2); lia]. lia.
  - destruct (o_pstage s) as [|[|[|?]]] eqn:Ps; cbn [ac_cursor] in Cu; [| | |destruct Cu].
    + unfold ush_autocomp_check_for_finish. rewrite Ps. apply Go; auto; [lia|]. cbn. pose proof K as (_ & _ & _ & _ & _ & Cu0). destruct (w_cwd w) as [cwd|] eqn:Ec; [|congruence].
      destruct Cu0 as (dc & Dc & Ecu). rewrite Ecu. pose proof (dir_at_some _ _ _ Dc) as (Ic & _). assert (Id : In (de_node dc) Gd) by (apply If, in_map, Ic).
      pose proof Id as Ij. apply in_split in Ij as (G1 & G2 & Eg). pose proof Wf as Wf'. rewrite Eg in Wf'. destruct (web_in _ _ _ _ _ Wf') as (nd & En & _).
      cbn [ac_cursor]. exists nd. split; [exact Id|]. split; [exact En|]. split; [lia|]. pose proof (cost_at (hp s) G1 _ G2 nd En) as Co. rewrite <- Eg in Co. lia.
    + destruct (w_cwd w) as [cwd|] eqn:Ec; [|congruence].
      assert (Nt : no_nul t) by (destruct Wd as (_ & _ & X & _); apply no_nul_app in X; apply X).
      assert (Pl : length (full_text cwd t) < d_pathmax (o_desc s)).
      { pose proof (word_short B t s Bo Wd) as Ws. destruct (Am w Ww) as (_ & _ & Ph & _). unfold here in Ph. rewrite Ec in Ph. rewrite Ds in *. pose proof (full_text_short cwd t). lia. }
      destruct (tab_parent own s w cwd (length B) t K Ec Ai Cs Nt Pl Ps) as (d & nd & Id & En & E). rewrite E. apply Go; auto; [lia|]. cbn.
      assert (Io' : In (de_node d) own) by (destruct K as (_ & _ & _ & U & _); apply U; left; apply in_map, Id).
      destruct (listed_children own s w Gd (de_node d) nd K If Io' En) as [->|(j & -> & Ij)]; cbn [ac_cursor]; [lia|]. pose proof (cost_len _ _ _ Wf) as Cl. apply in_split in Ij as (G1 & G2 & Eg).
      exists G1, G2. split; [exact Eg|]. split; [lia|]. rewrite Eg in Cl at 1. rewrite app_length in Cl. cbn [length] in Cl. lia.
    + unfold ush_autocomp_check_for_finish. rewrite Ps. eexists. split; [reflexivity|]. split; [reflexivity|].
      apply stepped_dec; [|lia|]. { rewrite (at_eq s n St) by (destruct Hn as [->|[->| ->]]; discriminate). destruct Hn as [->|[->| ->]]; reflexivity. }
      apply track_state; [exact ac_wout|discriminate|]. split; [exact Jb|]. exists B, t, Gc, Gd. split; [exact Wb|]. split; [exact Wd|]. split; [exact Ai|]. cbn [o_acprev set_acprev]. rewrite St. split; [exact M|]. cbn [o_desc hp set_acprev]. fold b. lia.
Qed.

(** The line is printed from [off] on, and the shell reads again. *)
Lemma ac_shown : forall s1 off u, c_str (inb s1) off = Ok u -> line_ok s1 -> lg s1 = lg s -> phase (at_state s) = 0 -> 1 <= A ->
  exists s', ush_write_pointer (WIn off) S_READ_CHAR s1 = Ok s' /\ lg s' = lg s /\ stepped own W w held A s s'.
Proof.
  intros s1 off u Eu Lo El Ph L. rewrite (wp_eq (WIn off) S_READ_CHAR s1 u Eu). eexists. split; [reflexivity|]. split; [exact El|].
  apply stepped_dec; [rewrite Ph; reflexivity|exact L|]. apply track_in; [exact Eu|discriminate|exact Lo].
Qed.
Lemma eol_app : forall a b, eol_free (a ++ b) <-> eol_free a /\ eol_free b.
Proof. intros a b. unfold eol_free. rewrite !in_app_iff. tauto. Qed.

Lemma ac_start_total : o_state s = S_AC_START -> ac_base S_AC_COUNT (o_desc s) (hp s) B t Gc Gd + ac_round (hp s) Gc Gd + 2 <= A ->
  stepped own W w held A s (ush_autocomp_state_candidates_start s).
Proof.
  intros St L. pose proof C as (K & _). apply stepped_dec; [rewrite (at_eq s _ St) by discriminate; reflexivity|lia|].
  apply track_state; [exact ac_wout|discriminate|]. apply ac_intro; [left; reflexivity|reflexivity..| |].
  - unfold ac_mode_ok. cbn. lia.
  - cbn [o_pstage o_pnode o_pitem o_pidx ush_autocomp_prepare_candidates set_pitem set_pidx set_pnode set_pstage set_account set_acsuf set_acprevc o_cmds]. eapply cursor_start; eauto. lia.
Qed.

Lemma suffix_total : o_state s = S_AC_RECALL_SUFFIX -> o_acsuf s <= length t -> ac_round (hp s) Gc Gd + 30 <= A ->
  exists s', ush_autocomp_state_recall_suffix s = Ok s' /\ lg s' = lg s /\ stepped own W w held A s s'.
Proof.
  intros St Ls L. pose proof C as (K & _). pose proof (word_str B t s Wd) as Cs. pose proof Wd as (Ip & (r & Ib) & Nn & Ef & Ee & Ca).
  assert (Ph : phase (at_state s) = 0) by (rewrite (at_eq s _ St) by discriminate; reflexivity).
  unfold ush_autocomp_state_recall_suffix, ac_input. rewrite Ai, Cs. cbn [bind]. destruct (Nat.ltb_spec (length B + length t) (o_acsuf s)); [lia|].
  set (k := length t - o_acsuf s). assert (Eo : length B + length t - o_acsuf s = length (B ++ firstn k t)) by (rewrite app_length, firstn_length; lia). rewrite Eo.
  assert (Eu : c_str (inb s) (length (B ++ firstn k t)) = Ok (skipn k t)).
  { rewrite Ib. replace ((B ++ t) ++ NUL :: r) with ((B ++ firstn k t) ++ skipn k t ++ NUL :: r) by (rewrite <- (firstn_skipn k t) at 3; rewrite <- !app_assoc; reflexivity).
    apply c_str_app; [reflexivity|]. apply no_nul_app in Nn. intros X. apply Nn. rewrite <- (firstn_skipn k t). apply in_app_iff. right; exact X. }
  unfold c_strlen. rewrite Eu. cbn [bind]. destruct (0 <? length (skipn k t)).
  - apply (ac_shown s _ (skipn k t)); auto; [eapply word_line; exact Wd|lia].
  - eexists. split; [reflexivity|]. split; [reflexivity|]. apply stepped_dec; [rewrite Ph; reflexivity|lia|]. apply track_str; [discriminate|].
    apply ac_intro; [right; right; reflexivity|reflexivity..|exact I|].
    cbn [o_pstage o_pnode o_pitem o_pidx ush_autocomp_prepare_candidates set_pitem set_pidx set_pnode set_pstage set_account o_cmds ac_base]. eapply cursor_start; eauto. lia.
Qed.

Lemma optimise_total : forall q c, o_state s = S_AC_FINISH -> q <= length t -> 2 <= o_account s -> o_accand s = Some c -> name_fits (o_desc s) B c -> prefixb t c = true ->
  ac_base S_AC_COUNT (o_desc s) (hp s) B t Gc Gd <= A -> exists s', ush_autocomp_optimize_continue (set_acsuf q s) = Ok s' /\ lg s' = lg s /\ stepped own W w held A s s'.
Proof.
  intros q c St Ls L2 Ec (Nc & Fc & Lc) Pf L. pose proof C as (K & _ & _ & Bo & _). pose proof (word_str B t s Wd) as Cs. pose proof Wd as (Ip & (r & Ib) & Nn & Ef & Ee & Ca).
  assert (Ph : phase (at_state s) = 0) by (rewrite (at_eq s _ St) by discriminate; reflexivity).
  unfold ush_autocomp_optimize_continue, ac_input. cbv zeta. cbn [o_acin inb o_accand o_account o_inpos o_desc o_acsuf set_acprevc set_acsuf]. rewrite Ai, Cs. cbn [bind]. rewrite Ec. cbn [deref bind].
  apply prefixb_spec in Pf as (z & Ez). unfold ac_base in L. destruct (Nat.leb_spec (length c) (length t)) as [Lt|Lt].
  { eexists. split; [reflexivity|]. split; [reflexivity|]. apply stepped_dec; [rewrite Ph; reflexivity|lia|]. apply track_state; [exact ac_wout|discriminate|].
    split; [exact Jb|]. exists B, t, Gc, Gd. split; [exact Wb|]. split; [exact Wd|]. split; [exact Ai|]. split; [exact Ls|]. cbn [hp set_acprevc set_acsuf]. lia. }
  destruct z as [|ch z]; [rewrite Ez, app_nil_r in Lt; lia|].
  assert (Lz : length B + S (length t) < d_insize (o_desc s)) by (rewrite Ez, app_length in Lc; cbn [length] in Lc; lia).
  destruct Bo as (B1 & _). destruct r as [|y r]; [exfalso; rewrite Ib, !app_length in B1; cbn [length] in B1; lia|].
  rewrite Ez, rd_app by reflexivity. cbn [bind]. rewrite Ib, Ip, wr_app by reflexivity. cbn [bind].
  destruct (Nat.leb_spec (d_insize (o_desc s)) (S (length (B ++ t)))) as [Lx|_]; [rewrite app_length in Lx; lia|].
  replace ((B ++ t) ++ ch :: y :: r) with (((B ++ t) ++ [ch]) ++ y :: r) by (rewrite <- app_assoc; reflexivity). rewrite wr_app by (rewrite !app_length; cbn [length]; lia). cbn [bind].
  eexists. split; [reflexivity|]. split; [reflexivity|]. apply stepped_dec; [rewrite Ph; reflexivity|lia|]. apply track_state; [exact ac_wout|discriminate|].
  split; [exact Jb|]. exists B, (t ++ [ch]), Gc, Gd. split; [exact Wb|].
  assert (Chn : ~ In NUL [ch] /\ eol_free [ch]).
  { split; [intros [X|[]]; apply Nc; rewrite Ez; apply in_app_iff; right; left; exact X|]. rewrite Ez in Fc. change (ch :: z) with ([ch] ++ z) in Fc. apply eol_app in Fc as (_ & Fc). apply eol_app in Fc. apply Fc. }
  split; [|split; [exact Ai|split]].
  - unfold word_at. cbn [o_inpos inb o_esc o_desc ush_autocomp_prepare_candidates set_pitem set_pidx set_pnode set_pstage set_account set_acsuf set_inpos set_inb set_acprevc]. rewrite !app_assoc.
    split; [rewrite (app_length (B ++ t)); cbn [length]; lia|]. split; [exists r; reflexivity|]. split; [apply no_nul_app; split; [exact Nn|apply Chn]|]. split; [apply eol_app; split; [exact Ef|apply Chn]|]. auto.
  - unfold ac_mode_ok. cbn. rewrite app_length. cbn [length]. split; [lia|]. split; [exact L2|]. split; lia.
  - cbn [o_pstage o_pnode o_pitem o_pidx hp o_desc o_cmds ush_autocomp_prepare_candidates set_pitem set_pidx set_pnode set_pstage set_account set_acsuf set_inpos set_inb set_acprevc].
    eapply cursor_start; [exact K|exact Wb|]. unfold ac_base. rewrite !app_length in *. cbn [length].
    replace (d_insize (o_desc s) - (length B + length t)) with (S (d_insize (o_desc s) - (length B + (length t + 1)))) in L by lia. cbn [Nat.mul] in L. lia.
Qed.

Lemma finish_total : o_state s = S_AC_FINISH -> ac_mode_ok (o_acprev s) B t s -> ac_base (o_acprev s) (o_desc s) (hp s) B t Gc Gd <= A ->
  exists s', ush_autocomp_state_candidates_finish s = Ok s' /\ lg s' = lg s /\ stepped own W w held A s s'.
Proof.
  intros St M L. pose proof C as (K & _ & _ & Bo & _). pose proof (word_str B t s Wd) as Cs. pose proof Wd as (Ip & (r & Ib) & Nn & Ef & Ee & Ca).
  assert (Ph : phase (at_state s) = 0) by (rewrite (at_eq s _ St) by discriminate; reflexivity).
  unfold ush_autocomp_state_candidates_finish. destruct (o_acprev s) eqn:Pv; cbn [ac_mode_ok] in M; try contradiction.
  - destruct (o_account s) as [|[|a]] eqn:Ac.
    + eexists. split; [reflexivity|]. split; [reflexivity|]. cbn [ac_base] in L. apply stepped_dec; [rewrite Ph; reflexivity|lia|]. apply track_state; [exact ac_wout|discriminate|]. exact (word_line _ _ _ Wd).
    + destruct (M ltac:(lia)) as (c & Ec & (Nc & Fc & Lc) & Pf). unfold ac_input. rewrite Ai, Cs. cbn [bind]. rewrite Ec. cbn [deref bind]. apply prefixb_spec in Pf as (z & Ez).
      apply no_nul_app in Nn as (Nb & Nt). apply eol_app in Ef as (Fb & _). destruct Bo as (B1 & _).
      destruct (copy_in B t c (NUL :: r)) as (z' & Cp & Cl); [exact Nb|exact Nc| |]. { rewrite app_assoc, <- Ib, B1. exact Lc. }
      rewrite Ib, <- app_assoc, Cp. cbn [bind]. rewrite Cl. cbn [bind]. cbn [ac_base] in L. apply (ac_shown _ _ z); auto; [| |lia].
      * cbn [inb set_inpos set_inb]. replace (B ++ c ++ NUL :: z') with ((B ++ t) ++ z ++ NUL :: z') by (rewrite Ez, <- !app_assoc; reflexivity). apply c_str_app; [rewrite app_length; reflexivity|].
        intros X. apply Nc. rewrite Ez. apply in_app_iff. right; exact X.
      * split; [exact Ee|]. exists (B ++ c), z'. cbn [inb o_inpos set_inpos set_inb]. split; [rewrite <- app_assoc; reflexivity|]. split; [reflexivity|]. apply eol_app. auto.
    + destruct (M ltac:(lia)) as (c & Ec & Nf & Pf). rewrite <- Ac in *. apply (optimise_total 0 c); auto; lia.
  - destruct M as (M & M2 & M3 & M4). destruct (Nat.ltb_spec (o_account s) (o_acprevc s)) as [Lt|Lt].
    + destruct (o_acsuf s) as [|k] eqn:Sf; [lia|]. destruct (exists_last (l := t)) as (t0 & c & Et); [intros ->; cbn in M4; lia|].
      assert (Eb : inb s = (B ++ t0) ++ c :: NUL :: r) by (rewrite Ib, Et, <- !app_assoc; reflexivity).
      assert (Ei : o_inpos s - 1 = length (B ++ t0)) by (rewrite Ip, Et, !app_length; cbn [length]; lia).
      rewrite Eb, Ei, wr_app by reflexivity. cbn [bind]. eexists. split; [reflexivity|]. split; [reflexivity|]. cbn [ac_base] in L. apply stepped_dec; [rewrite Ph; reflexivity|lia|]. apply track_state; [exact ac_wout|discriminate|].
      split; [exact Jb|]. exists B, t0, Gc, Gd. rewrite Et in *. rewrite app_assoc in Nn, Ef. apply no_nul_app in Nn as (Nn & _). apply eol_app in Ef as (Ef & _).
      split; [exact Wb|]. split; [|split; [exact Ai|]].
      { unfold word_at. cbn [o_inpos inb o_esc o_desc set_acsuf set_inpos set_inb]. split; [reflexivity|]. split; [eexists; reflexivity|]. auto. }
      cbn [o_acsuf hp set_acsuf set_inpos set_inb]. rewrite app_length in M4. cbn [length] in M4. split; lia.
    + destruct (M ltac:(lia)) as (c & Ec & Nf & Pf). assert (Es : s = set_acsuf (o_acsuf s) s) by (destruct s; reflexivity). replace (ush_autocomp_optimize_continue s) with (ush_autocomp_optimize_continue (set_acsuf (o_acsuf s) s)) by (rewrite <- Es; reflexivity). apply (optimise_total (o_acsuf s) c); auto; lia.
  - eexists. split; [reflexivity|]. split; [reflexivity|]. cbn [ac_base] in L. apply stepped_dec; [rewrite Ph; reflexivity|lia|]. apply track_state; [exact ac_wout|discriminate|].
    split; [exact Jb|]. exists B, t, Gc, Gd. split; [exact Wb|]. split; [exact Wd|]. split; [exact Ai|]. lia.
Qed.
End Step.

Lemma c_str_ex : forall l r, exists u, c_str (l ++ NUL :: r) 0 = Ok u.
Proof.
  intros l r. unfold c_str. cbn [skipn]. induction l as [|c l (u & IH)]; [exists []; reflexivity|]. cbn [app c_str0]. destruct (ceq c NUL); [eauto|]. rewrite IH. cbn [bind]. eauto.
Qed.
Definition completing (n : fsm) : Prop :=
  match n with S_AC_PREPARE | S_AC_START | S_AC_COUNT | S_AC_OPTIMISE | S_AC_PRINT | S_AC_FINISH | S_AC_PROMPT | S_AC_RECALL_SUFFIX | S_AC_RECALL => True | _ => False end.
(** Every step of a completion succeeds and brings its end nearer. *)
Lemma ac_total : forall own x W w held A i s, ample own x W -> on_course own x W w s -> track own W w held A s -> completing (o_state s) ->
  exists s', svc i s = Ok (true, s') /\ lg s' = lg s /\ stepped own W w held A s s'.
Proof.
  intros own x W w held A i s Am C T Hc.
  assert (Rd : cfg_autocomp (d_cfg (o_desc s)) = true -> forall s', ush_autocomp_service s = Ok (true, s') -> svc i s = Ok (true, s')).
  { intros Ca s' E. unfold svc. rewrite Ca. destruct (o_state s); try contradiction; rewrite E; reflexivity. }
  pose proof T as (Wo & _).
  destruct (o_state s) eqn:St; try contradiction.
  all: assert (Ph : phase (at_state s) = 0) by (rewrite (at_eq s _ St) by discriminate; reflexivity).
  all: destruct (track_at _ _ _ _ _ _ _ T St) as (_ & R); [discriminate|]; cbn [ready] in R.
  all: try (destruct R as (Jb & B & t & Gc & Gd & Wb & Wd & Ai & R); cbn match in Ai, R; pose proof Wd as (_ & _ & _ & _ & _ & Ca); specialize (Rd Ca); unfold ush_autocomp_service in Rd; rewrite St in Rd).
  - pose proof Wd as (_ & (r & Ib) & Nn & _). unfold ush_autocomp_state_prepare in Rd. rewrite Ib, last_arg in Rd by exact Nn. cbn [bind] in Rd. rewrite <- Ai in Rd.
    eexists. split; [apply Rd; reflexivity|]. split; [reflexivity|]. apply stepped_dec; [rewrite Ph; reflexivity|lia|]. apply track_state; [exact Wo|discriminate|].
    split; [exact Jb|]. exists B, t, Gc, Gd. split; [exact Wb|]. split; [exact Wd|]. split; [reflexivity|]. cbn match. cbn [o_desc hp set_acin]. lia.
  - exists (ush_autocomp_state_candidates_start s). split; [apply Rd; reflexivity|]. split; [reflexivity|]. eapply ac_start_total; eauto.
  - destruct R as (M & Cu). destruct (process_total own x W w held A s Am C T B t Gc Gd Jb Wb Wd Ai S_AC_COUNT ltac:(left; reflexivity) St M Cu) as (s' & E & El & Sp). exists s'. split; [apply Rd; rewrite E; reflexivity|auto].
  - destruct R as (M & Cu). destruct (process_total own x W w held A s Am C T B t Gc Gd Jb Wb Wd Ai S_AC_OPTIMISE ltac:(right; left; reflexivity) St M Cu) as (s' & E & El & Sp). exists s'. split; [apply Rd; rewrite E; reflexivity|auto].
  - destruct R as (M & Cu). destruct (process_total own x W w held A s Am C T B t Gc Gd Jb Wb Wd Ai S_AC_PRINT ltac:(right; right; reflexivity) St M Cu) as (s' & E & El & Sp). exists s'. split; [apply Rd; rewrite E; reflexivity|auto].
  - destruct R as (M & L). destruct (finish_total own x W w held A s C T B t Gc Gd Jb Wb Wd Ai St M L) as (s' & E & El & Sp). exists s'. split; [apply Rd; rewrite E; reflexivity|auto].
  - eexists. split; [apply Rd; reflexivity|]. split; [reflexivity|]. apply stepped_dec; [rewrite Ph; reflexivity|lia|]. apply (track_now own W w held (A - 1) S_PROMPT_PREFIX); [exact Wo|reflexivity|discriminate|].
    split; [right; split; [reflexivity|]; split; [exact Ca|exact (word_line _ _ _ Wd)]|lia].
  - destruct R as (L & Ca & Lo). specialize (Rd Ca). pose proof Lo as (_ & l & r & Ib & _ & _). unfold ush_autocomp_service in Rd. rewrite St in Rd.
    destruct (c_str_ex l r) as (u & Eu). rewrite <- Ib in Eu.
    destruct (ac_shown own W w held A s s 0 u Eu Lo eq_refl Ph L) as (s' & E & El & Sp). exists s'. split; [apply Rd; rewrite E; reflexivity|auto].
  - destruct R as (M & L). destruct (suffix_total own x W w held A s C B t Gc Gd Jb Wb Wd Ai St M L) as (s' & E & El & Sp). exists s'. split; [apply Rd; rewrite E; reflexivity|auto].
Qed.
