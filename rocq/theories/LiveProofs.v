(** * LiveProofs: memory that changes while it is printed (C57). *)
From Coq Require Import Arith.
From Verif Require Import Shell BaseFacts LogFacts Sched ServiceFacts SchedFacts Macro Editor EditFacts Words ParseFacts PromptFacts PhaseFacts Line LineFacts SchedProofs LineProofs Spec PathFacts
  Tree TreeFacts TreeProofs Cmds CmdFacts PrintfFacts HookFacts CmdProofs GetProofs Live.

(** ** Text *)
(** [n] bytes of memory are being printed. *)
Definition text_pending (n : nat) (s : st) : Prop :=
  o_cur s <> None /\ o_state s = S_WRITE_CHAR /\ o_wsize s = n /\ exists m, o_wbuf s = Some (WStr m).
(** Changes of the memory. *)
Definition refilled (s s' : st) : Prop := exists m, s' = set_wbuf (Some (WStr m)) s.

Lemma set_wbuf_id : forall s p, o_wbuf s = p -> set_wbuf p s = s.
Proof. intros [] p <-. reflexivity. Qed.
Lemma wbuf_delivered : forall p s t, delivered (set_wbuf p s) t = set_wbuf p (delivered s t).
Proof. reflexivity. Qed.

Lemma live_step : forall n m i s, text_pending n s -> o_wpos s < n -> n <= length m ->
  ush_service i (overwrite_text m s) = Ok (true, set_wbuf (Some (WStr m)) (if io_wr i then delivered s [nth (o_wpos s) m NUL] else s)).
Proof.
  intros n m i s (C & St & Z & m0 & Wb) L1 L2. unfold overwrite_text. rewrite Wb.
  set (s1 := set_wbuf (Some (WStr m)) s).
  assert (P : pending s1 (nth (o_wpos s) m NUL :: skipn (S (o_wpos s)) (firstn n m))).
  { split; [exact St|]. split.
    - change (o_wsize s1) with (o_wsize s). change (o_wpos s1) with (o_wpos s). cbn [length]. rewrite skipn_length, firstn_length, Z. lia.
    - intros j c N. change (o_wpos s1) with (o_wpos s). unfold wbuf_rd. change (o_wbuf s1) with (Some (WStr m)). cbn [deref bind]. unfold rd.
      assert (E : nth_error m (o_wpos s + j) = Some c); [|rewrite E; reflexivity].
      destruct j as [|j]; cbn [nth_error] in N.
      + injection N as <-. rewrite Nat.add_0_r. apply nth_error_nth'. lia.
      + rewrite nth_error_skipn in N. replace (o_wpos s + S j) with (S (o_wpos s) + j) by lia. rewrite <- (firstn_skipn n m). rewrite nth_error_app1; [exact N|].
        apply nth_error_Some. congruence. }
  rewrite (pending_step i s1 _ _ C P). destruct (io_wr i); reflexivity.
Qed.

Lemma live_run : forall l n s, text_pending n s ->
  (forall before m i after, l = before ++ (m, i) :: after -> o_wpos s + accepted before < n /\ n <= length m) ->
  exists m', live l s = Ok (set_wbuf (Some (WStr m')) (delivered s (shown (o_wpos s) l))).
Proof.
  induction l as [|(m & i) l IH]; intros n s T D.
  - destruct T as (_ & _ & _ & m & W). exists m. cbn [live shown]. rewrite delivered_nil, set_wpos_id, set_wbuf_id by exact W. reflexivity.
  - cbn [live shown]. destruct (D [] m i l eq_refl) as (D1 & D2). cbn in D1. rewrite Nat.add_0_r in D1. rewrite (live_step n m i s T D1 D2). cbn [bind].
    set (s1 := set_wbuf _ _).
    assert (T1 : text_pending n s1).
    { destruct T as (C & St & Z & m0 & W). unfold s1. destruct (io_wr i); (split; [exact C|]; split; [exact St|]; split; [exact Z|exists m; reflexivity]). }
    assert (D' : forall before m0 i0 after, l = before ++ (m0, i0) :: after -> o_wpos s1 + accepted before < n /\ n <= length m0).
    { intros a m0 i0 b ->. destruct (D ((m, i) :: a) m0 i0 b eq_refl) as (X & Y). split; [|exact Y]. unfold accepted in *. cbn [map snd] in X. rewrite ready_cons in X.
      unfold s1. destruct (io_wr i); [|exact X]. change (o_wpos s + 1 + ready_calls (map snd a) < n). lia. }
    destruct (IH n s1 T1 D') as (m' & E). exists m'. rewrite E. unfold s1. destruct (io_wr i).
    + change (o_wpos (set_wbuf (Some (WStr m)) (delivered s [nth (o_wpos s) m NUL]))) with (o_wpos s + 1). rewrite Nat.add_1_r. rewrite wbuf_delivered, delivered_app. reflexivity.
    + reflexivity.
Qed.

Lemma shown_length : forall l pos, length (shown pos l) = accepted l.
Proof.
  induction l as [|(m & i) l IH]; intros pos; [reflexivity|]. cbn [shown]. unfold accepted in *. cbn [map snd]. rewrite ready_cons. destruct (io_wr i); cbn [length]; rewrite IH; reflexivity.
Qed.

(** The shell has just been given [n] bytes of memory. *)
Lemma live_all : forall l n s, text_pending n s -> o_wpos s = 0 -> during n l ->
  exists s1, live l s = Ok s1 /\ lg s1 = lg s ++ map EvOut (shown 0 l) /\
    (accepted l = n -> forall e, works e s1 (set_state (o_wnext s) s1) /\ refilled (delivered s (shown 0 l)) s1).
Proof.
  intros l n s T Z D. destruct (live_run l n s T) as (m & E).
  { intros a x i b Eq. rewrite Z. exact (D a x i b Eq). }
  rewrite Z in E. eexists. split; [exact E|]. split; [reflexivity|]. intros A e. split; [|exists m; reflexivity].
  destruct T as (C & St & Zs & _). set (s1 := set_wbuf _ _).
  assert (P : pending s1 []).
  { split; [exact St|]. split; [|intros [|j] c N; discriminate]. change (o_wsize s = o_wpos s + length (shown 0 l) + 0). rewrite shown_length, Z, Zs. lia. }
  eapply works_step; [eapply pending_not_polling; exact P|apply pending_end; [exact C|exact P]|constructor].
Qed.

Lemma C57_print_proof : forall nl t s cw l, cwd_is s cw -> bufs_ok s -> during (length t) l ->
  exists s1 s2, do_action [] (if nl : bool then APrint t else APrintNoNl t) s = Ok s1 /\ live l s1 = Ok s2 /\ lg s2 = lg s ++ map EvOut (shown 0 l) /\
    (accepted l = length t -> forall e, exists s3, quiet e s2 s3 /\ editing 0 [] s3 /\ bufs_ok s3 /\ core s3 = core s /\
       lg s3 = lg s2 ++ map EvOut ((if nl then crlf else []) ++ prompt (o_desc s) cw)).
Proof.
  intros nl t s cw l W B D. set (next := if nl then S_RESET else S_RESET_PROMPT). set (s1 := ush_write_pointer_bin (WStr t) (length t) next s).
  assert (C : o_cur s <> None) by (exact (cwd_cur _ _ W)).
  destruct (live_all l (length t) s1) as (s2 & E & L & F); [split; [exact C|]; split; [reflexivity|]; split; [reflexivity|exists t; reflexivity]|reflexivity|exact D|].
  exists s1, s2. split; [destruct nl; reflexivity|]. split; [exact E|]. split; [exact L|]. intros A e. destruct (F A e) as (Wk & m & Es2). change (o_wnext s1) with next in Wk.
  set (s2' := set_state next s2) in *.
  assert (K2 : core s2' = core s) by (unfold s2'; rewrite Es2; reflexivity).
  assert (B2 : bufs_ok s2') by (unfold s2'; rewrite Es2; exact B).
  pose proof (core_cwd _ _ _ K2 W) as W2. destruct nl.
  - destruct (quiet_reset e s2' cw eq_refl W2 B2) as (s3 & Q & Ed & K3 & B3 & L3). exists s3. split; [apply (works_quiet _ _ _ Wk); exact Q|]. split; [exact Ed|]. split; [exact B3|].
    split; [congruence|]. rewrite L3, (core_desc _ _ K2). reflexivity.
  - destruct (quiet_reset_prompt e s2' cw eq_refl W2 B2) as (s3 & Q & Ed & K3 & B3 & L3). exists s3. split; [apply (works_quiet _ _ _ Wk); exact Q|]. split; [exact Ed|]. split; [exact B3|].
    split; [congruence|]. rewrite L3, (core_desc _ _ K2). reflexivity.
Qed.

(** Memory that has become too short. *)
Lemma C57_short_proof : forall nl t s cw l m i, cwd_is s cw -> during (length t) l -> accepted l < length t -> length m <= accepted l ->
  exists s1 s2, do_action [] (if nl : bool then APrint t else APrintNoNl t) s = Ok s1 /\ live l s1 = Ok s2 /\ ush_service i (overwrite_text m s2) = Err EOob.
Proof.
  intros nl t s cw l m i W D A M. set (next := if nl then S_RESET else S_RESET_PROMPT). set (s1 := ush_write_pointer_bin (WStr t) (length t) next s).
  assert (C : o_cur s <> None) by (exact (cwd_cur _ _ W)).
  destruct (live_run l (length t) s1) as (m' & E); [split; [exact C|]; split; [reflexivity|]; split; [reflexivity|exists t; reflexivity]|exact D|].
  exists s1. eexists. split; [destruct nl; reflexivity|]. split; [exact E|]. unfold overwrite_text. cbn [o_wbuf set_wbuf].
  rewrite service_eq. change (o_cur _) with (o_cur s). destruct (o_cur s); [|congruence].
  unfold svc. cbn [o_state set_wbuf delivered set_wpos set_lg s1 ush_write_pointer_bin]. unfold ush_write_char. cbn.
  rewrite shown_length. destruct (Nat.leb_spec (length t) (accepted l)) as [X|X]; [lia|].
  unfold wbuf_rd. cbn. unfold rd. replace (nth_error m (accepted l)) with (@None byte) by (symmetry; apply nth_error_None; exact M). reflexivity.
Qed.

(** ** cat *)
Lemma cat_some : forall e find args ws rest pn pc px pd ps post evs, reads e find post evs ->
  forall pre s, ws = pre ++ post ++ rest -> 0 < length pre ->
  (forall n, In n post -> ush_file_find_by_name n s = Ok (find n)) ->
  at_ PCat S_PROCESS_SERVICE (pn, pc, length pre, px, pd, ps) s -> o_argc s = length ws ->
  ush_parse_get_args s = Ok args -> arg_values (inb s) args = Ok ws ->
  exists s', emits e s evs s' /\ at_ PCat S_PROCESS_SERVICE (pn, pc, length (pre ++ post), px, pd, ps) s'.
Proof.
  intros e find args ws rest pn pc px pd ps post evs R. assert (P0 : process_state S_PROCESS_SERVICE) by (right; left; reflexivity).
  induction R as [|name f cb d r evs Fn Fg (extra & Eg) R IH]; intros pre s E Lp Fi A Ac Pa Av.
  - rewrite app_nil_r. exists s. split; [apply emits_refl|exact A].
  - change (EvGet cb (f_name f) :: map EvOut d ++ evs) with (([EvGet cb (f_name f)] ++ map EvOut d) ++ evs).
    assert (Nn : nth_error ws (length pre) = Some name) by (rewrite E, nth_error_app2, Nat.sub_diag by lia; reflexivity).
    destruct (arg_values_nth _ _ _ _ _ Av Nn) as (off & Ro & Co).
    apply and_then with (P := at_ PCat S_PROCESS_SERVICE (pn, pc, S (length pre), px, pd, ps)).
    { eapply (say_event e PCat _ _ s (set_pitem (S (length pre)) (emit (EvGet cb (f_name f)) s)) (WStr (d ++ extra)) d); [exact A|exact P0| | |repeat split|reflexivity|].
      - at_fields A. cbn [proc]. unfold cat_service. rewrite St, H1, Ac. destruct (Nat.leb_spec (length ws) (length pre)) as [L|L].
        + rewrite E, app_length in L. cbn [length app] in L. lia.
        + rewrite Pa. cbn [bind]. rewrite Ro. cbn [bind]. rewrite Co. cbn [bind]. rewrite (Fi name (or_introl eq_refl)). cbn [bind]. rewrite Fn. cbn [deref bind].
          rewrite Fg. cbn [deref bind]. unfold call_get. rewrite Eg. cbn [g_ptr g_size g_calls do_actions bind]. cbn [o_pitem emit set_lg]. rewrite H1.
          cbn [o_state emit set_lg]. rewrite St. reflexivity.
      - intros j c N. unfold rd. rewrite nth_error_app1 by (apply nth_error_Some; congruence). rewrite N. reflexivity.
      - at_fields A. put. }
    intros s1 K A1. replace (pre ++ name :: r) with ((pre ++ [name]) ++ r) by (rewrite <- app_assoc; reflexivity). apply (IH (pre ++ [name]) s1).
    + rewrite <- app_assoc. exact E.
    + rewrite app_length. cbn [length]. lia.
    + intros n I. rewrite (find_core n s s1 (proj1 K)). apply Fi. right; exact I.
    + rewrite app_length. cbn [length]. rewrite Nat.add_1_r. exact A1.
    + destruct K as (_ & _ & -> & _). exact Ac.
    + destruct K as (_ & Ki & Ka & _). unfold ush_parse_get_args in *. rewrite Ki, Ka. exact Pa.
    + destruct K as (_ & Ki & _). rewrite Ki. exact Av.
Qed.

Lemma cat_done : forall e s pn pc px pd ps, at_ PCat S_PROCESS_SERVICE (pn, pc, o_argc s, px, pd, ps) s ->
  exists s', emits e s [] s' /\ o_state s' = S_RESET_PROMPT.
Proof.
  intros e s pn pc px pd ps A. change (@nil event) with ([] ++ @nil event).
  apply and_then with (P := at_ PCat S_PROCESS_FINISH (pn, pc, o_argc s, px, pd, ps)).
  { eapply (say_nothing e PCat _ _ s (set_state S_PROCESS_FINISH s)); [exact A|right; left; reflexivity| |repeat split|reflexivity|reflexivity|].
    - at_fields A. cbn [proc]. unfold cat_service. rewrite St, H1, Nat.leb_refl. reflexivity.
    - at_fields A. put. }
  intros s3 K3 A3. exists (set_state S_RESET_PROMPT s3). split; [|reflexivity]. at_fields A3.
  apply (proc_silent e PCat); auto; [rewrite St; right; right; reflexivity| |repeat split]. cbn [proc]. unfold cat_service. rewrite St. reflexivity.
Qed.

Lemma C57_cat_proof : forall e own w cwd l n pre name post s c evs g cb d evs2, asked e own w cwd l (n :: pre ++ name :: post) cmd_cat s -> c = CR \/ c = LF -> findable s w (pre ++ name :: post) ->
  reads e (denotes w) pre evs -> denotes w name = Some g -> f_get g = Some cb -> gives e cb g d -> reads e (denotes w) post evs2 ->
  exists l1 s1, drive (always e) [c] l1 s = Ok ([], s1) /\
    lg s1 = lg s ++ EvIn c :: map EvOut (eol_echo c) ++ hook_events (o_desc s) (n :: pre ++ name :: post) ++
      EvExec XCat (Some (f_name cmd_cat)) (n :: pre ++ name :: post) :: evs ++ [EvGet cb (f_name g)] /\
    forall l2, during (length d) l2 -> exists s2, live l2 s1 = Ok s2 /\ lg s2 = lg s1 ++ map EvOut (shown 0 l2) /\
      (accepted l2 = length d -> exists s3, quiet e s2 s3 /\ editing 0 [] s3 /\ bufs_ok s3 /\ core s3 = core s /\
         lg s3 = lg s2 ++ evs2 ++ map EvOut (prompt (o_desc s) (show cwd))).
Proof.
  intros e own w cwd l n pre name post s c evs g cb d evs2 A Hc Fi R Dn Gg (extra & Eg) R2. set (names := pre ++ name :: post) in *.
  assert (Ne : names <> []) by (unfold names; destruct pre; discriminate).
  pose proof A as (K0 & Wc & En & X & Fn). pose proof (cwd_show _ _ _ _ K0 Wc) as W0.
  assert (G : Forall (has_getter (denotes w)) names).
  { apply Forall_app. split; [exact (reads_getters _ _ _ _ R)|]. constructor; [exists g, cb; auto|exact (reads_getters _ _ _ _ R2)]. }
  destruct (hooked_line_took e l (n :: names) s c (show cwd) En W0 Hc ltac:(discriminate) X) as (s2 & args & Rr & _ & Tk).
  pose proof Rr as (Kc & B & _ & Ac & _ & Pa & Av & _ & L2). pose proof (knows_core _ _ _ _ Kc K0) as K2. pose proof (entered_no_nul _ _ _ En) as N.
  inversion N as [|? ? _ N2]; subst.
  set (s2' := emit (EvExec XCat (Some (f_name cmd_cat)) (n :: names)) s2) in *.
  set (s3 := ush_process_start cmd_cat s2').
  assert (A3 : at_ PCat S_PROCESS_START (cnt s2') s3) by (apply (started cmd_cat PCat s2'); [reflexivity|exact (cwd_cur _ _ (core_cwd _ _ _ Kc W0))|exact B]).
  assert (Fs : forall m, In m names -> forall s5, core s5 = core s -> ush_file_find_by_name m s5 = Ok (denotes w m)).
  { intros m I s5 K5. apply (names_found own s w cwd m names); auto. }
  assert (P0 : process_state S_PROCESS_SERVICE) by (right; left; reflexivity).
  assert (Em4 : exists s4, emits e s3 ([] ++ evs) s4 /\ at_ PCat S_PROCESS_SERVICE (o_pnode s2', o_pchild s2', S (length pre), o_pidx s2', o_pdata s2', o_pdsize s2') s4).
  { apply and_then with (P := at_ PCat S_PROCESS_SERVICE (o_pnode s2', o_pchild s2', 1, o_pidx s2', o_pdata s2', o_pdsize s2')).
    - eapply (say_nothing e PCat _ _ s3 (set_state S_PROCESS_SERVICE (set_pitem 1 s3))); [exact A3|left; reflexivity|reflexivity|repeat split|reflexivity|reflexivity|reflexivity].
    - intros s4 K A4. apply (cat_some e (denotes w) args (n :: names) (name :: post) _ _ _ _ _ pre evs R [n] s4); auto.
      + intros m I. apply Fs; [apply in_or_app; left; exact I|]. rewrite (proj1 K). exact Kc.
      + destruct K as (_ & _ & -> & _). exact Ac.
      + destruct K as (_ & Ki & Ka & _). unfold ush_parse_get_args in *. rewrite Ki, Ka. exact Pa.
      + destruct K as (_ & Ki & _). rewrite Ki. exact Av. }
  destruct Em4 as (s4 & (Wk4 & Kp4 & L4) & A4). pose proof Kp4 as (Ck4 & Ki4 & Ka4 & _). cbn [app] in L4.
  assert (Av4 : arg_values (inb s4) args = Ok (n :: names)) by (rewrite Ki4; exact Av).
  assert (Pa4 : ush_parse_get_args s4 = Ok args) by (unfold ush_parse_get_args in *; rewrite Ki4, Ka4; exact Pa).
  assert (Ac4 : o_argc s4 = length (n :: names)) by (rewrite Ka4; exact Ac).
  assert (C4 : core s4 = core s) by (rewrite Ck4; exact Kc).
  assert (En4 : nth_error (n :: names) (S (length pre)) = Some name) by (cbn [nth_error]; unfold names; rewrite nth_error_app2, Nat.sub_diag by lia; reflexivity).
  destruct (arg_values_nth _ _ _ _ _ Av4 En4) as (off & Ro & Co).
  assert (Lk : ush_file_find_by_name name s4 = Ok (Some g)) by (rewrite <- Dn; apply Fs; [apply in_or_app; right; left; reflexivity|exact C4]).
  set (s5 := set_pitem (S (S (length pre))) (ush_write_pointer_bin (WStr (d ++ extra)) (length d) S_PROCESS_SERVICE (emit (EvGet cb (f_name g)) s4))).
  assert (Pr : proc e PCat s4 = Ok s5).
  { at_fields A4. cbn [proc]. unfold cat_service. rewrite St, H1, Ac4. destruct (Nat.leb_spec (length (n :: names)) (S (length pre))) as [L|L].
    - unfold names in L. cbn [length] in L. rewrite app_length in L. cbn [length] in L. lia.
    - rewrite Pa4. cbn [bind]. rewrite Ro. cbn [bind]. rewrite Co. cbn [bind]. rewrite Lk. cbn [deref bind]. rewrite Gg. cbn [deref bind].
      unfold call_get. rewrite Eg. cbn [g_ptr g_size g_calls do_actions bind]. cbn [o_pitem emit set_lg]. cbn [o_state emit set_lg]. rewrite St. unfold s5.
      cbn [o_pitem ush_write_pointer_bin]. change (o_pitem (ush_write_pointer_bin _ _ _ _)) with (o_pitem s4). rewrite ?H1. reflexivity. }
  assert (W5 : works e s3 s5).
  { eapply works_trans; [exact Wk4|]. pose proof A4 as (Rn & St & _). eapply (proc_works e PCat s4); [exact Rn|rewrite St; exact P0|exact Pr]. }
  assert (T5 : took e c s s5).
  { eapply took_works; [|exact W5]. apply Tk. unfold run_file. rewrite (find_core _ s s2 Kc), (find_group own s w _ cmd_cat K0 Fn). cbn [bind f_exec cmd_cat call_exec].
    unfold cat_callback. fold s2'. replace (length (n :: names) <? 2) with false by (symmetry; apply Nat.ltb_ge; unfold names; cbn [length]; rewrite app_length; cbn [length]; lia).
    cbn [tl]. rewrite (cat_check_ok names s2' (denotes w)); [reflexivity|exact G|]. intros k I. apply Fs; [exact I|exact Kc]. }
  destruct (took_drive e c s s5 T5) as (l1 & Dr). exists l1, s5. split; [exact Dr|]. split.
  - change (lg s5) with (lg s4 ++ [EvGet cb (f_name g)]). rewrite L4. change (lg s3) with (lg s2 ++ [EvExec XCat (Some (f_name cmd_cat)) (n :: names)]).
    rewrite L2, <- !app_assoc. cbn [app]. rewrite <- !app_assoc. reflexivity.
  - intros l2 Du. pose proof A4 as (Rn & St4 & Cn4 & B4). pose proof Rn as (Cu4 & _).
    destruct (live_all l2 (length d) s5) as (s6 & E6 & L6 & F6).
    { split; [exact Cu4|]. split; [reflexivity|]. split; [reflexivity|]. eexists; reflexivity. }
    { reflexivity. }
    { exact Du. }
    exists s6. split; [exact E6|]. split; [exact L6|]. intros Al. destruct (F6 Al e) as (Wk6 & m & Es6). change (o_wnext s5) with S_PROCESS_SERVICE in Wk6.
    set (s7 := set_state S_PROCESS_SERVICE s6) in *.
    assert (Kp7 : kept s4 s7) by (unfold s7; rewrite Es6; repeat split).
    assert (A7 : at_ PCat S_PROCESS_SERVICE (o_pnode s2', o_pchild s2', length ([n] ++ pre ++ [name]), o_pidx s2', o_pdata s2', o_pdsize s2') s7).
    { split; [eapply kept_running; [exact Kp7|exact Rn]|]. split; [reflexivity|]. split; [|eapply kept_bufs; [exact Kp7|exact B4]].
      replace (length ([n] ++ pre ++ [name])) with (S (S (length pre))) by (cbn [length app]; rewrite app_length; cbn [length]; lia).
      unfold cnt in *. injection Cn4 as Q1 Q2 _ Q4 Q5 Q6. unfold s7. rewrite Es6.
      change ((o_pnode s4, o_pchild s4, S (S (length pre)), o_pidx s4, o_pdata s4, o_pdsize s4) = (o_pnode s2, o_pchild s2, S (S (length pre)), o_pidx s2, o_pdata s2, o_pdsize s2)). congruence. }
    pose proof Kp7 as (Ck7 & Ki7 & Ka7 & _).
    destruct (cat_some e (denotes w) args (n :: names) [] (o_pnode s2') (o_pchild s2') (o_pidx s2') (o_pdata s2') (o_pdsize s2') post evs2 R2 ([n] ++ pre ++ [name]) s7) as (s8 & Em8 & A8).
    { unfold names. rewrite app_nil_r, <- !app_assoc. reflexivity. }
    { cbn [length app]. lia. }
    { intros k I. apply Fs; [apply in_or_app; right; right; exact I|]. rewrite Ck7. exact C4. }
    { exact A7. }
    { rewrite Ka7. exact Ac4. }
    { unfold ush_parse_get_args in *. rewrite Ki7, Ka7. exact Pa4. }
    { rewrite Ki7. exact Av4. }
    assert (A8' : at_ PCat S_PROCESS_SERVICE (o_pnode s2', o_pchild s2', o_argc s8, o_pidx s2', o_pdata s2', o_pdsize s2') s8).
    { replace (o_argc s8) with (length (([n] ++ pre ++ [name]) ++ post)); [exact A8|]. destruct Em8 as (_ & (_ & _ & -> & _) & _). rewrite Ka7, Ac4. unfold names. rewrite <- !app_assoc. reflexivity. }
    destruct (cat_done e s8 _ _ _ _ _ A8') as (s9 & Em9 & St9).
    pose proof (emits_trans _ _ _ _ _ _ Em8 Em9) as Em. rewrite app_nil_r in Em.
    assert (C7 : core s7 = core s) by (rewrite Ck7; exact C4).
    destruct (prompt_cmd e s7 s9 evs2 (show cwd) Em St9 (core_cwd _ _ _ C7 W0) (proj2 (proj2 (proj2 A7)))) as (s' & Q & Ed & B' & K' & L').
    exists s'. split; [apply (works_quiet _ _ _ Wk6); exact Q|]. split; [exact Ed|]. split; [exact B'|]. split; [congruence|].
    rewrite L', (core_desc _ _ C7). reflexivity.
Qed.

(** ** xxd *)
Definition lemits (e : env) (mem : list event -> bytes) (s : st) (evs : list event) (s' : st) : Prop :=
  meanwhile e mem s s' /\ kept s s' /\ lg s' = lg s ++ evs.
Definition lat (x : fsm) (off idx size : nat) (s : st) : Prop :=
  running PXxd s /\ o_state s = x /\ o_pitem s = off /\ o_pidx s = idx /\ o_pdsize s = size /\ o_pdata s <> None /\ bufs_ok s.

Lemma meanwhile_trans : forall e mem a b c, meanwhile e mem a b -> meanwhile e mem b c -> meanwhile e mem a c.
Proof. intros e mem a b c H. induction H; intros X; [exact X|]. eapply meanwhile_step; eauto. Qed.
Lemma lemits_trans : forall e mem a x b y c, lemits e mem a x b -> lemits e mem b y c -> lemits e mem a (x ++ y) c.
Proof.
  intros e mem a x b y c (W1 & K1 & L1) (W2 & K2 & L2). split; [eapply meanwhile_trans; eauto|]. split; [eapply kept_trans; eauto|].
  rewrite L2, L1, app_assoc. reflexivity.
Qed.

Lemma overwrite_eq : forall m s, o_pdata s <> None -> overwrite_data m s = set_pdata (Some m) s.
Proof. intros m s N. unfold overwrite_data. destruct (o_pdata s); congruence. Qed.

Lemma meanwhile_svc : forall e mem s s1, running PXxd s -> process_state (o_state s) -> o_pdata s <> None ->
  xxd_service (set_pdata (Some (mem (lg s))) s) = Ok s1 -> meanwhile e mem s s1.
Proof.
  intros e mem s s1 (C & f & Pf & Fp) St N H. apply (meanwhile_step e mem s true s1 s1).
  - intros X. unfold polling in X. destruct St as [St|[St|St]]; congruence.
  - rewrite overwrite_eq by exact N. rewrite service_eq. change (o_cur (set_pdata (Some (mem (lg s))) s)) with (o_cur s). destruct (o_cur s); [|congruence].
    unfold svc. change (o_state (set_pdata (Some (mem (lg s))) s)) with (o_state s). destruct St as [St|[St|St]]; rewrite St; unfold ush_process_service;
      change (o_state (set_pdata (Some (mem (lg s))) s)) with (o_state s); change (o_pfile (set_pdata (Some (mem (lg s))) s)) with (o_pfile s); rewrite St, Pf, Fp, H; reflexivity.
  - constructor.
Qed.

Lemma meanwhile_pending : forall e mem t s, o_cur s <> None -> o_pdata s <> None -> pending s t ->
  exists m, meanwhile e mem s (set_pdata (Some m) (set_state (o_wnext s) (delivered s t))).
Proof.
  intros e mem t. induction t as [|c t IH]; intros s C N P.
  - exists (mem (lg s)). eapply meanwhile_step; [eapply pending_not_polling; exact P| |].
    + rewrite overwrite_eq by exact N. apply pending_end; [exact C|exact P].
    + rewrite delivered_nil, set_wpos_id. constructor.
  - set (s1 := set_pdata (Some (mem (lg s))) (delivered s [c])).
    destruct (IH s1) as (m & H); [exact C|discriminate|exact (pending_delivered s [c] t P)|].
    exists m. eapply meanwhile_step; [eapply pending_not_polling; exact P| |].
    + rewrite overwrite_eq by exact N. exact (pending_step (tick e None) (set_pdata (Some (mem (lg s))) s) c t C P).
    + cbn [tick io_wr]. change (delivered (set_pdata (Some (mem (lg s))) s) [c]) with s1.
      change (c :: t) with ([c] ++ t). rewrite <- delivered_app. exact H.
Qed.

Lemma lsay : forall e mem x off idx size s s0 w t next off' idx', lat x off idx size s -> process_state x ->
  xxd_service (set_pdata (Some (mem (lg s))) s) = Ok (ush_write_pointer_bin w (length t) next s0) -> points s0 w t -> kept s s0 -> lg s0 = lg s ->
  o_pitem s0 = off' -> o_pidx s0 = idx' -> o_pdsize s0 = size -> o_pdata s0 <> None ->
  exists s1, lemits e mem s (map EvOut t) s1 /\ lat next off' idx' size s1.
Proof.
  intros e mem x off idx size s s0 w t next off' idx' (R & St & _ & _ & _ & N & B) P E Po K L E1 E2 E3 N0.
  set (s0' := ush_write_pointer_bin w (length t) next s0) in *.
  assert (C0 : o_cur s0' <> None) by (eapply kept_cur; [exact K|apply R]).
  destruct (meanwhile_pending e mem t s0' C0 N0 (pending_wpb w t next s0 Po)) as (m & H).
  set (s1 := set_pdata _ _) in H. exists s1.
  assert (K1 : kept s s1) by exact K.
  split; [|split; [eapply kept_running; [exact K1|exact R]|]].
  - split; [|split; [exact K1|]].
    + eapply meanwhile_trans; [apply meanwhile_svc; [exact R|rewrite St; exact P|exact N|exact E]|exact H].
    + change (lg s0 ++ map EvOut t = lg s ++ map EvOut t). rewrite L. reflexivity.
  - split; [reflexivity|]. split; [exact E1|]. split; [exact E2|]. split; [exact E3|]. split; [discriminate|eapply kept_bufs; [exact K1|exact B]].
Qed.

Lemma hex_part_eq : forall n off d, hex_cols n off d ++ lit " " = hex_part n (firstn n (skipn off d)).
Proof.
  intros n off d. unfold hex_part, hex_cols. rewrite firstn_length, skipn_length.
  replace (n - Nat.min n (length d - off)) with (n - (length d - off)) by lia. rewrite <- !app_assoc. reflexivity.
Qed.
Lemma char_part_eq : forall n off d, chr_cols n off d = char_part n (firstn n (skipn off d)).
Proof.
  intros n off d. unfold char_part, chr_cols. rewrite firstn_length, skipn_length.
  replace (n - Nat.min n (length d - off)) with (n - (length d - off)) by lia. reflexivity.
Qed.

Lemma xxd_lrow : forall e mem s off size, lat S_PROCESS_SERVICE off 0 size s -> (forall l, size <= length (mem l)) ->
  let cols := cfg_cols (d_cfg (o_desc s)) in
  (N.of_nat off < 2 ^ 32)%N -> 10 < d_outsize (o_desc s) -> 3 * cols + 1 < d_outsize (o_desc s) ->
  exists s', lemits e mem s (map EvOut (live_line mem cols size off (lg s))) s' /\
    if size <=? off + cols then lat S_PROCESS_FINISH (off + cols) 3 size s' else lat S_PROCESS_SERVICE (off + cols) 0 size s'.
Proof.
  intros e mem s off size A M cols Lo L1 L2. assert (P0 : process_state S_PROCESS_SERVICE) by (right; left; reflexivity).
  pose proof A as (R & St & E1 & E2 & E3 & Nd & B).
  (* the address *)
  set (a := address off ++ lit ": ").
  assert (S1 : exists s1, lemits e mem s (map EvOut a) s1 /\ lat S_PROCESS_SERVICE off 1 size s1).
  { set (so := set_pdata (Some (mem (lg s))) s).
    destruct (print_out_eq a S_PROCESS_SERVICE so) as (b & Eq & Po & Kb).
    { unfold a. rewrite app_length. unfold address. rewrite hex_digits_length. destruct B as (_ & B2 & _). change (outb so) with (outb s). rewrite B2. cbn [length lit list_ascii_of_string]. lia. }
    { unfold a. rewrite in_app_iff. intros [I|I]; [exact (hex_digits_no_nul _ _ I)|cbn in I; intuition discriminate]. }
    apply (lsay e mem S_PROCESS_SERVICE off 0 size s (set_pidx 1 (set_outb b so)) WOut a S_PROCESS_SERVICE off 1); auto.
    - fold so. unfold xxd_service. change (o_state so) with (o_state s). change (o_pidx so) with (o_pidx s). change (o_pitem so) with (o_pitem s).
      rewrite St, E2, E1, fmt_hex_eq by exact Lo. fold (address off). fold a. rewrite Eq. reflexivity.
    - discriminate. }
  destruct S1 as (s1 & Em1 & A1). pose proof Em1 as (_ & K1 & Lg1). pose proof (kept_desc _ _ K1) as D1.
  (* the hexadecimal columns *)
  set (row := fun l => firstn cols (skipn off (firstn size (mem l)))).
  set (h := hex_part cols (row (lg s1))).
  assert (S2 : exists s2, lemits e mem s1 (map EvOut h) s2 /\ lat S_PROCESS_SERVICE off 2 size s2).
  { pose proof A1 as (R1 & St1 & F1 & F2 & F3 & Nd1 & B1). set (so := set_pdata (Some (mem (lg s1))) s1). set (d := firstn size (mem (lg s1))).
    assert (Ld : length d = size) by (unfold d; rewrite firstn_length; specialize (M (lg s1)); lia).
    assert (Pd : o_pdata so = Some (d ++ skipn size (mem (lg s1)))) by (unfold d; rewrite firstn_skipn; reflexivity).
    assert (Ps : o_pdsize so = length d) by (rewrite Ld; exact F3).
    destruct B1 as (B11 & B12 & B13 & B14). destruct (outb s1) as [|x r] eqn:Ob; [cbn in B12; lia|]. cbn [length] in B12. rewrite D1 in B12.
    assert (Eh : h = hex_cols cols off d ++ lit " ") by (unfold h, row; symmetry; apply hex_part_eq).
    assert (E : xxd_hex cols off so (NUL :: r) = Ok (hex_cols cols off d ++ NUL :: skipn (3 * cols) r)).
    { apply (xxd_hex_ok so d (or_intror (ex_intro _ _ Pd)) Ps cols off [] r); [apply no_nul_nil|lia]. }
    assert (Nt : no_nul h) by (rewrite Eh; apply no_nul_app; split; [apply hex_cols_no_nul|intros I; cbn in I; intuition discriminate]).
    assert (E' : c_strcat (hex_cols cols off d ++ NUL :: skipn (3 * cols) r) 0 (lit " ") = Ok (h ++ NUL :: skipn 1 (skipn (3 * cols) r))).
    { rewrite Eh. apply strcat_ok; [apply hex_cols_no_nul|rewrite skipn_length; cbn [length lit list_ascii_of_string]; lia]. }
    set (b := h ++ NUL :: skipn 1 (skipn (3 * cols) r)) in *.
    assert (Ew : wptr_str WOut (set_outb b so) = Ok h) by (apply c_str_0; exact Nt).
    apply (lsay e mem S_PROCESS_SERVICE off 1 size s1 (set_pidx 2 (set_outb b so)) WOut h S_PROCESS_SERVICE off 2); auto.
    - fold so. unfold xxd_service. change (o_state so) with (o_state s1). change (o_pidx so) with (o_pidx s1). change (o_pitem so) with (o_pitem s1). change (outb so) with (outb s1). change (o_desc so) with (o_desc s1).
      rewrite St1, F2, F1, Ob. replace (wr (x :: r) 0 NUL) with (Ok (NUL :: r)) by reflexivity. cbn [bind]. rewrite D1. fold cols. rewrite E. cbn [bind]. rewrite E'. cbn [bind].
      rewrite (wp_eq WOut S_PROCESS_SERVICE _ h Ew). reflexivity.
    - apply points_str in Ew. exact Ew.
    - repeat split. change (length b = length (outb s1)). rewrite Ob. unfold b. rewrite Eh, !app_length. cbn [length lit list_ascii_of_string].
      rewrite hex_cols_length, !skipn_length. lia.
    - discriminate. }
  destruct S2 as (s2 & Em2 & A2). pose proof Em2 as (_ & K2 & Lg2). pose proof (kept_desc _ _ K2) as D2.
  (* the characters *)
  set (t := char_part cols (row (lg s2))).
  assert (S3 : exists s3, lemits e mem s2 (map EvOut t) s3 /\ lat S_PROCESS_SERVICE (off + cols) 3 size s3).
  { pose proof A2 as (R1 & St1 & F1 & F2 & F3 & Nd1 & B1). set (so := set_pdata (Some (mem (lg s2))) s2). set (d := firstn size (mem (lg s2))).
    assert (Ld : length d = size) by (unfold d; rewrite firstn_length; specialize (M (lg s2)); lia).
    assert (Pd : o_pdata so = Some (d ++ skipn size (mem (lg s2)))) by (unfold d; rewrite firstn_skipn; reflexivity).
    assert (Ps : o_pdsize so = length d) by (rewrite Ld; exact F3).
    destruct B1 as (B11 & B12 & B13 & B14). destruct (outb s2) as [|x r] eqn:Ob; [cbn in B12; lia|]. cbn [length] in B12. rewrite D2, D1 in B12.
    assert (Et : t = chr_cols cols off d) by (unfold t, row; symmetry; apply char_part_eq).
    assert (E : xxd_chr cols off so (NUL :: r) = Ok (t ++ NUL :: skipn cols r)).
    { rewrite Et. apply (xxd_chr_ok so d (or_intror (ex_intro _ _ Pd)) Ps cols off [] r); [apply no_nul_nil|lia]. }
    set (b := t ++ NUL :: skipn cols r) in *.
    assert (Ew : wptr_str WOut (set_outb b (set_pitem (off + cols) so)) = Ok t) by (apply c_str_0; rewrite Et; apply chr_cols_no_nul).
    apply (lsay e mem S_PROCESS_SERVICE off 2 size s2 (set_pidx 3 (set_outb b (set_pitem (off + cols) so))) WOut t S_PROCESS_SERVICE (off + cols) 3); auto.
    - fold so. unfold xxd_service. change (o_state so) with (o_state s2). change (o_pidx so) with (o_pidx s2). change (o_pitem so) with (o_pitem s2). change (outb so) with (outb s2). change (o_desc so) with (o_desc s2).
      rewrite St1, F2, F1, Ob. replace (wr (x :: r) 0 NUL) with (Ok (NUL :: r)) by reflexivity. cbn [bind]. rewrite D2, D1. fold cols. rewrite E. cbn [bind].
      rewrite (wp_eq WOut S_PROCESS_SERVICE _ t Ew). reflexivity.
    - apply points_str in Ew. exact Ew.
    - repeat split. change (length b = length (outb s2)). rewrite Ob. unfold b. rewrite Et, !app_length. cbn [length].
      rewrite chr_cols_length, !skipn_length. lia.
    - discriminate. }
  destruct S3 as (s3 & Em3 & A3). pose proof Em3 as (_ & K3 & Lg3).
  (* the end of the line *)
  assert (Eline : map EvOut (live_line mem cols size off (lg s)) = map EvOut a ++ map EvOut h ++ map EvOut t ++ map EvOut CRLF).
  { unfold live_line. cbv zeta. fold a. rewrite <- Lg1. fold (row (lg s1)). fold h. rewrite (map_app EvOut a h), (app_assoc (lg s)), <- Lg1, <- Lg2. fold (row (lg s2)). fold t. rewrite !map_app. reflexivity. }
  rewrite Eline.
  pose proof A3 as (R3 & St3 & F1 & F2 & F3 & Nd3 & B3). set (so := set_pdata (Some (mem (lg s3))) s3).
  destruct (Nat.leb_spec size (off + cols)) as [Le|Le].
  - destruct (lsay e mem S_PROCESS_SERVICE (off + cols) 3 size s3 so (WStr CRLF) CRLF S_PROCESS_FINISH (off + cols) 3) as (s4 & Em4 & A4); auto using points_WStr.
    + fold so. unfold xxd_service. change (o_state so) with (o_state s3). change (o_pidx so) with (o_pidx s3). change (o_pitem so) with (o_pitem s3). change (o_pdsize so) with (o_pdsize s3).
      rewrite St3, F2, F1, F3. destruct (Nat.leb_spec size (off + cols)); [reflexivity|lia].
    + repeat split.
    + discriminate.
    + exists s4. split; [|exact A4]. eapply lemits_trans; [exact Em1|]. eapply lemits_trans; [exact Em2|]. eapply lemits_trans; [exact Em3|exact Em4].
  - destruct (lsay e mem S_PROCESS_SERVICE (off + cols) 3 size s3 (set_pidx 0 so) (WStr CRLF) CRLF S_PROCESS_SERVICE (off + cols) 0) as (s4 & Em4 & A4); auto using points_WStr.
    + fold so. unfold xxd_service. change (o_state so) with (o_state s3). change (o_pidx so) with (o_pidx s3). change (o_pitem so) with (o_pitem s3). change (o_pdsize so) with (o_pdsize s3).
      rewrite St3, F2, F1, F3. destruct (Nat.leb_spec size (off + cols)); [lia|reflexivity].
    + repeat split.
    + discriminate.
    + exists s4. split; [|exact A4]. eapply lemits_trans; [exact Em1|]. eapply lemits_trans; [exact Em2|]. eapply lemits_trans; [exact Em3|exact Em4].
Qed.

Lemma xxd_lrows : forall e mem cols size fuel k s, lat S_PROCESS_SERVICE (k * cols) 0 size s -> (forall l, size <= length (mem l)) ->
  cols = cfg_cols (d_cfg (o_desc s)) -> 0 < cols -> (N.of_nat size <= 2 ^ 32)%N -> 10 < d_outsize (o_desc s) -> 3 * cols + 1 < d_outsize (o_desc s) ->
  (k = 0 \/ k * cols < size) -> rows cols size - k = fuel ->
  exists s' off, lemits e mem s (map EvOut (live_lines mem cols size k fuel (lg s))) s' /\ lat S_PROCESS_FINISH off 3 size s'.
Proof.
  intros e mem cols size fuel. induction fuel as [|fuel IH]; intros k s A M Ec D1 D2 D3 D4 Hk Hf.
  - exfalso. unfold rows in Hf. destruct Hk as [->|Hk]; [lia|].
    assert (k < (size + cols - 1) / cols); [|lia]. apply Nat.div_le_lower_bound; nia.
  - assert (Ho : (N.of_nat (k * cols) < 2 ^ 32)%N) by (destruct Hk as [->|Hk]; [cbn; lia|lia]).
    cbn [live_lines]. rewrite map_app.
    destruct (xxd_lrow e mem s (k * cols) size A M Ho D3) as (s1 & E1 & A1); [rewrite <- Ec; exact D4|]. rewrite <- Ec in *.
    set (t := live_line mem cols size (k * cols) (lg s)) in *. pose proof E1 as (_ & K1 & Lg1). pose proof (kept_desc _ _ K1) as Kd.
    destruct (Nat.leb_spec size (k * cols + cols)) as [Le|Le].
    + assert (fuel = 0).
      { assert ((size + cols - 1) / cols <= S k); [|unfold rows in Hf; lia].
        apply Nat.lt_succ_r. apply Nat.div_lt_upper_bound; [lia|]. nia. }
      subst fuel. exists s1, (k * cols + cols). cbn [live_lines map]. rewrite app_nil_r. split; [exact E1|exact A1].
    + destruct (IH (S k) s1) as (s2 & c & E2 & A2); auto.
      * replace (S k * cols) with (k * cols + cols) by lia. exact A1.
      * rewrite Kd. exact Ec.
      * rewrite Kd. exact D3.
      * rewrite Kd. exact D4.
      * right. lia.
      * lia.
      * exists s2, c. rewrite <- Lg1. split; [eapply lemits_trans; [exact E1|exact E2]|exact A2].
Qed.

Lemma C57_xxd_proof : forall e own w cwd l n name s c g cb d mem, asked e own w cwd l [n; name] cmd_xxd s -> c = CR \/ c = LF -> findable s w [name] ->
  denotes w name = Some g -> f_get g = Some cb -> gives e cb g d -> dumpable (o_desc s) d -> (forall x, length d <= length (mem x)) ->
  exists l1 s1 s2 s3, drive (always e) [c] l1 s = Ok ([], s1) /\
    lg s1 = lg s ++ EvIn c :: map EvOut (eol_echo c) ++ hook_events (o_desc s) [n; name] ++ [EvExec XXxd (Some (f_name cmd_xxd)) [n; name]; EvGet cb (f_name g)] /\
    meanwhile e mem s1 s2 /\ lg s2 = lg s1 ++ map EvOut (live_dump mem (cfg_cols (d_cfg (o_desc s))) (length d) (lg s1)) /\
    quiet e s2 s3 /\ editing 0 [] s3 /\ bufs_ok s3 /\ core s3 = core s /\ lg s3 = lg s2 ++ map EvOut (prompt (o_desc s) (show cwd)).
Proof.
  intros e own w cwd l n name s c g cb d mem A Hc Fi Dn Gg (extra & Eg) (D1 & D2 & D3 & D4) M. pose proof A as (K0 & Wc & En & X & Fn). pose proof (cwd_show _ _ _ _ K0 Wc) as W0.
  destruct (hooked_line_took e l [n; name] s c (show cwd) En W0 Hc ltac:(discriminate) X) as (s2 & args & Rr & _ & Tk).
  pose proof Rr as (Kc & B & _ & _ & _ & _ & _ & _ & L2). pose proof (entered_no_nul _ _ _ En) as N. inversion N as [|? ? _ N2]; subst.
  set (s2' := emit (EvExec XXxd (Some (f_name cmd_xxd)) [n; name]) s2) in *.
  set (s2g := set_pdsize (length d) (set_pdata (Some (d ++ extra)) (emit (EvGet cb (f_name g)) s2'))).
  set (s3 := ush_process_start cmd_xxd s2g).
  assert (T3 : took e c s s3).
  { apply Tk. unfold run_file. rewrite (find_core _ s s2 Kc), (find_group own s w _ cmd_xxd K0 Fn). cbn [bind f_exec cmd_xxd call_exec xxd_callback]. fold s2'.
    rewrite (names_found own s w cwd name [name] K0 Wc Fi N2 (or_introl eq_refl) s2' Kc). cbn [bind]. rewrite Dn. cbn [bind]. rewrite Gg.
    unfold call_get. rewrite Eg. reflexivity. }
  destruct (took_drive e c s s3 T3) as (l1 & Dr).
  assert (Cu : o_cur s3 <> None) by exact (cwd_cur _ _ (core_cwd _ _ _ Kc W0)).
  assert (R3 : running PXxd s3) by (split; [exact Cu|exists cmd_xxd; split; reflexivity]).
  set (cols := cfg_cols (d_cfg (o_desc s))) in *. assert (Ds : o_desc s3 = o_desc s) by exact (core_desc _ _ Kc).
  set (s4 := set_state S_PROCESS_SERVICE (set_pitem 0 (set_pidx 0 (set_pdata (Some (mem (lg s3))) s3)))).
  assert (M4 : meanwhile e mem s3 s4).
  { apply meanwhile_svc; [exact R3|left; reflexivity|discriminate|reflexivity]. }
  assert (A4 : lat S_PROCESS_SERVICE (0 * cols) 0 (length d) s4).
  { split; [exact R3|]. split; [reflexivity|]. split; [reflexivity|]. split; [reflexivity|]. split; [reflexivity|]. split; [discriminate|exact B]. }
  destruct (xxd_lrows e mem cols (length d) (rows cols (length d)) 0 s4 A4 M) as (s5 & off & Em5 & A5); auto.
  { change (o_desc s4) with (o_desc s3). rewrite Ds. reflexivity. }
  { change (o_desc s4) with (o_desc s3). rewrite Ds. exact D3. }
  { change (o_desc s4) with (o_desc s3). rewrite Ds. exact D4. }
  { lia. }
  pose proof Em5 as (M5 & K5 & Lg5). pose proof A5 as (R5 & St5 & _ & _ & _ & Nd5 & B5).
  set (s6 := set_state S_RESET_PROMPT (set_pdata (Some (mem (lg s5))) s5)).
  assert (M6 : meanwhile e mem s5 s6).
  { apply meanwhile_svc; [exact R5|rewrite St5; right; right; reflexivity|exact Nd5|]. unfold xxd_service. change (o_state (set_pdata (Some (mem (lg s5))) s5)) with (o_state s5). rewrite St5. reflexivity. }
  assert (C6 : core s6 = core s) by (change (core s6) with (core s5); rewrite (proj1 K5); exact Kc).
  destruct (quiet_reset_prompt e s6 (show cwd) eq_refl (core_cwd _ _ _ C6 W0) B5) as (s7 & Q & Ed & K7 & B7 & L7).
  exists l1, s3, s6, s7. split; [exact Dr|]. split.
  { change (lg s3) with ((lg s2 ++ [EvExec XXxd (Some (f_name cmd_xxd)) [n; name]]) ++ [EvGet cb (f_name g)]). rewrite L2, <- !app_assoc. cbn [app]. rewrite <- !app_assoc. reflexivity. }
  split; [eapply meanwhile_trans; [exact M4|]; eapply meanwhile_trans; [exact M5|exact M6]|].
  split; [exact Lg5|]. split; [exact Q|]. split; [exact Ed|]. split; [exact B7|]. split; [congruence|].
  rewrite L7, (core_desc _ _ C6). reflexivity.
Qed.

(** ** Memory that does not change *)
Lemma live_steady_line : forall mem cols d off log, (forall x, firstn (length d) (mem x) = d) -> live_line mem cols (length d) off log = xxd_line cols off (firstn cols (skipn off d)).
Proof.
  intros mem cols d off log M. unfold live_line. cbv zeta. rewrite !M. unfold xxd_line, hex_part, char_part. rewrite <- !app_assoc. reflexivity.
Qed.
Lemma live_steady_lines : forall mem cols d n k log, (forall x, firstn (length d) (mem x) = d) ->
  live_lines mem cols (length d) k n log = flat_map (fun j => xxd_line cols (j * cols) (firstn cols (skipn (j * cols) d))) (seq k n).
Proof.
  intros mem cols d n. induction n as [|n IH]; intros k log M; [reflexivity|]. cbn [live_lines seq flat_map]. rewrite live_steady_line by exact M. rewrite IH by exact M. reflexivity.
Qed.
Lemma C57_steady_proof : forall mem cols d log, (forall x, firstn (length d) (mem x) = d) -> live_dump mem cols (length d) log = xxd_dump cols d.
Proof. intros. unfold live_dump, xxd_dump. apply live_steady_lines. assumption. Qed.

Lemma skip_cons : forall A (x : A) t p, p < length t -> skipn p t = nth p t x :: skipn (S p) t.
Proof.
  intros A x t. induction t as [|y t IH]; intros p L; [cbn in L; lia|]. destruct p as [|p]; [reflexivity|]. cbn [length] in L. cbn [skipn nth]. rewrite IH by lia. reflexivity.
Qed.
Lemma shown_steady : forall t l pos, Forall (fun x => firstn (length t) (fst x) = t) l -> pos + accepted l <= length t -> shown pos l = firstn (accepted l) (skipn pos t).
Proof.
  intros t l. induction l as [|(m & i) l IH]; intros pos F L; [reflexivity|]. inversion F as [|? ? Fm F']; subst. cbn [fst] in Fm. cbn [shown]. unfold accepted in *. cbn [map snd] in *. rewrite ready_cons in *.
  destruct (io_wr i).
  - rewrite IH by (auto; lia). rewrite (skip_cons _ NUL t pos) by lia. cbn [firstn Nat.add]. f_equal. transitivity (nth pos (firstn (length t) m) NUL); [|rewrite Fm; reflexivity].
    rewrite <- (firstn_skipn (length t) m) at 1. rewrite app_nth1; [reflexivity|]. rewrite Fm. lia.
  - cbn [Nat.add]. apply IH; auto.
Qed.
