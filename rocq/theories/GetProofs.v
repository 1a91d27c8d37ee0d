(** * GetProofs: getters that make API calls (C51). *)
From Coq Require Import Arith.
From Verif Require Import Shell BaseFacts Sched ServiceFacts SchedFacts Macro Editor EditFacts Words Line LineFacts SchedProofs LineProofs Spec Tree TreeFind TreeOps TreeProofs Cmds CmdFacts PrintfFacts HookFacts CmdProofs ReconfProofs.

Lemma tree_only_calls : forall own calls s w, Forall (fun a => tree_call a <> None /\ proper_call [] a) calls -> knows own s w ->
  all_allowed (d_pathmax (o_desc s)) own (tree_calls calls) w ->
  exists s', do_actions [] calls s = Ok s' /\ knows own s' (snd (spec_ops (tree_calls calls) w)) /\ only_tree own s s'.
Proof.
  intros own calls. induction calls as [|a l IH]; intros s w F K Al.
  - exists s. split; [reflexivity|]. split; [exact K|apply only_tree_refl].
  - inversion F as [|? ? (Ta & Pa) Fl]; subst. destruct (tree_call a) as [o|] eqn:Tc; [|congruence].
    unfold tree_calls in *. cbn [flat_map] in *. fold (tree_calls l) in *. rewrite (effect_some _ _ Tc) in *. cbn [app] in *. destruct Al as (A1 & A2).
    destruct (op_step own o s w K A1) as (s1 & E1 & K1 & O1). cbn [do_actions]. rewrite (tree_action [] [] a o s Tc Pa), E1. cbn [bind].
    rewrite <- (only_tree_desc _ _ _ O1) in A2. destruct (IH s1 _ Fl K1 A2) as (s2 & E2 & K2 & O2). exists s2. split; [exact E2|].
    split; [cbn [spec_ops]; destruct (spec_op o w) as (x & w1); cbn [snd] in *; destruct (spec_ops (tree_calls l) w1); exact K2|].
    eapply only_tree_trans; eauto.
Qed.

Lemma knows_cur : forall own s w, knows own s w -> w_cwd w <> None -> o_cur s <> None.
Proof. intros own s w K N. destruct (w_cwd w) as [p|] eqn:E; [|congruence]. exact (cwd_cur _ _ (cwd_show _ _ _ _ K E)). Qed.

(** What stays while cat reads. *)
Definition held (s s' : st) : Prop :=
  o_desc s' = o_desc s /\ inb s' = inb s /\ outb s' = outb s /\ o_argc s' = o_argc s /\ o_pfile s' = o_pfile s.
Lemma held_trans : forall a b c, held a b -> held b c -> held a c.
Proof. intros a b c (A1 & A2 & A3 & A4 & A5) (B1 & B2 & B3 & B4 & B5). unfold held. intuition congruence. Qed.

Lemma cat_reads : forall e own sr args ws post pn pc px pd ps w names evs w', reads_on e own sr w names evs w' -> forall pre s, ws = pre ++ names ++ post -> Forall no_nul ws ->
  knows own s w -> w_cwd w <> None -> o_desc s = o_desc sr ->
  at_ PCat S_PROCESS_SERVICE (pn, pc, length pre, px, pd, ps) s -> o_argc s = length ws ->
  ush_parse_get_args s = Ok args -> arg_values (inb s) args = Ok ws ->
  exists s', works e s s' /\ held s s' /\ lg s' = lg s ++ evs /\ knows own s' w' /\ at_ PCat S_PROCESS_SERVICE (pn, pc, length (pre ++ names), px, pd, ps) s'.
Proof.
  intros e own sr args ws post pn pc px pd ps w names evs w' R. induction R as [w|w name f cb d ops r evs w' Fi De Fg (extra & calls & Eg & Fc & <-) Al Nc R IH]; intros pre s E Nn K Nw Ds A Ac Pa Av.
  - exists s. split; [constructor|]. split; [repeat split|]. split; [rewrite app_nil_r; reflexivity|]. split; [exact K|]. rewrite app_nil_r. exact A.
  - assert (En : nth_error ws (length pre) = Some name) by (rewrite E, nth_error_app2, Nat.sub_diag by lia; reflexivity).
    destruct (arg_values_nth _ _ _ _ _ Av En) as (off & Ro & Co).
    assert (Nm : no_nul name) by (rewrite Forall_forall in Nn; apply Nn; eapply nth_error_In; eauto).
    pose proof A as (Rn & _). pose proof Rn as (Cu & _).
    assert (Lk : ush_file_find_by_name name s = Ok (Some f)).
    { rewrite <- De. destruct Fi as (Nk & Fi). rewrite <- Ds in Nk, Fi. inversion Fi; subst. apply (find_file_ok own); auto. congruence. }
    set (s0 := emit (EvGet cb (f_name f)) s).
    destruct (tree_only_calls own calls s0 w Fc K) as (s1 & E1 & K1 & O1).
    { change (o_desc s0) with (o_desc s). rewrite Ds. exact Al. }
    pose proof O1 as (X1 & _).
    assert (F1 : o_desc s1 = o_desc s /\ inb s1 = inb s /\ outb s1 = outb s /\ o_argc s1 = o_argc s /\ o_pfile s1 = o_pfile s /\ o_state s1 = o_state s /\ cnt s1 = cnt s /\ lg s1 = lg s ++ [EvGet cb (f_name f)])
      by (rewrite X1; repeat split).
    destruct F1 as (D1 & I1 & U1 & A1 & P1 & S1 & C1 & L1).
    set (s2 := set_pitem (S (length pre)) s1).
    at_fields A.
    assert (Pr : proc e PCat s = Ok (ush_write_pointer_bin (WStr (d ++ extra)) (length d) S_PROCESS_SERVICE s2)).
    { cbn [proc]. unfold cat_service. rewrite St, H1, Ac. destruct (Nat.leb_spec (length ws) (length pre)) as [L|L]; [rewrite E, !app_length in L; cbn [length] in L; lia|].
      rewrite Pa. cbn [bind]. rewrite Ro. cbn [bind]. rewrite Co. cbn [bind]. rewrite Lk. cbn [deref bind]. rewrite Fg. cbn [deref bind].
      unfold call_get. rewrite Eg. cbn [g_ptr g_size g_calls]. fold s0. rewrite E1. cbn [bind].
      unfold cnt in C1. injection C1 as _ _ Ci _ _ _. rewrite S1, St, Ci, H1. reflexivity. }
    assert (Po : points s2 (WStr (d ++ extra)) d) by (intros j c N; unfold rd; rewrite nth_error_app1 by (apply nth_error_Some; congruence); rewrite N; reflexivity).
    assert (Cu1 : o_cur s2 <> None) by exact (knows_cur own s1 _ K1 Nc).
    set (s3 := after_write (WStr (d ++ extra)) d S_PROCESS_SERVICE s2).
    assert (A3 : at_ PCat S_PROCESS_SERVICE (pn, pc, length (pre ++ [name]), px, pd, ps) s3).
    { destruct R0 as (_ & pf & Pf & Fp). split; [split; [exact Cu1|exists pf; split; [change (o_pfile s3) with (o_pfile s1); congruence|exact Fp]]|].
      split; [reflexivity|]. split; [|unfold bufs_ok in *; change (o_desc s3) with (o_desc s1); change (inb s3) with (inb s1); change (outb s3) with (outb s1); rewrite D1, I1, U1; exact B].
      rewrite app_length, Nat.add_1_r. unfold cnt in C1 |- *. injection C1 as C1 C2 _ C4 C5 C6. change (o_pnode s3) with (o_pnode s1). change (o_pchild s3) with (o_pchild s1). change (o_pitem s3) with (S (length pre)). change (o_pidx s3) with (o_pidx s1). change (o_pdata s3) with (o_pdata s1). change (o_pdsize s3) with (o_pdsize s1). congruence. }
    assert (Wk : works e s s3).
    { eapply works_trans; [eapply (proc_works e PCat s); [exact R0|rewrite St; right; left; reflexivity|exact Pr]|apply works_wpb; auto]. }
    assert (Hd3 : held s s3) by (unfold held; change (o_desc s3) with (o_desc s1); change (inb s3) with (inb s1); change (outb s3) with (outb s1); change (o_argc s3) with (o_argc s1); change (o_pfile s3) with (o_pfile s1); auto).
    pose proof Hd3 as (D3 & I3 & _ & Ac3 & _).
    destruct (IH (pre ++ [name]) s3) as (s4 & W4 & Hd4 & L4 & K4 & A4); auto.
    { rewrite <- app_assoc. exact E. }
    { congruence. }
    { congruence. }
    { unfold ush_parse_get_args in *. rewrite I3, Ac3. exact Pa. }
    { rewrite I3. exact Av. }
    exists s4. split; [eapply works_trans; eauto|]. split; [eapply held_trans; eauto|]. split; [|split; [exact K4|rewrite <- app_assoc in A4; exact A4]].
    rewrite L4. change (lg s3) with (lg s1 ++ map EvOut d). rewrite L1, <- !app_assoc. reflexivity.
Qed.

Lemma reads_on_cwd : forall e own s w names evs w', reads_on e own s w names evs w' -> w_cwd w <> None -> w_cwd w' <> None.
Proof. intros e own s w names evs w' R. induction R; auto. Qed.

Lemma cat_begin : forall e own w cwd Go n names s s2 args c, asked_at e own w cwd Go c (n :: names) cmd_cat s -> names <> [] -> findable s w names -> Forall (has_getter (denotes w)) names ->
  set_to_run e (n :: names) c s s2 args -> knows own s2 w -> Forall no_nul (n :: names) ->
  let s2' := emit (EvExec XCat (Some (f_name cmd_cat)) (n :: names)) s2 in
  exists s4 pn pc px pd ps, call_exec e XCat cmd_cat args (n :: names) s2 = Ok (ush_process_start cmd_cat s2') /\ works e (ush_process_start cmd_cat s2') s4 /\
    at_ PCat S_PROCESS_SERVICE (pn, pc, 1, px, pd, ps) s4 /\ knows own s4 w /\ o_desc s4 = o_desc s /\ o_argc s4 = S (length names) /\ ush_parse_get_args s4 = Ok args /\
    arg_values (inb s4) args = Ok (n :: names) /\ lg s4 = lg s2'.
Proof.
  intros e own w cwd Go n names s s2 args c (K0 & Wc & _) Ne Fi G (Kc & B & _ & Ac & _ & Pa & Av & _) K N s2'. inversion N as [|? ? _ N2]; subst.
  set (s3 := ush_process_start cmd_cat s2').
  assert (A3 : at_ PCat S_PROCESS_START (cnt s2') s3) by (apply (started cmd_cat PCat s2'); [reflexivity|exact (knows_cur own s2 w K ltac:(congruence))|exact B]).
  unfold cnt in A3. destruct (say_nothing e PCat S_PROCESS_START _ s3 (set_state S_PROCESS_SERVICE (set_pitem 1 s3)) S_PROCESS_SERVICE
    (o_pnode s2', o_pchild s2', 1, o_pidx s2', o_pdata s2', o_pdsize s2') A3) as (s4 & (Wk & Kp & L4) & A4).
  { left; reflexivity. }
  { reflexivity. }
  { repeat split. }
  { reflexivity. }
  { reflexivity. }
  { reflexivity. }
  pose proof Kp as (C4 & I4 & Ar4 & _).
  exists s4, (o_pnode s2'), (o_pchild s2'), (o_pidx s2'), (o_pdata s2'), (o_pdsize s2'). split.
  - cbn [call_exec]. unfold cat_callback. destruct names as [|m names]; [congruence|]. cbn [length Nat.ltb Nat.leb tl]. fold s2'.
    rewrite (cat_check_ok (m :: names) s2' (denotes w)); [reflexivity|exact G|]. intros k I. apply (names_found own s w cwd k (m :: names)); auto.
  - split; [exact Wk|]. split; [exact A4|]. split; [exact (knows_core _ _ _ _ C4 K)|]. split; [rewrite (core_desc _ _ C4); exact (core_desc _ _ Kc)|].
    split; [rewrite Ar4; exact Ac|]. split; [unfold ush_parse_get_args in *; rewrite I4, Ar4; exact Pa|]. split; [rewrite I4; exact Av|].
    rewrite L4, app_nil_r. reflexivity.
Qed.

Lemma C51_cat_at : forall e own w cwd Go n names s c evs w' cwd', asked_at e own w cwd Go c (n :: names) cmd_cat s -> c = CR \/ c = LF -> names <> [] -> findable s w names ->
  Forall (has_getter (denotes w)) names -> reads_on e own s w names evs w' -> w_cwd w' = Some cwd' ->
  exists s', does_at Go c s XCat cmd_cat (n :: names) evs [] cwd' s' /\ knows own s' w' /\ o_desc s' = o_desc s.
Proof.
  intros e own w cwd Go n names s c evs w' cwd' A Hc Ne Fi G R Wc'.
  apply (run_cmd e own w cwd Go (n :: names) cmd_cat s c XCat _ (fun s' => knows own s' w' /\ o_desc s' = o_desc s)); auto; [discriminate|].
  intros s2 args Rr K W N s2'.
  destruct (cat_begin e own w cwd Go n names s s2 args c A Ne Fi G Rr K N) as (s4 & pn & pc & px & pd & ps & Ex & Wk & A4 & K4 & D4 & Ac4 & Pa4 & Av4 & L4). fold s2' in Ex, Wk, L4.
  destruct (cat_reads e own s args (n :: names) [] pn pc px pd ps w names evs w' R [n] s4) as (s5 & W5 & (D5 & I5 & U5 & Ac5 & Pf5) & L5 & K5 & A5); auto.
  { rewrite app_nil_r. reflexivity. }
  { destruct A as (_ & Wc & _). congruence. }
  cbn [length app] in A5. at_fields A5.
  set (s6 := set_state S_PROCESS_FINISH s5). set (s7 := set_state S_RESET_PROMPT s6).
  assert (W7 : works e s5 s7).
  { apply works_trans with (s2 := s6).
    - apply (proc_works e PCat s5 s6 R0); [rewrite St; right; left; reflexivity|]. cbn [proc]. unfold cat_service. rewrite St, H1, Ac5, Ac4, Nat.leb_refl. reflexivity.
    - apply (proc_works e PCat s6 s7 R0); [right; right; reflexivity|]. reflexivity. }
  destruct (quiet_reset_prompt e s7 (show cwd') eq_refl (cwd_show own s7 w' cwd' K5 Wc') B) as (s' & Q & Ed & K' & B' & L').
  exists (ush_process_start cmd_cat s2'), s'. split; [exact Ex|].
  split; [apply (works_quiet _ _ _ Wk), (works_quiet _ _ _ W5), (works_quiet _ _ _ W7); exact Q|]. split; [exact Ed|]. split; [exact B'|].
  split; [split; [exact (knows_core _ _ _ _ K' K5)|rewrite (core_desc _ _ K'); change (o_desc s7) with (o_desc s5); congruence]|].
  rewrite L'. change (lg s7) with (lg s5). change (o_desc s7) with (o_desc s5). rewrite L5, L4, D5, D4, <- app_assoc. reflexivity.
Qed.

(** ** xxd *)
Lemma C51_xxd_at : forall e own w cwd Go n name s c g cb d extra calls cwd', asked_at e own w cwd Go c [n; name] cmd_xxd s -> c = CR \/ c = LF -> findable s w [name] ->
  denotes w name = Some g -> f_get g = Some cb -> e_get e cb (f_name g) = mkGet (GData (d ++ extra)) (length d) calls -> dumpable (o_desc s) d ->
  let hk := hook_calls e (o_desc s) [n; name] in
  let w' := snd (spec_ops (tree_calls calls) w) in
  Forall (proper_call []) calls -> room_for (o_desc s) (hk ++ calls) -> all_allowed (d_pathmax (o_desc s)) own (tree_calls calls) w -> w_cwd w' = Some cwd' ->
  exists s', does_at Go c s XXxd cmd_xxd [n; name] [EvGet cb (f_name g)] (xxd_dump (cfg_cols (d_cfg (o_desc s))) d) cwd' s' /\ knows own s' w' /\ o_desc s' = o_desc s.
Proof.
  intros e own w cwd Go n name s c g cb d extra calls cwd' A Hc Fi Dn Gg Eg Du hk w' Fp Rm Al Wc'. pose proof A as (K0 & Wc & _).
  apply (run_cmd e own w cwd Go [n; name] cmd_xxd s c XXxd _ (fun s' => knows own s' w' /\ o_desc s' = o_desc s)); auto; [discriminate|].
  intros s2 args Rr K W N s2'. pose proof Rr as (Kc & B & Vo & _). pose proof (core_desc _ _ Kc) as D. inversion N as [|? ? _ N2]; subst.
  set (s2e := emit (EvGet cb (f_name g)) s2').
  assert (Ve : voice c [n; name] hk s2e) by (apply voice_emit, voice_emit; exact Vo). destruct Ve as (buf & t & Sp & Lb & _).
  destruct (mixed_speak own [] [] calls s2e w buf t Sp B eq_refl Fp) as (s2a & buf' & Ea & Sa & Ka & Ba & Ia & Da & La); auto.
  { change (o_desc s2e) with (o_desc s2). rewrite D. unfold room_for in Rm. unfold formatted in *. rewrite flat_map_app, app_length in Rm. lia. }
  { change (o_desc s2e) with (o_desc s2). rewrite D. exact Al. }
  set (s2g := set_pdsize (length d) (set_pdata (Some (d ++ extra)) s2a)).
  set (s3 := ush_process_start cmd_xxd s2g).
  assert (A3 : at_ PXxd S_PROCESS_START (o_pnode s2a, o_pchild s2a, o_pitem s2a, o_pidx s2a, Some (d ++ extra), length d) s3).
  { apply (started cmd_xxd PXxd s2g); [reflexivity|exact (knows_cur own s2a w' Ka ltac:(congruence))|exact Ba]. }
  assert (D3 : o_desc s3 = o_desc s) by (change (o_desc s3) with (o_desc s2a); rewrite Da; exact D).
  destruct (xxd_run e s3 d _ _ _ _ _ (or_intror (ex_intro _ extra eq_refl)) A3) as (s4 & Em & St).
  { rewrite D3. exact Du. }
  destruct (prompt_cmd e s3 s4 _ (show cwd') Em St (cwd_show own s3 w' cwd' Ka Wc') Ba) as (s' & Q & Ed & B' & K' & L').
  exists s3, s'. split; [|split; [exact Q|split; [exact Ed|split; [exact B'|split; [split; [exact (knows_core _ _ _ _ K' Ka)|rewrite (core_desc _ _ K'); exact D3]|]]]]].
  - cbn [call_exec xxd_callback]. fold s2'. rewrite (names_found own s w cwd name [name] K0 Wc Fi N2 (or_introl eq_refl) s2' Kc). cbn [bind]. rewrite Dn. cbn [bind]. rewrite Gg.
    unfold call_get. rewrite Eg. cbn [g_calls]. fold s2e. rewrite Ea. reflexivity.
  - rewrite L'. change (lg s3) with (lg s2a). rewrite La, D3. change (lg s2e) with (lg s2' ++ [EvGet cb (f_name g)]). rewrite <- !app_assoc, map_app. reflexivity.
Qed.

(** ** When the hook only prints *)
Lemma C51_cat_proof : forall e own w cwd l n names s c evs w' cwd', asked e own w cwd l (n :: names) cmd_cat s -> c = CR \/ c = LF -> names <> [] -> findable s w names ->
  Forall (has_getter (denotes w)) names -> reads_on e own s w names evs w' -> w_cwd w' = Some cwd' ->
  exists s', does e c s XCat cmd_cat (n :: names) evs [] cwd' s' /\ knows own s' w' /\ o_desc s' = o_desc s.
Proof. intros e own w cwd l n names s c evs w' cwd' A Hc. exact (C51_cat_at e own w cwd (fed e [c] s) n names s c evs w' cwd' (asked_line _ _ _ _ _ _ _ _ _ A Hc) Hc). Qed.
Lemma C51_xxd_proof : forall e own w cwd l n name s c g cb d extra calls cwd', asked e own w cwd l [n; name] cmd_xxd s -> c = CR \/ c = LF -> findable s w [name] ->
  denotes w name = Some g -> f_get g = Some cb -> e_get e cb (f_name g) = mkGet (GData (d ++ extra)) (length d) calls -> dumpable (o_desc s) d ->
  let hk := hook_calls e (o_desc s) [n; name] in
  let w' := snd (spec_ops (tree_calls calls) w) in
  Forall (proper_call []) calls -> room_for (o_desc s) (hk ++ calls) -> all_allowed (d_pathmax (o_desc s)) own (tree_calls calls) w -> w_cwd w' = Some cwd' ->
  exists s', does e c s XXxd cmd_xxd [n; name] [EvGet cb (f_name g)] (xxd_dump (cfg_cols (d_cfg (o_desc s))) d) cwd' s' /\ knows own s' w' /\ o_desc s' = o_desc s.
Proof. intros e own w cwd l n name s c g cb d extra calls cwd' A Hc. exact (C51_xxd_at e own w cwd (fed e [c] s) n name s c g cb d extra calls cwd' (asked_line _ _ _ _ _ _ _ _ _ A Hc) Hc). Qed.

(** ** A printing getter *)
Lemma plain_prints : forall l s, Forall plain_print l -> l <> [] ->
  exists s', do_actions [] l s = Ok s' /\ o_state s' = S_WRITE_CHAR /\ o_pitem s' = o_pitem s /\ lg s' = lg s /\ o_cur s' = o_cur s.
Proof.
  assert (G : forall l s, Forall plain_print l -> exists s', do_actions [] l s = Ok s' /\ (l <> [] \/ o_state s = S_WRITE_CHAR -> o_state s' = S_WRITE_CHAR) /\ o_pitem s' = o_pitem s /\ lg s' = lg s /\ o_cur s' = o_cur s).
  { induction l as [|a l IH]; intros s F; [exists s; repeat split; intros [X|X]; [congruence|exact X]|]. inversion F as [|? ? Fa Fl]; subst.
    assert (X : exists s1, do_action [] a s = Ok s1 /\ o_state s1 = S_WRITE_CHAR /\ o_pitem s1 = o_pitem s /\ lg s1 = lg s /\ o_cur s1 = o_cur s)
      by (destruct a; cbn [plain_print] in Fa; try contradiction; cbn [do_action]; eexists; (split; [reflexivity|]); repeat split).
    destruct X as (s1 & E & S1 & P1 & L1 & C1). cbn [do_actions]. rewrite E. cbn [bind]. destruct (IH s1 Fl) as (s' & E' & S' & P' & L' & C'). exists s'. split; [exact E'|].
    split; [intros _; apply S'; right; exact S1|]. repeat split; congruence. }
  intros l s F N. destruct (G l s F) as (s' & E & S & R). exists s'. split; [exact E|]. split; [apply S; left; exact N|exact R].
Qed.

(** Writing, with nothing left, and writing to be continued. *)
Definition stuck (s : st) : Prop := o_state s = S_WRITE_CHAR /\ o_wnext s = S_WRITE_CHAR /\ o_wsize s <= o_wpos s /\ o_cur s <> None.
Lemma stuck_service : forall i s, stuck s -> ush_service i s = Ok (true, s).
Proof.
  intros i s (S & N & L & C). rewrite service_eq. destruct (o_cur s); [|congruence]. unfold svc. rewrite S. unfold ush_write_char. apply Nat.leb_le in L. rewrite L. cbn [bind].
  rewrite N, <- S. destruct s; reflexivity.
Qed.
Lemma stuck_drive : forall a l q s, stuck s -> drive a q l s = Ok (q, s).
Proof.
  intros a l. induction l as [|(r & w) l IH]; intros q s S; [reflexivity|]. cbn [drive]. rewrite stuck_service by exact S. cbn [bind]. pose proof S as (-> & _). apply IH. exact S.
Qed.

Lemma works_drive : forall e s s', works e s s' -> exists l, drive (always e) [] l s = Ok ([], s').
Proof.
  intros e s s' W. induction W as [s|s b s1 s2 N H W (l & D)]; [exists []; reflexivity|]. exists ((true, true) :: l). cbn [drive hd_error]. unfold always at 1. fold (tick e None). rewrite H. cbn [bind].
  replace (match o_state s with S_READ_CHAR | _ => [] end) with (@nil byte) by (destruct (o_state s); reflexivity). exact D.
Qed.
Lemma took_drive : forall e c s s', took e c s s' -> exists l, drive (always e) [c] l s = Ok ([], s').
Proof.
  intros e c s s' (P & b & s1 & H & W). destruct (works_drive e s1 s' W) as (l & D). exists ((true, true) :: l). cbn [drive hd_error]. unfold always at 1. fold (tick e (Some c)). rewrite H. cbn [bind].
  rewrite P. cbn [tl]. exact D.
Qed.

Lemma C51_hang_proof : forall e own w cwd l n pre name post s c evs w' f cb d extra calls, asked e own w cwd l (n :: pre ++ name :: post) cmd_cat s -> c = CR \/ c = LF -> findable s w (pre ++ name :: post) ->
  Forall (has_getter (denotes w)) (pre ++ name :: post) -> reads_on e own s w pre evs w' ->
  findable s w' [name] -> denotes w' name = Some f -> f_get f = Some cb -> e_get e cb (f_name f) = mkGet (GData (d ++ extra)) (length d) calls -> Forall plain_print calls -> calls <> [] ->
  exists l1 s1, drive (always e) [c] l1 s = Ok ([], s1) /\
    lg s1 = lg s ++ EvIn c :: map EvOut (eol_echo c) ++ hook_events (o_desc s) (n :: pre ++ name :: post) ++
      EvExec XCat (Some (f_name cmd_cat)) (n :: pre ++ name :: post) :: evs ++ EvGet cb (f_name f) :: map EvOut d /\
    forall a q l2, drive a q l2 s1 = Ok (q, s1).
Proof.
  intros e own w cwd l n pre name post s c evs w' f cb d extra calls A Hc Fi G R Fi' De Fg Eg Pp Nc. set (names := pre ++ name :: post) in *.
  assert (Ne : names <> []) by (unfold names; destruct pre; discriminate).
  pose proof A as (K0 & Wc & En & X & Fn). pose proof (cwd_show _ _ _ _ K0 Wc) as W0.
  destruct (hooked_line_took e l (n :: names) s c (show cwd) En W0 Hc ltac:(discriminate) X) as (s2 & args & Rr & _ & Tk).
  pose proof Rr as (Kc & _ & _ & _ & _ & _ & _ & _ & L2). pose proof (knows_core _ _ _ _ Kc K0) as K2. pose proof (entered_no_nul _ _ _ En) as N.
  destruct (cat_begin e own w cwd (fed e [c] s) n names s s2 args c (asked_line _ _ _ _ _ _ _ _ _ A Hc) Ne Fi G Rr K2 N) as (s4 & pn & pc & px & pd & ps & Ex & Wk & A4 & K4 & D4 & Ac4 & Pa4 & Av4 & L4).
  set (s2' := emit (EvExec XCat (Some (f_name cmd_cat)) (n :: names)) s2) in *.
  destruct (cat_reads e own s args (n :: names) (name :: post) pn pc px pd ps w pre evs w' R [n] s4) as (s5 & W5 & (D5 & I5 & U5 & Ac5 & Pf5) & L5 & K5 & A5); auto; [congruence|].
  cbn [length app] in A5. at_fields A5. pose proof R0 as (Cu5 & _).
  assert (En5 : nth_error (n :: names) (S (length pre)) = Some name) by (cbn [nth_error]; unfold names; rewrite nth_error_app2, Nat.sub_diag by lia; reflexivity).
  rewrite <- I5 in Av4. destruct (arg_values_nth _ _ _ _ _ Av4 En5) as (off & Ro & Co).
  assert (Lk : ush_file_find_by_name name s5 = Ok (Some f)).
  { rewrite <- De. destruct Fi' as (Nk & Fj). rewrite <- D4, <- D5 in Nk, Fj. inversion Fj; subst. apply (find_file_ok own); auto.
    - rewrite Forall_forall in N. apply N. eapply nth_error_In; eauto.
    - intros Z. destruct (reads_on_cwd _ _ _ _ _ _ _ R); congruence. }
  destruct (plain_prints calls (emit (EvGet cb (f_name f)) s5) Pp Nc) as (s6 & E6 & S6 & P6 & L6 & C6).
  set (s7 := set_pitem (S (S (length pre))) s6).
  assert (Pr : proc e PCat s5 = Ok (ush_write_pointer_bin (WStr (d ++ extra)) (length d) S_WRITE_CHAR s7)).
  { cbn [proc]. unfold cat_service. rewrite St, H1, Ac5, Ac4. destruct (Nat.leb_spec (S (length names)) (S (length pre))) as [L|L]; [unfold names in L; rewrite app_length in L; cbn [length] in L; lia|].
    replace (ush_parse_get_args s5) with (ush_parse_get_args s4) by (unfold ush_parse_get_args; rewrite I5, Ac5; reflexivity). rewrite Pa4. cbn [bind]. rewrite Ro. cbn [bind]. rewrite Co. cbn [bind]. rewrite Lk. cbn [deref bind]. rewrite Fg. cbn [deref bind].
    unfold call_get. rewrite Eg. cbn [g_ptr g_size g_calls]. rewrite E6. cbn [bind]. rewrite S6, P6. change (o_pitem (emit (EvGet cb (f_name f)) s5)) with (o_pitem s5). rewrite H1. reflexivity. }
  assert (Po : points s7 (WStr (d ++ extra)) d) by (intros j b Nj; unfold rd; rewrite nth_error_app1 by (apply nth_error_Some; congruence); rewrite Nj; reflexivity).
  assert (Cu7 : o_cur s7 <> None) by (change (o_cur s7) with (o_cur s6); rewrite C6; exact Cu5).
  set (s8 := after_write (WStr (d ++ extra)) d S_WRITE_CHAR s7).
  assert (W8 : works e (ush_process_start cmd_cat s2') s8).
  { eapply works_trans; [exact Wk|]. eapply works_trans; [exact W5|].
    eapply works_trans; [eapply (proc_works e PCat s5); [exact R0|rewrite St; right; left; reflexivity|exact Pr]|apply works_wpb; auto]. }
  assert (T8 : took e c s s8).
  { eapply took_works; [|exact W8]. apply Tk. unfold run_file. rewrite (find_core _ s s2 Kc), (find_group own s w _ cmd_cat K0 Fn). cbn [bind]. exact Ex. }
  destruct (took_drive e c s s8 T8) as (l1 & Dr). exists l1, s8. split; [exact Dr|]. split.
  - change (lg s8) with (lg s6 ++ map EvOut d). rewrite L6. change (lg (emit (EvGet cb (f_name f)) s5)) with (lg s5 ++ [EvGet cb (f_name f)]). rewrite L5, L4.
    change (lg s2') with (lg s2 ++ [EvExec XCat (Some (f_name cmd_cat)) (n :: names)]). rewrite L2, <- !app_assoc. cbn [app]. rewrite <- !app_assoc. reflexivity.
  - intros a q l2. apply stuck_drive. split; [reflexivity|]. split; [reflexivity|]. split; [cbn; lia|exact Cu7].
Qed.

(** ** A getter that removes a file cat is about to read *)
Lemma drive_snoc : forall a l1 q s q1 s1 x, drive a q l1 s = Ok (q1, s1) -> drive a q (l1 ++ [x]) s = drive a q1 [x] s1.
Proof.
  intros a l1. induction l1 as [|(r & w) l1 IH]; intros q s q1 s1 x H; [cbn [drive] in H; injection H as <- <-; reflexivity|].
  cbn [app drive] in H |- *. destruct (ush_service _ s) as [(b & s')|]; [|discriminate]. cbn [bind] in H |- *. apply IH. exact H.
Qed.

Lemma C51_lost_proof : forall e own w cwd l n pre name post s c evs w', asked e own w cwd l (n :: pre ++ name :: post) cmd_cat s -> c = CR \/ c = LF -> findable s w (pre ++ name :: post) ->
  Forall (has_getter (denotes w)) (pre ++ name :: post) -> reads_on e own s w pre evs w' ->
  findable s w' [name] -> ~ has_getter (denotes w') name ->
  exists l1, drive (always e) [c] l1 s = Err ENull.
Proof.
  intros e own w cwd l n pre name post s c evs w' A Hc Fi G R Fi' De. set (names := pre ++ name :: post) in *.
  assert (Ne : names <> []) by (unfold names; destruct pre; discriminate).
  pose proof A as (K0 & Wc & En & X & Fn). pose proof (cwd_show _ _ _ _ K0 Wc) as W0.
  destruct (hooked_line_took e l (n :: names) s c (show cwd) En W0 Hc ltac:(discriminate) X) as (s2 & args & Rr & _ & Tk).
  pose proof Rr as (Kc & _). pose proof (knows_core _ _ _ _ Kc K0) as K2. pose proof (entered_no_nul _ _ _ En) as N.
  destruct (cat_begin e own w cwd (fed e [c] s) n names s s2 args c (asked_line _ _ _ _ _ _ _ _ _ A Hc) Ne Fi G Rr K2 N) as (s4 & pn & pc & px & pd & ps & Ex & Wk & A4 & K4 & D4 & Ac4 & Pa4 & Av4 & L4).
  set (s2' := emit (EvExec XCat (Some (f_name cmd_cat)) (n :: names)) s2) in *.
  destruct (cat_reads e own s args (n :: names) (name :: post) pn pc px pd ps w pre evs w' R [n] s4) as (s5 & W5 & (D5 & I5 & U5 & Ac5 & Pf5) & L5 & K5 & A5); auto; [congruence|].
  cbn [length app] in A5. at_fields A5. pose proof R0 as (Cu5 & pf & Pf & Fp).
  assert (En5 : nth_error (n :: names) (S (length pre)) = Some name) by (cbn [nth_error]; unfold names; rewrite nth_error_app2, Nat.sub_diag by lia; reflexivity).
  rewrite <- I5 in Av4. destruct (arg_values_nth _ _ _ _ _ Av4 En5) as (off & Ro & Co).
  assert (Lk : ush_file_find_by_name name s5 = Ok (denotes w' name)).
  { destruct Fi' as (Nk & Fj). rewrite <- D4, <- D5 in Nk, Fj. inversion Fj; subst. apply (find_file_ok own); auto.
    - rewrite Forall_forall in N. apply N. eapply nth_error_In; eauto.
    - intros Z. destruct (reads_on_cwd _ _ _ _ _ _ _ R); congruence. }
  assert (Pr : forall i, io_env i = e -> ush_service i s5 = Err ENull).
  { intros i Hi. rewrite service_eq. destruct (o_cur s5); [|congruence]. unfold svc. rewrite St. unfold ush_process_service. rewrite St, Pf, Fp, Hi.
    unfold cat_service. rewrite St, H1, Ac5, Ac4. destruct (Nat.leb_spec (S (length names)) (S (length pre))) as [L|L]; [unfold names in L; rewrite app_length in L; cbn [length] in L; lia|].
    replace (ush_parse_get_args s5) with (ush_parse_get_args s4) by (unfold ush_parse_get_args; rewrite I5, Ac5; reflexivity). rewrite Pa4. cbn [bind]. rewrite Ro. cbn [bind]. rewrite Co. cbn [bind]. rewrite Lk. cbn [bind].
    destruct (denotes w' name) as [f|] eqn:Df; [|reflexivity]. cbn [deref bind]. destruct (f_get f) as [cb|] eqn:Gf; [|reflexivity]. destruct De. exists f, cb. auto. }
  assert (T5 : took e c s s5).
  { apply took_works with (s1 := s4); [|exact W5]. apply took_works with (s1 := ush_process_start cmd_cat s2'); [|exact Wk]. apply Tk.
    unfold run_file. rewrite (find_core _ s s2 Kc), (find_group own s w _ cmd_cat K0 Fn). cbn [bind]. exact Ex. }
  destruct (took_drive e c s s5 T5) as (l1 & Dr). exists (l1 ++ [(true, true)]). rewrite (drive_snoc _ _ _ _ _ _ _ Dr). cbn [drive]. rewrite Pr by reflexivity. reflexivity.
Qed.

(** ** Getters without data *)
Lemma C51_null_proof : forall e own w cwd l n pre name post s c evs w' f cb p z x, asked e own w cwd l (n :: pre ++ name :: post) cmd_cat s -> c = CR \/ c = LF -> findable s w (pre ++ name :: post) ->
  Forall (has_getter (denotes w)) (pre ++ name :: post) -> reads_on e own s w pre evs w' ->
  findable s w' [name] -> denotes w' name = Some f -> f_get f = Some cb -> e_get e cb (f_name f) = mkGet p z [] ->
  p = GNull /\ x = EAssert \/ p = GUnset /\ x = EUninit ->
  exists l1, drive (always e) [c] l1 s = Err x.
Proof.
  intros e own w cwd l n pre name post s c evs w' f cb p z x A Hc Fi G R Fi' De Gf Eg Px. set (names := pre ++ name :: post) in *.
  assert (Ne : names <> []) by (unfold names; destruct pre; discriminate).
  pose proof A as (K0 & Wc & En & X & Fn). pose proof (cwd_show _ _ _ _ K0 Wc) as W0.
  destruct (hooked_line_took e l (n :: names) s c (show cwd) En W0 Hc ltac:(discriminate) X) as (s2 & args & Rr & _ & Tk).
  pose proof Rr as (Kc & _). pose proof (knows_core _ _ _ _ Kc K0) as K2. pose proof (entered_no_nul _ _ _ En) as N.
  destruct (cat_begin e own w cwd (fed e [c] s) n names s s2 args c (asked_line _ _ _ _ _ _ _ _ _ A Hc) Ne Fi G Rr K2 N) as (s4 & pn & pc & px & pd & ps & Ex & Wk & A4 & K4 & D4 & Ac4 & Pa4 & Av4 & L4).
  set (s2' := emit (EvExec XCat (Some (f_name cmd_cat)) (n :: names)) s2) in *.
  destruct (cat_reads e own s args (n :: names) (name :: post) pn pc px pd ps w pre evs w' R [n] s4) as (s5 & W5 & (D5 & I5 & U5 & Ac5 & Pf5) & L5 & K5 & A5); auto; [congruence|].
  cbn [length app] in A5. at_fields A5. pose proof R0 as (Cu5 & pf & Pf & Fp).
  assert (En5 : nth_error (n :: names) (S (length pre)) = Some name) by (cbn [nth_error]; unfold names; rewrite nth_error_app2, Nat.sub_diag by lia; reflexivity).
  rewrite <- I5 in Av4. destruct (arg_values_nth _ _ _ _ _ Av4 En5) as (off & Ro & Co).
  assert (Lk : ush_file_find_by_name name s5 = Ok (denotes w' name)).
  { destruct Fi' as (Nk & Fj). rewrite <- D4, <- D5 in Nk, Fj. inversion Fj; subst. apply (find_file_ok own); auto.
    - rewrite Forall_forall in N. apply N. eapply nth_error_In; eauto.
    - intros Z. destruct (reads_on_cwd _ _ _ _ _ _ _ R); congruence. }
  assert (Pr : forall i, io_env i = e -> ush_service i s5 = Err x).
  { intros i Hi. rewrite service_eq. destruct (o_cur s5); [|congruence]. unfold svc. rewrite St. unfold ush_process_service. rewrite St, Pf, Fp, Hi.
    unfold cat_service. rewrite St, H1, Ac5, Ac4. destruct (Nat.leb_spec (S (length names)) (S (length pre))) as [L|L]; [unfold names in L; rewrite app_length in L; cbn [length] in L; lia|].
    replace (ush_parse_get_args s5) with (ush_parse_get_args s4) by (unfold ush_parse_get_args; rewrite I5, Ac5; reflexivity). rewrite Pa4. cbn [bind]. rewrite Ro. cbn [bind]. rewrite Co. cbn [bind]. rewrite Lk. cbn [bind].
    rewrite De. cbn [deref bind]. rewrite Gf. cbn [deref bind]. unfold call_get. rewrite Eg. cbn [g_calls do_actions bind g_ptr]. destruct Px as [(-> & ->)|(-> & ->)]; reflexivity. }
  assert (T5 : took e c s s5).
  { apply took_works with (s1 := s4); [|exact W5]. apply took_works with (s1 := ush_process_start cmd_cat s2'); [|exact Wk]. apply Tk.
    unfold run_file. rewrite (find_core _ s s2 Kc), (find_group own s w _ cmd_cat K0 Fn). cbn [bind]. exact Ex. }
  destruct (took_drive e c s s5 T5) as (l1 & Dr). exists (l1 ++ [(true, true)]). rewrite (drive_snoc _ _ _ _ _ _ _ Dr). cbn [drive]. rewrite Pr by reflexivity. reflexivity.
Qed.

Lemma xxd_first : forall e s pn pc pi px D z, at_ PXxd S_PROCESS_START (pn, pc, pi, px, D, z) s -> 10 < d_outsize (o_desc s) ->
  exists s4, emits e s ([] ++ map EvOut (address 0 ++ lit ": ")) s4 /\ at_ PXxd S_PROCESS_SERVICE (pn, pc, 0, 1, D, z) s4.
Proof.
  intros e s pn pc pi px D z A Os. assert (P0 : process_state S_PROCESS_SERVICE) by (right; left; reflexivity).
  apply and_then with (P := at_ PXxd S_PROCESS_SERVICE (pn, pc, 0, 0, D, z)).
  { eapply (say_nothing e PXxd _ _ s (set_state S_PROCESS_SERVICE (set_pitem 0 (set_pidx 0 s)))); [exact A|left; reflexivity| |repeat split|reflexivity|reflexivity|].
    - cbn [proc]. at_fields A. unfold xxd_service. rewrite St. reflexivity.
    - at_fields A. put. }
  intros sx Kx Ax. eapply (say_out_then e PXxd _ _ sx (address 0 ++ lit ": ")); [exact Ax|exact P0| | | |].
  - at_fields Ax. cbn [proc]. unfold xxd_service. rewrite St, H2, H1, fmt_hex_eq by (cbn; lia). reflexivity.
  - rewrite app_length. unfold address. rewrite hex_digits_length. cbn [length lit list_ascii_of_string]. rewrite (kept_desc _ _ Kx). lia.
  - rewrite in_app_iff. intros [I|I]; [exact (hex_digits_no_nul _ _ I)|cbn in I; intuition discriminate].
  - at_fields Ax. put.
Qed.
Lemma C51_xxd_null_proof : forall e own w cwd l n name s c g cb z, asked e own w cwd l [n; name] cmd_xxd s -> c = CR \/ c = LF -> findable s w [name] ->
  denotes w name = Some g -> f_get g = Some cb -> e_get e cb (f_name g) = mkGet GNull z [] -> 0 < z -> 0 < cfg_cols (d_cfg (o_desc s)) -> 10 < d_outsize (o_desc s) ->
  exists l1, drive (always e) [c] l1 s = Err ENull.
Proof.
  intros e own w cwd l n name s c g cb z A Hc Fi Dn Gg Eg Z Co Os. pose proof A as (K0 & Wc & En & X & Fn). pose proof (cwd_show _ _ _ _ K0 Wc) as W0.
  destruct (hooked_line_took e l [n; name] s c (show cwd) En W0 Hc ltac:(discriminate) X) as (s2 & args & Rr & _ & Tk).
  pose proof Rr as (Kc & B & _). pose proof (entered_no_nul _ _ _ En) as N. inversion N as [|? ? _ N2]; subst. pose proof (core_cwd _ _ _ Kc W0) as W.
  set (s2' := emit (EvExec XXxd (Some (f_name cmd_xxd)) [n; name]) s2).
  set (s2g := set_pdsize z (set_pdata None (emit (EvGet cb (f_name g)) s2'))). set (s3 := ush_process_start cmd_xxd s2g).
  assert (A3 : exists pn pc pi px, at_ PXxd S_PROCESS_START (pn, pc, pi, px, None, z) s3) by (exists (o_pnode s2), (o_pchild s2), (o_pitem s2), (o_pidx s2); apply (started cmd_xxd PXxd s2g); [reflexivity|exact (cwd_cur _ _ W)|exact B]).
  destruct A3 as (pn & pc & pi & px & A3). 
  destruct (xxd_first e s3 pn pc pi px None z A3) as (s4 & (W4 & K4 & _) & A4); [change (o_desc s3) with (o_desc s2); rewrite (core_desc _ _ Kc); exact Os|].
  pose proof (kept_desc _ _ K4) as D4. change (o_desc s3) with (o_desc s2) in D4. rewrite (core_desc _ _ Kc) in D4.
  at_fields A4. pose proof R as (Cu4 & pf & Pf & Fp).
  assert (Pr : forall i, ush_service i s4 = Err ENull).
  { intros i. rewrite service_eq. destruct (o_cur s4); [|congruence]. unfold svc. rewrite St. unfold ush_process_service. rewrite St, Pf, Fp.
    unfold xxd_service. rewrite St, H2, H1, D4. destruct B0 as (B1 & B2 & B3 & B4). destruct (outb s4) as [|y r]; [cbn in B2; lia|]. replace (wr (y :: r) 0 NUL) with (Ok (NUL :: r)) by reflexivity. cbn [bind].
    destruct (cfg_cols (d_cfg (o_desc s))) as [|k]; [lia|]. cbn [xxd_hex]. rewrite H4. replace (0 <? z) with true by (symmetry; apply Nat.ltb_lt; lia). unfold pdata_rd. rewrite H3. reflexivity. }
  assert (T4 : took e c s s4).
  { apply took_works with (s1 := s3); [|exact W4]. apply Tk. unfold run_file. rewrite (find_core _ s s2 Kc), (find_group own s w _ cmd_xxd K0 Fn). cbn [bind].
    change (f_exec cmd_xxd) with (Some XXxd). cbn [call_exec xxd_callback]. fold s2'. rewrite (names_found own s w cwd name [name] K0 Wc Fi N2 (or_introl eq_refl) s2' Kc). cbn [bind]. rewrite Dn. cbn [bind]. rewrite Gg.
    unfold call_get. rewrite Eg. reflexivity. }
  destruct (took_drive e c s s4 T4) as (l1 & Dr). exists (l1 ++ [(true, true)]). rewrite (drive_snoc _ _ _ _ _ _ _ Dr). cbn [drive]. rewrite Pr. reflexivity.
Qed.
