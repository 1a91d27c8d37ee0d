(** * ReconfProofs: callbacks that change directories and commands (C48). *)
From Coq Require Import Arith.
From Verif Require Import Shell BaseFacts Sched SchedFacts Macro Editor EditFacts Words Line LineFacts SchedProofs LineProofs Spec DecodeFacts Tree TreeFacts TreeOps TreeProofs Cmds CmdFacts PrintfFacts HookFacts CmdProofs.

Lemma tree_action : forall ws args a o s, tree_call a = Some o -> proper_call ws a -> do_action args a s = ('(_, s') <- do_op o s ;; Ok s').
Proof.
  intros ws args a o s E P. destruct a; cbn [tree_call] in E; try discriminate; injection E as <-; cbn [do_action do_op proper_call] in *; try reflexivity.
  rewrite <- P. reflexivity.
Qed.

Lemma proper_print : forall ws a, proper_call ws a -> tree_call a = None -> a <> AReset -> printing_call ws a.
Proof. intros ws a P E N. destruct a; cbn [tree_call] in E; try discriminate; try congruence; exact P. Qed.
Lemma effect_some : forall a o, tree_call a = Some o -> tree_effect a = [o].
Proof. intros a o E. destruct a; cbn [tree_call] in E; try discriminate; cbn [tree_effect tree_call]; congruence. Qed.
Lemma effect_none : forall a, tree_call a = None -> a <> AReset -> tree_effect a = [].
Proof. intros a E N. destruct a; cbn [tree_call] in E; try discriminate; try congruence; reflexivity. Qed.
Lemma reset_dec : forall a, a = AReset \/ a <> AReset.
Proof. destruct a; (left; reflexivity) || (right; discriminate). Qed.

(** ush_reset goes to the root, then prints. *)
Lemma root_step : forall own s w, knows own s w -> knows own (set_cur (o_root s) s) (snd (spec_op (TChdir (lit "/")) w)) /\ only_tree own s (set_cur (o_root s) s).
Proof.
  intros own s w K. pose proof K as ((O & St & Ch) & Gr & Dj & Us & Ow & Cu). split.
  2:{ split; [reflexivity|]. split; [reflexivity|]. reflexivity. }
  cbn [spec_op]. change (lit "/") with [SL]. cbv iota. replace (resolve_text (here w) [SL]) with (@nil bytes) by (destruct (here w); reflexivity).
  rewrite dir_named_show; [|apply O|constructor]. destruct (dir_at [] (w_fs w)) as [r|] eqn:Dr; cbn [snd].
  - pose proof Dr as Dr'. apply dir_at_some in Dr' as (Ir & Pr). rewrite Pr.
    assert (Rt : o_root s = Some (de_node r)). { unfold node_at in Ch. rewrite Dr in Ch. cbn [option_map] in Ch. apply Ch. }
    split; [exact (conj O (conj St Ch))|]. split; [exact Gr|]. split; [exact Dj|]. split; [exact Us|]. split; [exact Ow|]. exists r. split; [exact Dr|exact Rt].
  - split; [exact (conj O (conj St Ch))|]. split; [exact Gr|]. split; [exact Dj|]. split; [exact Us|]. split; [exact Ow|].
    destruct (w_cwd w) as [cwd|] eqn:Ew; [|exact I]. destruct Cu as (d & Dd & _). rewrite (no_root_empty _ O Dr) in Dd. discriminate.
Qed.

Lemma tree_formatted : forall a o, tree_call a = Some o -> formatted [a] = [].
Proof. intros a o E. destruct a; cbn [tree_call] in E; try discriminate; reflexivity. Qed.

Lemma spoken_tree : forall d ws buf t a o r, tree_call a = Some o -> spoken d ws buf t (a :: r) = spoken d ws buf t r.
Proof. intros d ws buf t a o r E. destruct a; cbn [tree_call] in E; try discriminate; reflexivity. Qed.

(** What a change of the tree leaves alone. *)
Lemma only_tree_speaks : forall own s s' buf t, only_tree own s s' -> speaks s s buf t -> speaks s' s' buf t.
Proof.
  intros own s s' buf t (E & _) (_ & _ & _ & _ & H). rewrite E. split; [reflexivity|]. split; [reflexivity|]. split; [reflexivity|]. split; [reflexivity|]. exact H.
Qed.
Lemma only_tree_fields : forall own s s', only_tree own s s' -> o_desc s' = o_desc s /\ inb s' = inb s /\ outb s' = outb s /\ lg s' = lg s /\ o_argc s' = o_argc s.
Proof. intros own s s' (E & _). rewrite E. repeat split. Qed.

Lemma mixed_speaks : forall own args ws l s w buf t, speaks s s buf t -> bufs_ok s -> arg_values (inb s) args = Ok ws -> Forall (proper_call ws) l ->
  20 <= d_outsize (o_desc s) \/ length (buf_text buf) + length (formatted l) < d_outsize (o_desc s) ->
  knows own s w -> all_allowed (d_pathmax (o_desc s)) own (tree_calls l) w ->
  exists s' buf', do_actions args l s = Ok s' /\ speaks s' s' buf' (spoken (o_desc s) ws buf t l) /\
    knows own s' (snd (spec_ops (tree_calls l) w)) /\ bufs_ok s' /\ inb s' = inb s /\ o_desc s' = o_desc s /\ lg s' = lg s /\
    length (buf_text buf') <= length (buf_text buf) + length (formatted l) /\
    (forall r, spoken (o_desc s) ws buf t (l ++ r) = spoken (o_desc s) ws buf' (spoken (o_desc s) ws buf t l) r) /\
    o_argc s' = o_argc s /\ o_buildin s' = o_buildin s /\
    (Forall (proper_call []) l -> (forall off, o_wbuf s <> Some (WIn off)) -> forall off, o_wbuf s' <> Some (WIn off)).
Proof.
  intros own args ws l. induction l as [|a l IH]; intros s w buf t H B Av Pc Rm K Al.
  - exists s, buf. split; [reflexivity|]. split; [exact H|]. split; [exact K|]. split; [exact B|]. split; [reflexivity|]. split; [reflexivity|]. split; [reflexivity|]. split; [lia|]. auto.
  - inversion Pc as [|? ? Pa Pl]; subst. change (formatted (a :: l)) with (match a with APrintf (FmtOk u) => u | _ => [] end ++ formatted l) in *. rewrite app_length in *.
    assert (Fa : length (formatted [a]) = length (match a with APrintf (FmtOk u) => u | _ => [] end)) by (unfold formatted; cbn [flat_map]; rewrite app_nil_r; reflexivity).
    unfold tree_calls in *. cbn [flat_map] in *. fold (tree_calls l) in *. cbn [do_actions].
    destruct (tree_call a) as [o|] eqn:Tc; [|destruct (reset_dec a) as [->|Nr]].
    + rewrite (effect_some _ _ Tc) in *. cbn [app] in *. destruct Al as (A1 & A2). destruct (op_step own o s w K A1) as (s1 & E1 & K1 & O1).
      rewrite (tree_action ws args a o s Tc Pa), E1. cbn [bind].
      destruct (only_tree_fields _ _ _ O1) as (D1 & I1 & U1 & L1 & Ar1).
      assert (Bw1 : o_buildin s1 = o_buildin s /\ o_wbuf s1 = o_wbuf s) by (destruct O1 as (-> & _); split; reflexivity).
      assert (B1 : bufs_ok s1) by (unfold bufs_ok in *; rewrite D1, I1, U1; exact B).
      rewrite <- D1 in A2, Rm. rewrite <- I1 in Av.
      destruct (IH s1 (snd (spec_op o w)) buf t (only_tree_speaks _ _ _ _ _ O1 H) B1 Av Pl) as (s' & buf' & E' & H' & K' & B' & I' & D' & L' & Lb' & Sp' & Ar' & Bi' & Nw'); auto; [lia|].
      exists s', buf'. split; [exact E'|]. rewrite (spoken_tree _ _ _ _ _ _ _ Tc), <- D1. split; [exact H'|].
      split; [cbn [spec_ops]; destruct (spec_op o w) as (x & w1); cbn [snd] in *; destruct (spec_ops (tree_calls l) w1); exact K'|].
      split; [exact B'|]. split; [congruence|]. split; [congruence|]. split; [congruence|]. split; [lia|].
      split; [intros r; cbn [app]; rewrite (spoken_tree _ _ _ _ _ _ _ Tc), D1; rewrite D1 in Sp'; apply Sp'|]. split; [congruence|]. split; [destruct Bw1; congruence|].
      intros F N off. inversion F; subst. apply Nw'; auto. destruct Bw1 as (_ & ->). exact N.
    + cbn [tree_effect app length do_action bind] in *. destruct Al as (A1 & A2). destruct (root_step own s w K) as (K1 & O1). set (s1 := set_cur (o_root s) s) in *.
      assert (E2 : ush_reset s = write_str greeting S_RESET_PROMPT s1) by reflexivity.
      assert (H2 : speaks (ush_reset s) (ush_reset s) None greeting).
      { split; [reflexivity|]. split; [reflexivity|]. split; [reflexivity|]. split; [reflexivity|]. split; [discriminate|]. right. left. split; [apply reset_fields|reflexivity]. }
      destruct (IH (ush_reset s) (snd (spec_op (TChdir (lit "/")) w)) None greeting H2) as (s' & buf' & E' & H' & K' & B' & I' & D' & L' & Lb' & Sp' & Ar' & Bi' & Nw'); auto.
      { cbn [buf_text length]. change (o_desc (ush_reset s)) with (o_desc s). lia. }
      exists s', buf'. split; [exact E'|]. split; [exact H'|].
      split; [cbn [spec_ops]; destruct (spec_op (TChdir (lit "/")) w) as (x & w1); cbn [snd] in *; destruct (spec_ops (tree_calls l) w1); exact K'|]. split; [exact B'|]. split; [exact I'|]. split; [exact D'|]. split; [exact L'|].
      split; [cbn [buf_text length] in Lb'; lia|]. split; [exact Sp'|]. split; [exact Ar'|]. split; [exact Bi'|].
      intros F _ off. inversion F; subst. apply Nw'; auto. intros o. discriminate.
    + rewrite (effect_none _ Tc Nr) in *. cbn [app] in *. destruct (call_speaks args ws a s s buf t H B Av (proper_print _ _ Pa Tc Nr)) as (s1 & buf1 & t1 & E & H1 & Lb & Sp); [lia|].
      pose proof H1 as (K1 & I1 & O1 & L1 & _). pose proof (core_desc _ _ K1) as D1.
      assert (B1 : bufs_ok s1) by (unfold bufs_ok in *; rewrite D1, I1, O1; exact B). rewrite E. cbn [bind]. rewrite <- D1 in Al, Rm. rewrite <- I1 in Av.
      destruct (IH s1 w buf1 t1 (speaks_self _ _ _ _ H1) B1 Av Pl) as (s' & buf' & E' & H' & K' & B' & I' & D' & L' & Lb' & Sp' & Ar' & Bi' & Nw'); auto.
      { rewrite D1 in *. lia. }
      { exact (knows_core _ _ _ _ K1 K). }
      exists s', buf'. split; [exact E'|]. rewrite Sp, <- D1. split; [exact H'|]. split; [exact K'|]. split; [exact B'|]. split; [congruence|]. split; [congruence|]. split; [congruence|]. split; [lia|].
      split; [intros r; cbn [app]; pose proof (Sp (l ++ r)) as Q; rewrite <- D1 in Q; rewrite Q; apply Sp'|].
      split; [rewrite Ar'; apply (calls_argc args ws [a] s s1); [constructor; [exact (proper_print _ _ Pa Tc Nr)|constructor]|cbn [do_actions]; rewrite E; reflexivity]|].
      split; [rewrite Bi'; unfold core in K1; injection K1; congruence|].
      intros F N off. inversion F as [|? ? Fx Fy]; subst. apply Nw'; auto. apply (calls_no_in args [a] s s1); [constructor; [exact (proper_print _ _ Fx Tc Nr)|constructor]|cbn [do_actions]; rewrite E; reflexivity|exact N].
Qed.

Lemma mixed_speak : forall own args ws l s w buf t, speaks s s buf t -> bufs_ok s -> arg_values (inb s) args = Ok ws -> Forall (proper_call ws) l ->
  20 <= d_outsize (o_desc s) \/ length (buf_text buf) + length (formatted l) < d_outsize (o_desc s) ->
  knows own s w -> all_allowed (d_pathmax (o_desc s)) own (tree_calls l) w ->
  exists s' buf', do_actions args l s = Ok s' /\ speaks s' s' buf' (spoken (o_desc s) ws buf t l) /\
    knows own s' (snd (spec_ops (tree_calls l) w)) /\ bufs_ok s' /\ inb s' = inb s /\ o_desc s' = o_desc s /\ lg s' = lg s.
Proof.
  intros own args ws l s w buf t H B Av Pc Rm K Al. destruct (mixed_speaks own args ws l s w buf t H B Av Pc Rm K Al) as (s' & buf' & R1 & R2 & R3 & R4 & R5 & R6 & R7 & _).
  exists s', buf'. auto 10.
Qed.

(** In a callback called after the hook. *)
Lemma mixed_quiet : forall e own args ws ws' hk l c s w cwd', arg_values (inb s) args = Ok ws' -> Forall (proper_call ws') l ->
  (forall buf t, spoken (o_desc s) ws' buf t l = spoken (o_desc s) ws buf t l) -> room_for (o_desc s) (hk ++ l) ->
  bufs_ok s -> voice c ws hk s -> knows own s w -> all_allowed (d_pathmax (o_desc s)) own (tree_calls l) w ->
  w_cwd (snd (spec_ops (tree_calls l) w)) = Some cwd' ->
  exists s1 s', do_actions args l s = Ok s1 /\ quiet e s1 s' /\ editing 0 [] s' /\ bufs_ok s' /\ knows own s' (snd (spec_ops (tree_calls l) w)) /\ o_desc s' = o_desc s /\
    lg s' = lg s ++ map EvOut (said (o_desc s) c ws (hk ++ l) ++ prompt (o_desc s) (show cwd')).
Proof.
  intros e own args ws ws' hk l c s w cwd' Av F Hw Rm B (buf & t & H & Lb & Sr & _) K Al Wc.
  destruct (mixed_speak own args ws' l s w buf t H B Av F) as (s1 & buf' & E & H1 & K1 & B1 & I1 & D1 & L1); auto.
  { unfold room_for in Rm. unfold formatted in *. rewrite flat_map_app, app_length in Rm. lia. }
  rewrite Hw, <- Sr in H1.
  destruct (speaks_quiet e s1 s1 buf' _ (show cwd') H1 (cwd_show _ _ _ _ K1 Wc) B1) as (s' & Q & Ed & B' & K' & L'). exists s1, s'.
  split; [exact E|]. split; [exact Q|]. split; [exact Ed|]. split; [exact B'|]. split; [exact (knows_core _ _ _ _ K' K1)|].
  split; [rewrite (core_desc _ _ K'); exact D1|]. rewrite L', L1, D1. reflexivity.
Qed.

Lemma C48_at : forall e own w cwd Go ws f s c k cwd', called_at e own w cwd Go c ws f s -> c = CR \/ c = LF -> ws <> [] -> f_exec f = Some (XUser k) ->
  let calls := e_exec e k (Some (f_name f)) ws in
  let w' := snd (spec_ops (tree_calls calls) w) in
  Forall (proper_call ws) calls -> room_for (o_desc s) (hook_calls e (o_desc s) ws ++ calls) ->
  all_allowed (d_pathmax (o_desc s)) own (tree_calls calls) w -> w_cwd w' = Some cwd' ->
  exists s', does_at Go c s (XUser k) f ws [] (said (o_desc s) c ws (hook_calls e (o_desc s) ws ++ calls)) cwd' s' /\ knows own s' w' /\ o_desc s' = o_desc s.
Proof.
  intros e own w cwd Go ws f s c k cwd' (K & Wc & En & X & (Nm & Fi) & De) Hc Ne Fx calls w' F Rm Al Wc'.
  apply (run_line e own w cwd Go ws f s c (XUser k) _ (fun s' => knows own s' w' /\ o_desc s' = o_desc s) K Wc En X); auto.
  { rewrite <- De. eapply find_denotes; eauto.
    - pose proof En as Nn. destruct ws; [congruence|]. inversion Nn; auto.
    - inversion Fi; auto. }
  intros s2 args (Kc & B & Vo & _ & _ & _ & Av & _) K2 W N s2'. pose proof (core_desc _ _ Kc) as D.
  destruct (mixed_quiet e own args ws ws (hook_calls e (o_desc s) ws) calls c s2' w cwd') as (s1 & s' & E & Q & Ed & B' & K' & D' & L'); auto.
  { change (o_desc s2') with (o_desc s2). rewrite D. exact Rm. }
  { apply voice_emit. exact Vo. }
  { change (o_desc s2') with (o_desc s2). rewrite D. exact Al. }
  exists s1, s'. split; [exact E|]. split; [exact Q|]. split; [exact Ed|]. split; [exact B'|]. change (o_desc s2') with (o_desc s2) in *. rewrite D in *.
  split; [split; [exact K'|exact D']|]. exact L'.
Qed.

Lemma proper_spoken : forall d ws ws' l buf t, Forall (proper_call []) l -> spoken d ws buf t l = spoken d ws' buf t l.
Proof.
  intros d ws ws' l. induction l as [|a l IH]; intros buf t F; [reflexivity|]. inversion F as [|? ? Fa Fl]; subst.
  destruct (tree_call a) as [o|] eqn:Tc; [rewrite !(spoken_tree _ _ _ _ _ _ _ Tc); apply IH; exact Fl|].
  destruct a; cbn [proper_call printing_call tree_call] in *; try contradiction; try discriminate; cbn [spoken tree_call]; try (rewrite IH by exact Fl; reflexivity).
  - cbn [length] in Fa. lia.
  - destruct x; [|contradiction]. destruct buf as [(full & p)|]; apply IH; exact Fl.
Qed.

Lemma said_proper : forall d c ws ws' l, Forall (proper_call []) l -> said d c ws l = said d c ws' l.
Proof. intros. apply proper_spoken. assumption. Qed.

Lemma C48_setter_at : forall e own w cwd Go n text name s c g cb cwd', asked_at e own w cwd Go c [n; text; lit ">"; name] cmd_echo s -> c = CR \/ c = LF -> findable s w [name] ->
  denotes w name = Some g -> f_set g = Some cb ->
  let hk := hook_calls e (o_desc s) [n; text; lit ">"; name] in
  let calls := e_set e cb (f_name g) (decode text) in
  let w' := snd (spec_ops (tree_calls calls) w) in
  Forall (proper_call []) hk -> Forall (proper_call []) calls -> room_for (o_desc s) (hk ++ calls) ->
  all_allowed (d_pathmax (o_desc s)) own (tree_calls calls) w -> w_cwd w' = Some cwd' ->
  exists s', does_at Go c s XEcho cmd_echo [n; text; lit ">"; name] [EvSet cb (f_name g) (decode text)]
    (said (o_desc s) c [] (hk ++ calls)) cwd' s' /\ knows own s' w' /\ o_desc s' = o_desc s.
Proof.
  intros e own w cwd Go n text name s c g cb cwd' A Hc Fi Dn Gs hk calls w' Fh Fp Rm Al Wc'. pose proof A as (K0 & Wc & _).
  apply (run_cmd e own w cwd Go [n; text; lit ">"; name] cmd_echo s c XEcho _ (fun s' => knows own s' w' /\ o_desc s' = o_desc s)); auto; [discriminate|].
  intros s2 args Rr K W N s2'. pose proof Rr as (Kc & B & Vo & _ & _ & _ & Av & _). pose proof (core_desc _ _ Kc) as D.
  assert (Nn : Forall no_nul [name]) by (inversion N as [|? ? _ N2]; subst; inversion N2 as [|? ? _ N3]; subst; inversion N3; subst; auto).
  destruct (arg_values_nth _ _ _ 1 text Av eq_refl) as (off & Ra & Cs).
  destruct (echo_decoded _ _ _ Cs) as (a & r & Eb & La & Nt & Sl & De).
  set (b' := a ++ decode text ++ skipn (length (decode text)) text ++ NUL :: r) in *.
  assert (Lb : length b' = length (inb s2)).
  { rewrite Eb. unfold b'. rewrite !app_length, skipn_length. cbn [length]. pose proof (decode_length_le text). lia. }
  assert (Dd : firstn (length (decode text)) (skipn off b') = decode text).
  { unfold b'. rewrite <- La, skipn_app, skipn_all, Nat.sub_diag. cbn [app skipn]. rewrite firstn_app, Nat.sub_diag, firstn_all. cbn [firstn]. apply app_nil_r. }
  set (s2s := emit (EvSet cb (f_name g) (decode text)) (set_inb b' s2')).
  rewrite <- D in Rm, Al.
  destruct (mixed_quiet e own [] [n; text; lit ">"; name] [] hk calls c s2s w cwd' eq_refl Fp) as (s3 & s' & E & Q & Ed & B' & K' & D' & L'); auto.
  { intros. apply proper_spoken. exact Fp. }
  { destruct B as (B1 & B2). split; [|exact B2]. change (inb s2s) with b'. rewrite Lb. exact B1. }
  { apply voice_emit, voice_inb; [apply voice_emit; exact Vo|exact Fh]. }
  change (o_desc s2s) with (o_desc s2) in *. rewrite D in *.
  exists s3, s'. split; [|split; [exact Q|split; [exact Ed|split; [exact B'|split; [split; [exact K'|exact D']|]]]]].
  - cbn [call_exec echo_callback]. fold s2'. change (beq (lit ">") (lit ">")) with true. cbn [negb].
    rewrite (names_found own s w cwd name [name] K0 Wc Fi Nn (or_introl eq_refl) s2' Kc). cbn [bind]. rewrite Dn. cbn [bind]. rewrite Gs, Ra. cbn [bind].
    change (inb s2') with (inb s2). rewrite Sl. cbn [bind]. rewrite De. cbn [bind]. rewrite Dd. exact E.
  - rewrite L'. change (lg s2s) with (lg s2' ++ [EvSet cb (f_name g) (decode text)]).
    rewrite <- !app_assoc. rewrite (said_proper _ _ [] [n; text; lit ">"; name]); [reflexivity|]. apply Forall_app. split; [exact Fh|exact Fp].
Qed.

(** ** A hook that changes the tree *)
Lemma hook_poised : forall e own w cwd l ws s c, knows own s w -> w_cwd w = Some cwd -> entered l ws s -> c = CR \/ c = LF -> ws <> [] -> hook_fine e own (o_desc s) w ws ->
  exists s0, o_desc s0 = o_desc s /\ lg s0 = lg s /\ knows own s0 (after_hook e (o_desc s) ws w) /\ poised e (fed e [c] s) c ws s0.
Proof.
  intros e own w cwd l ws s c Kn Wc T Hc Ne (Hp & Rm & Al). pose proof (cwd_show _ _ _ _ Kn Wc) as W.
  destruct (entered_line_took e l ws s c (show cwd) T W Hc) as (s1 & args & R & F & _).
  destruct R as (K & B & Wr & St & Ac & Pk & Pa & Av & La & L). pose proof (core_desc _ _ K) as D.
  assert (Bi1 : o_buildin s1 = o_buildin s) by (unfold core in K; injection K; auto). apply eol_length in Hc as Le.
  assert (Hook : exists s2 buf, match d_exec (o_desc s1) with None => Ok s1 | Some cb => do_actions args (e_exec e cb None ws) (emit (EvExec (XUser cb) None ws) s1) end = Ok s2 /\
    speaks s2 s2 buf (said (o_desc s) c ws (hook_calls e (o_desc s) ws)) /\ length (buf_text buf) <= 2 + length (formatted (hook_calls e (o_desc s) ws)) /\
    (forall r, said (o_desc s) c ws (hook_calls e (o_desc s) ws ++ r) = spoken (o_desc s) ws buf (said (o_desc s) c ws (hook_calls e (o_desc s) ws)) r) /\
    (Forall (proper_call []) (hook_calls e (o_desc s) ws) -> forall off, o_wbuf s2 <> Some (WIn off)) /\
    knows own s2 (after_hook e (o_desc s) ws w) /\ o_desc s2 = o_desc s /\ o_buildin s2 = o_buildin s /\ bufs_ok s2 /\ inb s2 = inb s1 /\ o_argc s2 = o_argc s1 /\
    lg s2 = lg s1 ++ hook_events (o_desc s) ws).
  { rewrite D. unfold after_hook, hook_calls, hook_events in *. pose proof (knows_core _ _ _ _ K Kn) as Kn1.
    assert (Nw : forall off, o_wbuf s1 <> Some (WIn off)) by (intros off; destruct Wr as (-> & _); discriminate).
    destruct (d_exec (o_desc s)) as [h|].
    - set (s1' := emit (EvExec (XUser h) None ws) s1). assert (Sp' : speaks s1' s1' (Some (eol_echo c, length (eol_echo c))) []) by exact (wrote_speaks c s1' Hc B St Wr).
      destruct (mixed_speaks own args ws (e_exec e h None ws) s1' w _ _ Sp' B Av Hp) as (s2 & buf & E & S2 & K2 & B2 & I2 & D2 & L2 & Lb & Sr & A2 & Bi2 & N2).
      { cbn [buf_text]. change (o_desc s1') with (o_desc s1). rewrite D. unfold room_for in Rm. lia. }
      { exact Kn1. }
      { change (o_desc s1') with (o_desc s1). rewrite D. exact Al. }
      cbn [buf_text] in Lb. change (o_desc s1') with (o_desc s1) in *. change (o_buildin s1') with (o_buildin s1) in *. rewrite D in *.
      exists s2, buf. split; [exact E|]. split; [exact S2|]. split; [lia|]. split; [exact Sr|].
      split; [intros Fn; exact (N2 Fn Nw)|]. split; [exact K2|]. split; [exact D2|]. split; [congruence|]. split; [exact B2|]. split; [exact I2|]. split; [exact A2|exact L2].
    - exists s1, (Some (eol_echo c, length (eol_echo c))). split; [reflexivity|]. split; [exact (wrote_speaks c s1 Hc B St Wr)|]. split; [cbn [buf_text formatted flat_map length]; lia|]. split; [reflexivity|].
      split; [intros _; exact Nw|]. split; [exact Kn1|]. split; [exact D|]. split; [exact Bi1|]. split; [exact B|]. split; [reflexivity|]. split; [reflexivity|]. rewrite app_nil_r. reflexivity. }
  destruct Hook as (s2 & buf & E & S2 & Lb & Sr & Nw2 & K2 & D2 & Bi2 & B2 & I2 & A2 & L2).
  exists (set_cur (o_cur s2) (set_cmds (o_cmds s2) (set_root (o_root s2) (set_hp (hp s2) s)))).
  split; [reflexivity|]. split; [reflexivity|]. split; [exact (knows_ext own s2 _ _ eq_refl eq_refl eq_refl eq_refl K2)|]. intros _. exists s2, args. split.
  - split; [unfold core; cbn; congruence|]. split; [exact B2|]. cbn [set_cur set_cmds set_root set_hp o_desc lg].
    split; [exists buf; eexists; rewrite D2; split; [exact S2|]; split; [exact Lb|]; split; [exact Sr|exact Nw2]|].
    split; [rewrite A2; exact Ac|]. rewrite I2. split; [exact Pk|]. split; [unfold ush_parse_get_args in *; rewrite A2, I2; exact Pa|].
    split; [exact Av|]. split; [exact La|]. rewrite L2, L, <- app_assoc. reflexivity.
  - assert (Ra : run_argv e args ws s1 = run_file e args ws s2) by (destruct ws as [|name rest]; [congruence|]; cbn [run_argv]; rewrite E; cbn [bind]; reflexivity).
    intros s3 s' E3 Q. apply F. exists s3. rewrite Ra. auto.
Qed.

(** ** When the hook only prints *)
Lemma C48_proof : forall e own w cwd l ws f s c k cwd', called e own w cwd l ws f s -> c = CR \/ c = LF -> ws <> [] -> f_exec f = Some (XUser k) ->
  let calls := e_exec e k (Some (f_name f)) ws in
  let w' := snd (spec_ops (tree_calls calls) w) in
  Forall (proper_call ws) calls -> room_for (o_desc s) (hook_calls e (o_desc s) ws ++ calls) ->
  all_allowed (d_pathmax (o_desc s)) own (tree_calls calls) w -> w_cwd w' = Some cwd' ->
  exists s', does e c s (XUser k) f ws [] (said (o_desc s) c ws (hook_calls e (o_desc s) ws ++ calls)) cwd' s' /\ knows own s' w' /\ o_desc s' = o_desc s.
Proof. intros e own w cwd l ws f s c k cwd' A Hc. exact (C48_at e own w cwd (fed e [c] s) ws f s c k cwd' (called_line _ _ _ _ _ _ _ _ _ A Hc) Hc). Qed.
Lemma C48_setter_proof : forall e own w cwd l n text name s c g cb cwd', asked e own w cwd l [n; text; lit ">"; name] cmd_echo s -> c = CR \/ c = LF -> findable s w [name] ->
  denotes w name = Some g -> f_set g = Some cb ->
  let hk := hook_calls e (o_desc s) [n; text; lit ">"; name] in
  let calls := e_set e cb (f_name g) (decode text) in
  let w' := snd (spec_ops (tree_calls calls) w) in
  Forall (printing_call []) hk -> Forall (proper_call []) calls -> room_for (o_desc s) (hk ++ calls) ->
  all_allowed (d_pathmax (o_desc s)) own (tree_calls calls) w -> w_cwd w' = Some cwd' ->
  exists s', does e c s XEcho cmd_echo [n; text; lit ">"; name] [EvSet cb (f_name g) (decode text)]
    (said (o_desc s) c [] (hk ++ calls)) cwd' s' /\ knows own s' w' /\ o_desc s' = o_desc s.
Proof.
  intros e own w cwd l n text name s c g cb cwd' A Hc Fi Dn Gs hk calls w' Fh.
  apply (C48_setter_at e own w cwd (fed e [c] s) n text name s c g cb cwd' (asked_line _ _ _ _ _ _ _ _ _ A Hc) Hc Fi Dn Gs).
  exact (printing_proper _ _ Fh).
Qed.

(** A callback that resets the shell. *)
Lemma spec_ops_one : forall o w, snd (spec_ops [o] w) = snd (spec_op o w).
Proof. intros o w. cbn [spec_ops]. destruct (spec_op o w) as (r & w1). reflexivity. Qed.
Lemma spoken_reset : forall d ws l buf t, Forall (printing_call ws) l -> spoken d ws buf t (l ++ [AReset]) = greeting.
Proof.
  intros d ws l. induction l as [|a l IH]; intros buf t F; [reflexivity|]. inversion F as [|? ? Fa Fl]; subst.
  destruct a; cbn [printing_call] in Fa; try contradiction; cbn [app spoken tree_call]; try (apply IH; exact Fl).
  destruct x as [u|u]; [|contradiction]. destruct buf as [(full, p)|]; apply IH; exact Fl.
Qed.
Lemma C48_reset_proof : forall e own w cwd l ws f s c k, called e own w cwd l ws f s -> c = CR \/ c = LF -> ws <> [] -> f_exec f = Some (XUser k) ->
  e_exec e k (Some (f_name f)) ws = [AReset] -> 1 < d_pathmax (o_desc s) ->
  exists s', does e c s (XUser k) f ws [] greeting [] s' /\ knows own s' (mkWorld (w_fs w) (w_groups w) (Some [])) /\ o_desc s' = o_desc s.
Proof.
  intros e own w cwd l ws f s c k Ca Hc Hw Hx Hk Pm. pose proof Ca as (K & Wc & _ & (Hp & Hr) & _).
  assert (Sw : snd (spec_op (TChdir (lit "/")) w) = mkWorld (w_fs w) (w_groups w) (Some [])).
  { pose proof K as ((O & St & Ch) & _ & _ & _ & _ & Cu). rewrite Wc in Cu. destruct Cu as (d & Dd & _).
    destruct (dir_at [] (w_fs w)) as [r|] eqn:Dr; [|rewrite (no_root_empty _ O Dr) in Dd; discriminate].
    cbn [spec_op]. change (lit "/") with [SL]. cbv iota. replace (resolve_text (here w) [SL]) with (@nil bytes) by (destruct (here w); reflexivity).
    rewrite dir_named_show; [|apply O|constructor]. rewrite Dr. apply dir_at_some in Dr as (_ & Pr). cbn [snd]. rewrite Pr. reflexivity. }
  destruct (C48_proof e own w cwd l ws f s c k [] Ca Hc Hw Hx) as (s' & Do & Kn & D); rewrite ?Hk.
  - repeat constructor.
  - unfold room_for in *. unfold formatted in *. rewrite flat_map_app. cbn [flat_map]. rewrite !app_nil_r. exact Hr.
  - cbn [tree_calls tree_effect flat_map app all_allowed]. split; [|exact I]. change (lit "/") with [SL]. split; [intros [X|[]]; discriminate X|]. split.
    + destruct (here w); cbn; lia.
    + intros _. exists []. reflexivity.
  - cbn [tree_calls tree_effect flat_map app]. rewrite spec_ops_one. rewrite Sw. reflexivity.
  - exists s'. rewrite Hk in Do, Kn. cbn [tree_calls tree_effect flat_map app] in Kn. rewrite spec_ops_one, Sw in Kn.
    unfold said in Do. rewrite spoken_reset in Do by exact Hp. auto.
Qed.
