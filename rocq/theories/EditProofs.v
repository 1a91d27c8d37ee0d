(** * EditProofs: proofs of C02, C33, C34, C37. *)
From Verif Require Import Shell BaseFacts LogFacts Sched ServiceFacts SchedFacts Macro Editor EditFacts SchedProofs.

Lemma ins_map_out : forall t, ins (map EvOut t) = [].
Proof. induction t; auto. Qed.

Lemma keys_run : forall e n pr ks k l s p, editing k l s -> cwd_is s p -> bufs_ok s -> k <= 2 ->
  n = d_insize (o_desc s) -> pr = CRLF ++ prompt (o_desc s) p ->
  no_eol n ks (k, l) -> (In TAB ks -> cfg_autocomp (d_cfg (o_desc s)) = false) ->
  exists s', fed e ks s s' /\ editing (fst (ed_run n ks (k, l))) (snd (ed_run n ks (k, l))) s' /\
    core s' = core s /\ bufs_ok s' /\ writes s (ed_outs n pr (k, l) ks) s' /\ execs (lg s') = execs (lg s).
Proof.
  intros e n pr ks. induction ks as [|c ks IH]; intros k l s p Ed W B K Hn Hp NE NT.
  - exists s. split; [constructor; apply Ed|]. split; [exact Ed|]. split; [reflexivity|]. split; [exact B|].
    split; [unfold writes; cbn [ed_outs]; rewrite app_nil_r; reflexivity|reflexivity].
  - destruct NE as (NE1 & NE2).
    destruct (key_step e k l s c p) as (s1 & F1 & E1 & K1 & B1 & L1); auto.
    { intros ->. apply NT. left. reflexivity. }
    rewrite <- Hn in *. rewrite <- Hp in *.
    pose proof (core_desc _ _ K1) as D1.
    destruct (ed_step n (k, l) c) as [k1 l1] eqn:Es. cbn [fst snd] in *.
    assert (K2 : k1 <= 2). { pose proof (ed_step_le n k l c K) as X. rewrite Es in X. exact X. }
    destruct (IH k1 l1 s1 p) as (s2 & F2 & E2 & C2 & B2 & W2 & X2); auto.
    { eapply core_cwd; eauto. } { congruence. } { congruence. } { rewrite D1. intros; apply NT; right; auto. }
    exists s2. split; [apply (fed_app e [c] ks s s1 s2 F1 F2)|].
    assert (R : ed_run n (c :: ks) (k, l) = ed_run n ks (k1, l1)).
    { unfold ed_run. cbn [fold_left]. rewrite Es. reflexivity. }
    rewrite R. split; [exact E2|]. split; [congruence|]. split; [exact B2|]. split.
    + unfold writes in *. rewrite W2, L1, outs_app. cbn [outs flat_map app]. fold (outs (map EvOut (ed_out pr (k, l) c))).
      rewrite outs_map, <- app_assoc. cbn [ed_outs]. rewrite Es. reflexivity.
    + rewrite X2, L1. unfold execs. rewrite flat_map_app. cbn [flat_map app].
      assert (Z : forall t, flat_map (fun e0 => match e0 with EvExec c0 f a => [(c0, f, a)] | _ => [] end) (map EvOut t) = []).
      { induction t; auto. }
      rewrite Z, app_nil_r. reflexivity.
Qed.

(** ** C02 *)

Lemma edit_key_ed : forall n l c, edit_key c -> length (edit1 l c) < n ->
  ed_step n (0, l) c = (0, edit1 l c) /\ (forall pr, ed_out pr (0, l) c = echo1 l c) /\ c <> CR /\ c <> LF /\ c <> TAB.
Proof.
  intros n l c [P|P] H.
  - destruct (plain_key_ne _ P) as (N1 & N2 & N3 & N4 & N5 & N6 & N7).
    unfold ed_step, ed_out, edit1, echo1, erase_key in *. rewrite N1, N2, N3, N4, N5 in *. cbn [orb] in *.
    unfold stored_line. rewrite app_length in H. cbn [length] in H.
    destruct (Nat.ltb_spec (S (length l)) n); [|lia].
    apply ceq_false in N4, N6, N7. auto 10.
  - assert (E : erase_key c = true) by (destruct P as [->| ->]; reflexivity).
    assert (T : ceq c ETX = false) by (destruct P as [->| ->]; reflexivity).
    unfold ed_step, ed_out, edit1, echo1. rewrite E, T.
    repeat split; destruct P as [->| ->]; discriminate.
Qed.

Lemma edit_keys_ed : forall n pr ks l, Forall edit_key ks -> fits n ks l ->
  ed_run n ks (0, l) = (0, edit ks l) /\ ed_outs n pr (0, l) ks = echo l ks /\ no_eol n ks (0, l) /\ ~ In TAB ks.
Proof.
  intros n pr ks. induction ks as [|c ks IH]; intros l F H; [repeat split; auto|].
  inversion F as [|? ? Fc Fk]; subst. destruct H as (H1 & H2).
  destruct (edit_key_ed n l c Fc H1) as (A & A2 & A3 & A4 & A5).
  destruct (IH (edit1 l c) Fk H2) as (B1 & B2 & B3 & B4).
  unfold ed_run, edit in *. cbn [fold_left ed_outs echo no_eol In]. rewrite A, A2.
  split; [exact B1|]. split; [rewrite B2; reflexivity|]. split; [split; auto|]. intros [X|X]; [congruence|auto].
Qed.

Lemma C02_proof : forall e ks l s p, editing 0 l s -> cwd_is s p -> bufs_ok s ->
  Forall edit_key ks -> fits (d_insize (o_desc s)) ks l ->
  exists s', fed e ks s s' /\ editing 0 (edit ks l) s' /\ core s' = core s /\ bufs_ok s' /\
    writes s (echo l ks) s' /\ execs (lg s') = execs (lg s).
Proof.
  intros e ks l s p Ed W B F H.
  destruct (edit_keys_ed (d_insize (o_desc s)) (CRLF ++ prompt (o_desc s) p) ks l F H) as (A1 & A2 & A3 & A4).
  destruct (keys_run e _ _ ks 0 l s p Ed W B (Nat.le_0_l 2) eq_refl eq_refl A3) as (s' & Q); [tauto|].
  exists s'. rewrite A1, A2 in Q. exact Q.
Qed.

(** ** C34 *)

Lemma C34_proof : forall e l s cs, editing 0 l s -> o_cur s <> None -> bufs_ok s ->
  (exists c, (cs = [ESC; "["%char; c] \/ cs = [ESC; "O"%char; c]) /\ swallowed_key c) \/
  (exists c, cs = [ESC; c] /\ swallowed_key c /\ c <> "["%char /\ c <> "O"%char) ->
  exists s', fed e cs s s' /\ editing 0 l s' /\ core s' = core s /\ bufs_ok s' /\ lg s' = lg s ++ map EvIn cs.
Proof.
  intros e l s cs Ed C B H.
  destruct (escape_key e 0 l s Ed C B) as (s1 & F1 & E1 & K1 & B1 & L1).
  assert (CC : forall s', core s' = core s -> o_cur s' <> None).
  { unfold core. intros s' X. assert (o_cur s' = o_cur s) by congruence. congruence. }
  destruct H as [(c & Hc & Sw)|(c & -> & Sw & N1 & N2)].
  - assert (M : exists m, cs = [ESC; m; c] /\ (m = "["%char \/ m = "O"%char)) by (destruct Hc as [->| ->]; eauto).
    clear Hc. destruct M as (m & -> & M).
    destruct (escaped_key e 1 l s1 m E1 (CC _ K1) B1) as (s2 & F2 & E2 & K2 & B2 & L2); [auto| |].
    { left. destruct M as [->| ->]; reflexivity. }
    assert (E2' : esc_next 1 m = 2) by (destruct M as [->| ->]; reflexivity). rewrite E2' in E2.
    assert (CC2 : o_cur s2 <> None) by (apply CC; congruence).
    destruct (escaped_key e 2 l s2 c E2 CC2 B2) as (s3 & F3 & E3 & K3 & B3 & L3); [auto|exact Sw|].
    exists s3. split; [exact (fed_app e [ESC] _ s s1 s3 F1 (fed_app e [m] [c] s1 s2 s3 F2 F3))|].
    split; [exact E3|]. split; [congruence|]. split; [exact B3|]. rewrite L3, L2, L1, <- !app_assoc. reflexivity.
  - destruct (escaped_key e 1 l s1 c E1 (CC _ K1) B1) as (s2 & F2 & E2 & K2 & B2 & L2); [auto|exact Sw|].
    assert (E2' : esc_next 1 c = 0). { cbn [esc_next]. rewrite (ceq_neq _ _ N1), (ceq_neq _ _ N2). reflexivity. }
    rewrite E2' in E2. exists s2. split; [exact (fed_app e [ESC] [c] s s1 s2 F1 F2)|].
    split; [exact E2|]. split; [congruence|]. split; [exact B2|]. rewrite L2, L1, <- !app_assoc. reflexivity.
Qed.

(** ** C37 *)
Lemma C37_step_proof : forall i k l s c, editing k l s -> bufs_ok s -> k <= 2 -> io_rd i = Some c ->
  exists s', ush_read_char i s = Ok (true, s') /\ o_inpos s' < d_insize (o_desc s) /\ length (inb s') = length (inb s) /\
    length (outb s') = length (outb s).
Proof.
  intros i k l s c Ed B K Hc. pose proof (editing_bound _ _ _ Ed B) as LB.
  destruct Ed as (P & Ke & IP & r & EB). destruct B as (B1 & B2 & B3 & B4).
  destruct (buf4 _ _ B2 B4) as (x0 & x1 & x2 & x3 & q & EO).
  assert (EC : forall c s', outb s' = outb s -> exists s'', ush_read_echo_service c s' = Ok s'' /\ o_inpos s'' = o_inpos s' /\
            inb s'' = inb s' /\ length (outb s'') = length (outb s)).
  { intros c0 s' O. unfold ush_read_echo_service. rewrite O, EO.
    destruct (ceq c0 CR) eqn:ECR; [apply ceq_true in ECR; subst c0|destruct (ceq c0 BS || ceq c0 DEL)];
      (rewrite wr_ok by (cbn [length]; lia); cbn [bind upd]);
      repeat (rewrite wr_ok by (cbn [length]; lia); cbn [bind upd]).
    + erewrite wp_eq by reflexivity.
      eexists. split; [reflexivity|]. split; [reflexivity|]. split; reflexivity.
    + erewrite wp_eq by reflexivity. eexists. split; [reflexivity|]. split; [reflexivity|]. split; reflexivity.
    + rewrite (wp_eq WOut _ _ (echo_of c0)) by (cbn [wptr_str]; apply echo_str).
      eexists. split; [reflexivity|]. split; [reflexivity|]. split; reflexivity. }
  unfold ush_read_char. rewrite Hc.
  destruct (ceq c ETX). { eexists. split; [reflexivity|]. unfold write_str, ush_write_pointer_bin, ush_autocomp_start; sfields; rewrite ?IP; repeat split; lia. }
  destruct (ceq c BS || ceq c DEL).
  { sfields. rewrite IP. destruct l as [|x l] using rev_ind.
    - cbn [length bind]. eexists. split; [reflexivity|]. unfold write_str, ush_write_pointer_bin, ush_autocomp_start; sfields; rewrite ?IP; repeat split; lia.
    - clear IHl. rewrite app_length in *. cbn [length] in *. rewrite Nat.add_1_r in *.
      rewrite EB. rewrite <- !app_assoc. cbn [app]. rewrite wr_app by reflexivity. cbn [bind].
      match goal with |- context [ush_read_echo_service c ?x] => destruct (EC c x eq_refl) as (s'' & Q1 & Q2 & Q3 & Q4) end.
      rewrite Q1. cbn [bind]. eexists. split; [reflexivity|]. rewrite Q2, Q3, Q4. sfields.
      split; [lia|]. split; [|reflexivity]. rewrite !app_length. reflexivity. }
  destruct (ceq c TAB). { eexists. split; [reflexivity|]. destruct (cfg_autocomp _); unfold write_str, ush_write_pointer_bin, ush_autocomp_start; sfields; rewrite ?IP; repeat split; lia. }
  destruct (ceq c ESC). { eexists. split; [reflexivity|]. unfold write_str, ush_write_pointer_bin, ush_autocomp_start; sfields; rewrite ?IP; repeat split; lia. }
  unfold ush_read_char_by_escape_state. sfields. rewrite Ke.
  destruct k as [|[|[|k]]]; [| | |lia].
  - rewrite IP, EB. pose proof B1 as B1'. rewrite EB in B1'.
    destruct (store_char _ _ _ c B1' B3) as (r' & b1 & W1 & W2 & W3 & _).
    rewrite W1. cbn [bind]. rewrite W2. cbn [bind].
    match goal with |- context [ush_read_echo_service c ?x] => destruct (EC c x eq_refl) as (s'' & Q1 & Q2 & Q3 & Q4) end.
    rewrite Q1. cbn [bind]. eexists. split; [reflexivity|]. rewrite Q2, Q3, Q4. sfields.
    split; [|split; [|reflexivity]].
    + destruct (Nat.leb_spec (d_insize (o_desc s)) (S (length l))); lia.
    + apply wr_length in W1, W2. congruence.
  - destruct (ceq c "["%char || ceq c "O"%char); cbn [bind]; eexists; (split; [reflexivity|]); unfold write_str, ush_write_pointer_bin, ush_autocomp_start; sfields; rewrite ?IP; repeat split; lia.
  - cbn [bind]. eexists; (split; [reflexivity|]); unfold write_str, ush_write_pointer_bin, ush_autocomp_start; sfields; rewrite ?IP; repeat split; lia.
Qed.

Lemma stored_run : forall n cs l, 2 <= n -> length l < n ->
  fold_left (stored_line n) cs l = skipn (n * ((length l + length cs) / n)) (l ++ cs) /\
  length (fold_left (stored_line n) cs l) = (length l + length cs) mod n.
Proof.
  intros n cs. induction cs as [|c cs IH]; intros l N L.
  - cbn [fold_left length]. rewrite Nat.add_0_r, app_nil_r, Nat.div_small, Nat.mod_small, Nat.mul_0_r by lia. auto.
  - cbn [fold_left length]. assert (E : stored_line n l c = if S (length l) <? n then l ++ [c] else []) by reflexivity. rewrite E.
    destruct (Nat.ltb_spec (S (length l)) n) as [H|H].
    + destruct (IH (l ++ [c]) N) as (A & B); [rewrite app_length; cbn [length]; lia|].
      rewrite app_length in A, B. cbn [length] in A, B.
      replace (length l + 1 + length cs) with (length l + S (length cs)) in * by lia.
      rewrite <- app_assoc in A. split; [exact A|exact B].
    + destruct (IH [] N) as (A & B); [cbn [length]; lia|].
      cbn [length Nat.add app] in A, B.
      assert (S (length l) = n) by lia.
      replace (length l + S (length cs)) with (length cs + 1 * n) by lia.
      rewrite Nat.div_add, Nat.mod_add by lia. split; [|exact B]. rewrite A.
      replace (n * (length cs / n + 1)) with (length (l ++ [c]) + n * (length cs / n)) by (rewrite app_length; cbn [length]; lia).
      change (l ++ c :: cs) with (l ++ [c] ++ cs). rewrite (app_assoc l).
      rewrite <- skipn_add, skipn_app, skipn_all, Nat.sub_diag. reflexivity.
Qed.

(** Plain keys only. *)
Lemma plain_ed : forall n pr cs l, Forall (fun c => plain_key c = true) cs ->
  ed_run n cs (0, l) = (0, fold_left (stored_line n) cs l) /\
  ed_outs n pr (0, l) cs = flat_map echo_of cs /\ no_eol n cs (0, l) /\ ~ In TAB cs.
Proof.
  intros n pr cs. induction cs as [|c cs IH]; intros l F; [repeat split; auto|].
  inversion F as [|? ? P F']; subst. destruct (plain_key_ne _ P) as (N1 & N2 & N3 & N4 & N5 & N6 & N7).
  assert (E : ed_step n (0, l) c = (0, stored_line n l c)).
  { unfold ed_step, erase_key. rewrite N1, N2, N3, N4, N5. reflexivity. }
  assert (O : ed_out pr (0, l) c = echo_of c).
  { unfold ed_out, erase_key. rewrite N1, N2, N3, N4, N5. reflexivity. }
  destruct (IH (stored_line n l c) F') as (A1 & A2 & A3 & A4).
  unfold ed_run in *. cbn [fold_left ed_outs flat_map no_eol In]. rewrite E, O, A1, A2.
  apply ceq_false in N4, N6, N7.
  repeat split; auto. intros [X|X]; [congruence|auto].
Qed.

Lemma C37_wrap_proof : forall e cs s p, editing 0 [] s -> cwd_is s p -> bufs_ok s ->
  Forall (fun c => plain_key c = true) cs ->
  exists s', fed e cs s s' /\
    editing 0 (skipn (d_insize (o_desc s) * (length cs / d_insize (o_desc s))) cs) s' /\
    length (skipn (d_insize (o_desc s) * (length cs / d_insize (o_desc s))) cs) = length cs mod d_insize (o_desc s) /\
    core s' = core s /\ bufs_ok s' /\ writes s (flat_map echo_of cs) s' /\ execs (lg s') = execs (lg s).
Proof.
  intros e cs s p Ed W B F. pose proof B as (_ & _ & B3 & _).
  destruct (plain_ed (d_insize (o_desc s)) (CRLF ++ prompt (o_desc s) p) cs [] F) as (A1 & A2 & A3 & A4).
  destruct (stored_run (d_insize (o_desc s)) cs [] B3) as (R1 & R2); [cbn [length]; lia|].
  cbn [length Nat.add app] in R1, R2.
  destruct (keys_run e _ _ cs 0 [] s p Ed W B (Nat.le_0_l 2) eq_refl eq_refl A3) as (s' & Q1 & Q2 & Q); [tauto|].
  exists s'. rewrite A1, A2 in *. cbn [fst snd] in Q2. rewrite R1 in Q2. split; [exact Q1|]. split; [exact Q2|].
  split; [rewrite <- R1; exact R2|exact Q].
Qed.

Lemma C37_enter_proof : forall i l s c, editing 0 l s -> bufs_ok s -> io_rd i = Some c -> c = CR \/ c = LF ->
  exists s', ush_read_char i s = Ok (true, s') /\ exists r, inb s' = kept_line (d_insize (o_desc s)) l ++ c :: r.
Proof.
  intros i l s c (P & K & IP & r & EB) (B1 & B2 & B3 & B4) Hi Hc.
  assert (N : ceq c ETX = false /\ ceq c BS = false /\ ceq c DEL = false /\ ceq c TAB = false /\ ceq c ESC = false).
  { destruct Hc as [->| ->]; repeat split; reflexivity. }
  destruct N as (N1 & N2 & N3 & N4 & N5).
  rewrite EB in B1.
  destruct (store_char _ _ _ c B1 B3) as (r' & b1 & W1 & W2 & W3 & W4 & W5).
  destruct (buf4 _ _ B2 B4) as (x0 & x1 & x2 & x3 & q & EO).
  unfold ush_read_char. rewrite Hi, N1, N2, N3, N4, N5. cbn [orb].
  unfold ush_read_char_by_escape_state. sfields. rewrite K, IP, EB, W1. cbn [bind].
  rewrite W2. cbn [bind].
  assert (F : forall b, inb b = stored_line (d_insize (o_desc s)) l c ++ NUL :: r' ->
     exists r, inb b = kept_line (d_insize (o_desc s)) l ++ c :: r).
  { intros b Hb. rewrite Hb. unfold kept_line.
    destruct (Nat.leb_spec (d_insize (o_desc s)) (S (length l))) as [H|H].
    + destruct (Nat.ltb_spec (S (length l)) (d_insize (o_desc s))); [lia|]. exists [].
      rewrite W4 by reflexivity. reflexivity.
    + destruct (Nat.ltb_spec (S (length l)) (d_insize (o_desc s))); [|lia].
      destruct W5 as (r'' & ->); [reflexivity|]. eauto. }
  destruct Hc as [->| ->]; unfold ush_read_echo_service; sfields; rewrite EO;
    cbn [ceq]; 
    match goal with |- context [ceq ?a ?b] => idtac end.
  all: change (ceq CR BS) with false; change (ceq CR DEL) with false; change (ceq CR CR) with true;
    change (ceq LF BS) with false; change (ceq LF DEL) with false; change (ceq LF CR) with false; change (ceq LF LF) with true;
    cbn [orb]; repeat (rewrite wr_ok by (cbn [length]; lia); cbn [bind upd]).
  all: erewrite wp_eq by reflexivity; cbn [bind].
  all: eexists; split; [reflexivity|]; apply F; reflexivity.
Qed.

Lemma C33_proof : forall e k l s p, editing k l s -> cwd_is s p -> bufs_ok s ->
  exists s', fed e [ETX] s s' /\ editing 0 [] s' /\ core s' = core s /\ bufs_ok s' /\
    writes s (lit "^C" ++ CRLF ++ prompt (o_desc s) p) s' /\ execs (lg s') = execs (lg s).
Proof.
  intros e k l s p Ed W B. destruct (cancel_key e k l s p Ed W B) as (s' & F & E' & K' & B' & L).
  exists s'. split; [exact F|]. split; [exact E'|]. split; [exact K'|]. split; [exact B'|].
  change (EvIn ETX :: ?x) with ([EvIn ETX] ++ x) in L. rewrite L. split.
  - unfold writes. rewrite L, !outs_app, outs_map. reflexivity.
  - unfold execs. rewrite !flat_map_app.
    assert (Z : forall t, flat_map (fun e0 => match e0 with EvExec c0 f a => [(c0, f, a)] | _ => [] end) (map EvOut t) = []).
    { induction t; auto. }
    rewrite Z. cbn [flat_map app]. apply app_nil_r.
Qed.

Lemma C37_bounded_proof : forall e ks k l s p, editing k l s -> cwd_is s p -> bufs_ok s -> k <= 2 ->
  no_eol (d_insize (o_desc s)) ks (k, l) -> (In TAB ks -> cfg_autocomp (d_cfg (o_desc s)) = false) ->
  let kl' := ed_run (d_insize (o_desc s)) ks (k, l) in
  exists s', fed e ks s s' /\ editing (fst kl') (snd kl') s' /\ length (snd kl') < d_insize (o_desc s) /\
    core s' = core s /\ bufs_ok s' /\
    writes s (ed_outs (d_insize (o_desc s)) (CRLF ++ prompt (o_desc s) p) (k, l) ks) s' /\ execs (lg s') = execs (lg s).
Proof.
  intros e ks k l s p Ed W B K NE NT kl'.
  destruct (keys_run e _ _ ks k l s p Ed W B K eq_refl eq_refl NE NT) as (s' & F & E' & C' & B' & Q).
  exists s'. split; [exact F|]. split; [exact E'|]. split; [|auto].
  rewrite <- (core_desc _ _ C'). exact (editing_bound _ _ _ E' B').
Qed.
