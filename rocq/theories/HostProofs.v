(** * HostProofs: a session during which the host name changes (behind C61). *)
From Coq Require Import Arith Lia.
From Verif Require TreeProofs.
From Verif Require Import Shell BaseFacts LogFacts Sched ServiceFacts SchedFacts Macro EditFacts PromptFacts Words Spec Tree Cmds Complete Session SessionProofs StepFacts Host HostFacts OffPrompt.

Lemma renamed_twice : forall t u s, renamed t (renamed u s) = renamed t s.
Proof. reflexivity. Qed.

(** ** The session, but for the prompts, does not depend on the host name *)
Lemma cat_limits_host : forall own t d e names w, cat_limits own d e w names -> cat_limits own (with_host t d) e w names.
Proof.
  intros own t d e names. induction names as [|n r IH]; intros w H; [exact I|]. cbn [cat_limits] in *.
  destruct H as (N & S & f & cb & D & G & De & C & W & H). split; [exact N|]. split; [exact S|]. exists f, cb. auto 8.
Qed.
Lemma exec_limits_host : forall own t d e w cb f ws, exec_limits own d e w cb f ws -> exec_limits own (with_host t d) e w cb f ws.
Proof.
  intros own t d e w cb f ws H. unfold exec_limits in *. destruct cb; try exact H.
  destruct H as (A & B). split; [exact A|]. intros X. apply cat_limits_host, B, X.
Qed.
Lemma step_limits_host : forall own t x a c, step_limits own x a c -> step_limits own (called_host t x) a c.
Proof.
  intros own t x a c (H & K). split; [|exact K]. intros E. specialize (H E). unfold line_limits in *.
  change (line_argv (called_host t x) a) with (line_argv x a). destruct (line_argv x a) as [|name r]; [exact I|].
  destruct H as (A & B & C & D). split; [exact A|]. split; [exact B|]. split; [exact C|].
  intros f cb X Y Z. apply exec_limits_host, D; assumption.
Qed.

Lemma spoken_host : forall t d ws l buf p, spoken (with_host t d) ws buf p l = spoken d ws buf p l.
Proof. intros t d ws l. induction l as [|a l IH]; intros buf p; [reflexivity|]. cbn [spoken]. destruct a; rewrite ?IH; try reflexivity.
  change (d_outsize (with_host t d)) with (d_outsize d). change (d_cfg (with_host t d)) with (d_cfg d).
  repeat match goal with |- context [match ?m with _ => _ end] => destruct m; rewrite ?IH; try reflexivity end.
Qed.
Lemma do_exec_host : forall t d e w c cb f ws, do_exec (with_host t d) e w c cb f ws = do_exec d e w c cb f ws.
Proof.
  intros t d e w c cb f ws. unfold do_exec. destruct (accepts cb (length ws)); [|reflexivity]. destruct cb; try reflexivity.
  - unfold do_cd, said. rewrite spoken_host. reflexivity.
  - unfold do_echo, do_calls, said. destruct (tl ws) as [|x [|y [|z [|? ?]]]]; try reflexivity. destruct (beq y (lit ">")); [|reflexivity].
    destruct (denotes w z) as [g|]; [|reflexivity]. destruct (f_set g); [|reflexivity]. rewrite spoken_host. reflexivity.
  - unfold do_calls, said. rewrite spoken_host. reflexivity.
Qed.
Lemma react_host : forall t d e w c argv, react (with_host t d) e w c argv = react d e w c argv.
Proof.
  intros. unfold react. destruct argv as [|name r]; [reflexivity|]. change (after_hook e (with_host t d)) with (after_hook e d).
  cbv zeta. destruct (denotes _ name) as [f|]; [|reflexivity]. destruct (f_exec f); [|reflexivity]. rewrite do_exec_host. reflexivity.
Qed.

Lemma complete_host : forall t d w l, snd (complete (with_host t d) w l) = snd (complete d w l).
Proof. intros. unfold complete. cbn. repeat match goal with |- context [match ?m with _ => _ end] => destruct m end; reflexivity. Qed.

Lemma seen_outs : forall t, seen (map EvOut t) = [].
Proof. induction t; auto. Qed.

Lemma sess_step_host : forall t x a c, snd (sess_step (called_host t x) a c) = snd (sess_step x a c) /\
  seen (fst (sess_step (called_host t x) a c)) = seen (fst (sess_step x a c)).
Proof.
  intros t x a c. unfold sess_step. change (ends_line a c) with (ends_line a c). change (x_desc (called_host t x)) with (with_host t (x_desc x)).
  rewrite react_host. change (line_argv (called_host t x) a) with (line_argv x a). change (env_at (called_host t x) a c) with (env_at x a c).
  change (completes (called_host t x) c) with (completes x c).
  destruct (ends_line a c).
  - destruct (react _ _ _ _ _) as [[evs u] w']. cbn [fst snd]. split; [reflexivity|]. rewrite !seen_app, !seen_outs. reflexivity.
  - destruct (completes x c).
    + pose proof (complete_host t (x_desc x) (se_world a) (se_line a)) as E.
      destruct (complete (with_host t (x_desc x)) _ _), (complete (x_desc x) _ _). cbn [snd fst] in *. subst. split; [reflexivity|]. rewrite !seen_outs. reflexivity.
    + cbn [fst snd]. split; [reflexivity|]. rewrite !seen_outs. reflexivity.
Qed.

Lemma run_limits_host : forall own t x cs a, run_limits own x a cs -> run_limits own (called_host t x) a cs.
Proof.
  intros own t x cs. induction cs as [|c cs IH]; intros a H; [exact I|]. destruct H as (H1 & H2). split; [apply step_limits_host, H1|].
  rewrite (proj1 (sess_step_host t x a c)). apply IH, H2.
Qed.

Lemma shows_host : forall own t u x a s, shows own (called_host t x) a (renamed t s) -> shows own (called_host u x) a (renamed u s).
Proof.
  intros own t u x a s (D & R). split; [|exact R]. cbn in *. injection D as D1 D2 D3 D4 D5.
  unfold with_host. congruence.
Qed.

(** ** One call *)
Lemma esteps_ending : forall a os s s', esteps a os s s' -> somes os = [] -> polling s' -> ending s -> seen (lg s') = seen (lg s).
Proof.
  intros a os s s' H. induction H as [s|o os s s1 s2 H1 H2 IH]; intros So P G; [reflexivity|].
  destruct o as [c|]; [discriminate So|]. destruct H1 as (N & b & H1).
  destruct (ending_step _ _ _ _ G N H1) as (G1 & S1). rewrite <- S1. apply IH; auto.
Qed.

(** The shell is [os] calls away from polling in [s'], the host name being [t] by then. *)
Definition on_way (x : setting) (h : list event -> bytes) (t : bytes) (os : list (option byte)) (s s' : st) : Prop :=
  esteps (app_of x) os (renamed t s) s' /\ somes os = [] /\ polling s' /\ t = h (seen (lg s')) /\ pn_ok s.

Lemma renamed_same : forall t s, o_desc s = with_host t (o_desc s) -> renamed t s = s.
Proof. intros t s E. unfold renamed. rewrite <- E. destruct s; reflexivity. Qed.

Lemma way_step : forall x h t os s s', (forall r, fair (x_app x r)) -> on_way x h t os s s' -> ~ polling s -> forall rd w,
  exists b s1, ush_service (mkIo rd w (app_of x (lg s))) (renamed (h (seen (lg s))) s) = Ok (b, s1) /\
    exists os1, on_way x h t os1 s1 s' /\ length os1 <= length os /\ (w = true -> length os1 < length os).
Proof.
  intros x h t os s s' F (H & So & P & T & J) N rd w.
  inversion H as [s0|o os' s0 s3 s4 H1 H2]; subst s0 os; [subst s'; contradiction|]. subst s4.
  destruct o as [c|]; [discriminate So|]. change (somes os' = []) in So. change (lg (renamed t s)) with (lg s) in H1.
  set (u := h (seen (lg s))) in *. set (e := app_of x (lg s)) in *.
  assert (Pn : forall b s1, ush_service (mkIo rd w e) (renamed u s) = Ok (b, s1) -> pn_ok s1).
  { intros b s1 E. eapply service_pn_ok; [| |exact E]; [apply F|exact J]. }
  destruct (service_any _ _ _ _ H1 rd w I) as (b & D).
  destruct (fsm_eqb (o_state s) S_PROMPT_HOST) eqn:Eh.
  - assert (Es : o_state s = S_PROMPT_HOST) by (destruct (o_state s); discriminate || reflexivity).
    assert (U : u = t).
    { unfold u. rewrite T. f_equal. symmetry. change (lg s) with (lg (renamed t s)). eapply esteps_ending; [exact H|reflexivity || exact So|exact P|].
      unfold ending, at_state. change (o_state (renamed t s)) with (o_state s). change (o_pnext (renamed t s)) with (o_pnext s).
      rewrite Es. apply J. unfold at_state. rewrite Es. reflexivity. }
    rewrite U in *. exists b.
    assert (D' : ush_service (mkIo rd w e) (renamed t s) = Ok (b, s3)).
    { destruct D as [D|(_ & _ & D)]; [exact D|]. exfalso. rewrite service_eq in D. destruct (o_cur (renamed t s)); [|discriminate].
      unfold svc in D. change (o_state (renamed t s)) with (o_state s) in D. rewrite Es in D. unfold ush_prompt_service in D. change (o_state (renamed t s)) with (o_state s) in D. rewrite Es in D.
      assert (X : o_state (write_str (d_host (o_desc (renamed t s))) S_PROMPT_SPACE (renamed t s)) = o_state (renamed t s)) by congruence.
      change (S_WRITE_CHAR = o_state s) in X. congruence. }
    exists s3. split; [exact D'|]. exists os'.
    assert (Ds : renamed t s3 = s3).
    { apply renamed_same. clear - D' Es. rewrite service_eq in D'. destruct (o_cur (renamed t s)); [|discriminate].
      unfold svc in D'. change (o_state (renamed t s)) with (o_state s) in D'. rewrite Es in D'. unfold ush_prompt_service in D'. change (o_state (renamed t s)) with (o_state s) in D'. rewrite Es in D'.
      injection D' as _ D. rewrite <- D. reflexivity. }
    split; [split; [rewrite Ds; exact H2|]; split; [exact So|]; split; [exact P|]; split; [exact T|eapply Pn; exact D']|]. cbn [length]. lia.
  - assert (Es : o_state s <> S_PROMPT_HOST) by (intros X; rewrite X in Eh; discriminate).
    rewrite (service_r t) in D by exact Es. rewrite (service_r u) by exact Es. unfold rm2 in *.
    rewrite (service_r u) in Pn by exact Es. unfold rm2 in Pn.
    destruct (ush_service (mkIo rd w e) s) as [(b1, s1)|er] eqn:E1; [|destruct D as [D|(_ & _ & D)]; discriminate].
    exists b1, (renamed u s1). split; [reflexivity|]. specialize (Pn _ _ eq_refl).
    destruct D as [D|(Wf & _ & D)].
    + assert (D2 : renamed t s1 = s3) by congruence. clear D. rename D2 into D. exists os'. split; [|cbn [length]; lia]. split; [rewrite renamed_twice, D; exact H2|]. auto.
    + assert (D2 : renamed t s1 = renamed t s) by congruence. clear D. rename D2 into D. exists (None :: os'). split; [|split; [lia|congruence]]. split; [rewrite renamed_twice, D; exact H|]. auto.
Qed.

(** The shell polls. *)
Lemma way_here : forall x h t os s s', on_way x h t os s s' -> polling s -> s' = renamed t s /\ os = [] /\ h (seen (lg s)) = t.
Proof.
  intros x h t os s s' (H & So & P & T & J) N. inversion H as [s0 E1 E2 E3|o os' s0 s3 s4 H1 H2].
  - subst s'. split; [reflexivity|]. split; [reflexivity|]. symmetry. exact T.
  - subst os. destruct o as [c|]; [discriminate So|]. destruct H1 as (X & _). contradiction.
Qed.

Lemma idle_service : forall w e s, polling s -> o_cur s <> None -> exists b, ush_service (mkIo None w e) s = Ok (b, s).
Proof.
  intros w e s P C. rewrite service_eq. destruct (o_cur s); [|congruence]. unfold svc. rewrite P. unfold ush_read_char. cbn [io_rd]. eauto.
Qed.

Section Sim.
  Variables (own : list nat) (x : setting) (h : list event -> bytes).
  Hypothesis F : forall r, fair (x_app x r).

  (** A byte is read. *)
  Lemma way_byte : forall t s a c, shows own (called_host t x) a (renamed t s) -> polling s -> pn_ok s -> step_limits own x a c ->
    let t' := h (seen (lg s ++ EvIn c :: fst (sess_step x a c))) in
    exists s2, shows own (called_host t' x) (snd (sess_step x a c)) s2 /\ lg s2 = lg s ++ EvIn c :: fst (sess_step (called_host t' x) a c) /\
    exists os1, forall u w, exists b s1, ush_service (mkIo (Some c) w (app_of x (lg s))) (renamed u s) = Ok (b, s1) /\ on_way x h t' os1 s1 s2.
  Proof.
    intros t s a c Sh P J L t'. apply (shows_host own t t') in Sh.
    destruct (C41_proof own (called_host t' x) [c] a _ Sh) as (s2 & Fd & Sh2 & Lg2). { split; [apply step_limits_host, L|exact I]. }
    assert (E2 : sess_run (called_host t' x) a [c] = (EvIn c :: fst (sess_step (called_host t' x) a c), snd (sess_step (called_host t' x) a c))).
    { cbn [sess_run]. destruct (sess_step (called_host t' x) a c) as [evs a1]. cbn [fst snd]. rewrite app_nil_r. reflexivity. }
    rewrite E2 in Sh2, Lg2. cbn [fst snd] in Sh2, Lg2. destruct (sess_step_host t' x a c) as (Hs & Hn). rewrite Hs in Sh2.
    exists s2. split; [exact Sh2|]. split; [exact Lg2|].
    inversion Fd as [|c0 cs0 s0 b s3 s4 s5 P1 H1 Q F3]; subst. inversion F3; subst.
    change (app_of (called_host t' x)) with (app_of x) in *. change (lg (renamed t' s)) with (lg s) in *.
    apply quiet_by_esteps in Q as (os1 & O1 & O2 & O3). exists os1. intros u w.
    assert (Eh : o_state s <> S_PROMPT_HOST) by (rewrite P; discriminate).
    assert (Ew : o_state s <> S_WRITE_CHAR) by (rewrite P; discriminate).
    rewrite (service_r t') in H1 by exact Eh. rewrite (service_r u) by exact Eh. unfold rm2 in *. unfold tick in H1.
    rewrite (svc_wr (Some c) true w) in H1 by exact Ew.
    destruct (ush_service (mkIo (Some c) w (app_of x (lg s))) s) as [(b1, s1)|] eqn:E1; [|discriminate]. injection H1 as -> E3.
    exists b, (renamed u s1). split; [reflexivity|]. split; [rewrite renamed_twice, E3; exact O1|]. split; [exact O2|]. split; [exact O3|].
    split; [rewrite Lg2, seen_app; change (seen (EvIn c :: fst (sess_step (called_host t' x) a c))) with (EvIn c :: seen (fst (sess_step (called_host t' x) a c))); rewrite Hn; unfold t'; rewrite seen_app; reflexivity|].
    assert (K : pn_ok s1) by (eapply service_pn_ok; [|exact J|exact E1]; apply F). exact K.
  Qed.

  (** What holds between two calls: the session has come to [a], the log will be [L]. *)
  Definition sim (t : bytes) (L : list event) (a : sess) (os : list (option byte)) (s s' : st) : Prop :=
    on_way x h t os s s' /\ shows own (called_host t x) a s' /\ lg s' = L.

  Lemma sess_host_cons : forall L a c r,
    let t := h (seen (L ++ EvIn c :: fst (sess_step x a c))) in
    let L1 := EvIn c :: fst (sess_step (called_host t x) a c) in
    sess_host h x L a (c :: r) = (L1 ++ fst (sess_host h x (L ++ L1) (snd (sess_step x a c)) r), snd (sess_host h x (L ++ L1) (snd (sess_step x a c)) r)).
  Proof.
    intros L a c r t L1. cbn [sess_host]. fold t. unfold L1. destruct (sess_step_host t x a c) as (<- & _).
    destruct (sess_step (called_host t x) a c) as [evs a1]. cbn [fst snd]. destruct (sess_host h x _ a1 r) as [e2 a2]. reflexivity.
  Qed.

  (** Every schedule. *)
  Lemma sim_drive : forall l q t L a os s s', sim t L a os s s' -> run_limits own x a q ->
    exists p q' s1, drive_host (app_of x) h q l s = Ok (q', s1) /\ q = p ++ q' /\
      exists t1 os1 s1', sim t1 (L ++ fst (sess_host h x L a p)) (snd (sess_host h x L a p)) os1 s1 s1'.
  Proof.
    intros l. induction l as [|[r w] l IH]; intros q t L a os s s' Sm Li.
    - exists [], q, s. split; [reflexivity|]. split; [reflexivity|]. exists t, os, s'. cbn [sess_host fst snd]. rewrite app_nil_r. exact Sm.
    - cbn [drive_host]. pose proof Sm as (Wy & Sh & Lg). destruct (polling_dec s) as [P|N].
      + destruct (way_here _ _ _ _ _ _ Wy P) as (Es & Eo & Et).
        destruct (if r then hd_error q else None) as [c|] eqn:Er.
        * destruct r; [|discriminate]. destruct q as [|c0 q]; [discriminate|]. injection Er as ->. destruct Li as (L1 & L2).
          rewrite Es in Sh. assert (Lgs : lg s = L) by (rewrite <- Lg, Es; reflexivity).
          destruct (way_byte _ s a c Sh P (proj2 (proj2 (proj2 (proj2 Wy)))) L1) as (s2 & Sh2 & Lg2 & os1 & Sv).
          destruct (Sv (h (seen (lg s))) w) as (b & s1 & E1 & W1). rewrite E1. cbn [bind]. rewrite P. cbn [tl]. rewrite Lgs in *.
          destruct (IH q _ _ _ _ _ _ (conj W1 (conj Sh2 Lg2)) L2) as (p & q' & s3 & D & -> & t3 & os3 & s3' & Sm3).
          exists (c :: p), q', s3. split; [exact D|]. split; [reflexivity|]. exists t3, os3, s3'.
          rewrite sess_host_cons. cbn [fst snd]. rewrite app_assoc. exact Sm3.
        * rewrite Et, <- Es. destruct (idle_service w (app_of x (lg s)) s') as (b & E1). { rewrite Es. exact P. } { eapply shows_cur; exact Sh. }
          rewrite E1. cbn [bind]. rewrite P. apply (IH q t L a os s' s').
          2: exact Li. split; [|split; [exact Sh|exact Lg]].
          destruct Wy as (W1 & W2 & W3 & W4 & W5). rewrite Es in *. rewrite Eo. split; [constructor|]. split; [reflexivity|]. split; [exact W3|]. split; [exact W4|exact W5].
      + destruct (way_step x h t os s s' F Wy N (if r then hd_error q else None) w) as (b & s1 & E1 & os1 & W1 & _).
        rewrite E1. cbn [bind].
        replace (match o_state s with S_READ_CHAR => match (if r then hd_error q else None) with Some _ => tl q | None => q end | _ => q end) with q
          by (destruct (o_state s) eqn:St; try reflexivity; contradiction).
        apply (IH q t L a os1 s1 s'); [|exact Li]. split; [exact W1|]. split; [exact Sh|exact Lg].
  Qed.

  (** It ends. *)
  Lemma sim_done : forall q t L a s', shows own (called_host t x) a s' -> lg s' = L -> run_limits own x a q ->
    exists n, forall l os s, on_way x h t os s s' -> n + length os <= both_ready l ->
    exists s1 t1 s1', drive_host (app_of x) h q l s = Ok ([], s1) /\
      sim t1 (L ++ fst (sess_host h x L a q)) (snd (sess_host h x L a q)) [] s1 s1'.
  Proof.
    intros q. induction q as [|c q IH]; intros t L a s' Sh Lg Li.
    - exists 0. intros l. induction l as [|[r w] l IHl]; intros os s Wy Le.
      + cbn in Le. exists s, t, s'. split; [reflexivity|]. cbn [sess_host fst snd]. rewrite app_nil_r. destruct os; [|cbn in Le; lia]. split; [exact Wy|]. auto.
      + cbn [drive_host]. assert (Rd : (if r then @hd_error byte [] else None) = None) by (destruct r; reflexivity). rewrite Rd.
        assert (Q : match o_state s with S_READ_CHAR => @nil byte | _ => [] end = []) by (destruct (o_state s); reflexivity).
        destruct (polling_dec s) as [P|N].
        * destruct (way_here _ _ _ _ _ _ Wy P) as (Es & Eo & Et). rewrite Et, <- Es.
          destruct (idle_service w (app_of x (lg s)) s') as (b & E1). { rewrite Es. exact P. } { eapply shows_cur; exact Sh. }
          rewrite E1. cbn [bind]. rewrite Q. apply (IHl [] s'). 2: cbn; lia.
          destruct Wy as (W1 & W2 & W3 & W4 & W5). rewrite Es in *. split; [constructor|]. split; [reflexivity|]. split; [exact W3|]. split; [exact W4|exact W5].
        * destruct (way_step x h t os s s' F Wy N None w) as (b & s1 & E1 & os1 & W1 & L1 & L2).
          rewrite E1. cbn [bind]. rewrite Q. apply (IHl os1 s1 W1). unfold both_ready in *. cbn [filter fst snd] in Le. destruct r, w; cbn [andb length] in Le; try specialize (L2 eq_refl); lia.
    - destruct Li as (Li1 & Li2).
      assert (Ps : polling s') by (eapply shows_polling; exact Sh).
      assert (Rs : renamed t s' = s').
      { apply renamed_same. rewrite (proj1 Sh). reflexivity. }
      assert (Js : pn_ok s') by (intros X; unfold at_state in X; rewrite Ps in X; discriminate).
      pose proof Sh as Sh0. rewrite <- Rs in Sh0.
      destruct (way_byte _ s' a c Sh0 Ps Js Li1) as (s2 & Sh2 & Lg2 & os1 & Sv). rewrite Lg in *.
      destruct (IH _ _ _ _ Sh2 Lg2 Li2) as (n & Hn). exists (S (n + length os1)).
      intros l. induction l as [|[r w] l IHl]; intros os s Wy Le; [cbn in Le; lia|].
      cbn [drive_host]. destruct (polling_dec s) as [P|N].
      + destruct (way_here _ _ _ _ _ _ Wy P) as (Es & Eo & Et).
        destruct r.
        * cbn [hd_error tl]. assert (Lgs : lg s = L) by (rewrite <- Lg, Es; reflexivity).
          destruct (Sv (h (seen (lg s))) w) as (b & s1 & E1 & W1). rewrite Es in E1. rewrite renamed_twice in E1. rewrite Lgs in *.
          rewrite E1. cbn [bind]. rewrite P.
          destruct (Hn l os1 s1 W1) as (s3 & t3 & s3' & D & Sm). { rewrite Eo in Le. unfold both_ready in *. cbn [filter fst snd] in Le. destruct w; cbn [andb length] in Le; lia. }
          exists s3, t3, s3'. split; [exact D|]. rewrite sess_host_cons. cbn [fst snd]. rewrite app_assoc. exact Sm.
        * rewrite Et, <- Es. destruct (idle_service w (app_of x (lg s)) s' Ps) as (b & E1). { eapply shows_cur; exact Sh. }
          rewrite E1. cbn [bind]. rewrite P. apply (IHl os s').
          { destruct Wy as (W1 & W2 & W3 & W4 & W5). rewrite Eo. split; [rewrite Rs; constructor|]. split; [reflexivity|]. split; [exact W3|]. split; [exact W4|exact Js]. }
          exact Le.
      + destruct (way_step x h t os s s' F Wy N (if r then hd_error (c :: q) else None) w) as (b & s1 & E1 & os2 & W1 & L1 & L2).
        rewrite E1. cbn [bind].
        replace (match o_state s with S_READ_CHAR => match (if r then hd_error (c :: q) else None) with Some _ => tl (c :: q) | None => c :: q end | _ => c :: q end) with (c :: q)
          by (destruct (o_state s) eqn:St; try reflexivity; contradiction).
        apply (IHl os2 s1 W1). unfold both_ready in *. cbn [filter fst snd] in Le. destruct r, w; cbn [andb length] in Le; try specialize (L2 eq_refl); lia.
  Qed.
End Sim.

Lemma sim_start : forall own x h a s, shows own (named_at h x (lg s)) a (current h s) -> sim own x h (h (seen (lg s))) (lg s) a [] s (current h s).
Proof.
  intros own x h a s Sh. split; [|split; [exact Sh|reflexivity]]. pose proof (shows_polling _ _ _ _ Sh) as P.
  split; [constructor|]. split; [reflexivity|]. split; [exact P|]. split; [reflexivity|].
  intros X. unfold at_state in X. change (o_state s) with (o_state (current h s)) in X. rewrite P in X. discriminate.
Qed.

Lemma sim_end : forall own x h t L a os s s', sim own x h t L a os s s' -> polling s -> lg s = L /\ shows own (named_at h x (lg s)) a (current h s).
Proof.
  intros own x h t L a os s s' (W & Sh & Lg) P. destruct (way_here _ _ _ _ _ _ W P) as (E & _ & T). unfold named_at, current. rewrite T, <- E.
  split; [|exact Sh]. rewrite <- Lg, E. reflexivity.
Qed.

Lemma C61_schedule_proof : forall own x h cs a s l q s1, (forall r, fair (x_app x r)) -> shows own (named_at h x (lg s)) a (current h s) -> run_limits own x a cs ->
  drive_host (app_of x) h cs l s = Ok (q, s1) -> polling s1 ->
  exists p, cs = p ++ q /\ lg s1 = lg s ++ fst (sess_host h x (lg s) a p) /\ shows own (named_at h x (lg s1)) (snd (sess_host h x (lg s) a p)) (current h s1).
Proof.
  intros own x h cs a s l q s1 F Sh Li D P. apply sim_start in Sh.
  destruct (sim_drive own x h F l cs _ _ _ _ _ _ Sh Li) as (p & q' & s1' & D' & E & t1 & os1 & s2 & Sm). rewrite D in D'. injection D' as <- <-.
  exists p. split; [exact E|]. eapply sim_end; eauto.
Qed.

Lemma C61_done_proof : forall own x h cs a s, (forall r, fair (x_app x r)) -> shows own (named_at h x (lg s)) a (current h s) -> run_limits own x a cs ->
  (forall l, exists q s1, drive_host (app_of x) h cs l s = Ok (q, s1)) /\
  exists n, forall l, n <= both_ready l -> exists s1, drive_host (app_of x) h cs l s = Ok ([], s1) /\ polling s1.
Proof.
  intros own x h cs a s F Sh Li. pose proof (sim_start _ _ _ _ _ Sh) as Sm. split.
  - intros l. destruct (sim_drive own x h F l cs _ _ _ _ _ _ Sm Li) as (p & q' & s1' & D' & _). eauto.
  - destruct (sim_done own x h F cs _ _ _ _ Sh eq_refl Li) as (n & Hn). exists n. intros l Le.
    destruct (Hn l [] s (proj1 Sm)) as (s1 & t1 & s1' & D & (W & _)). { cbn [length]. lia. }
    exists s1. split; [exact D|]. destruct W as (E & _ & P & _). inversion E; subst. exact P.
Qed.

Lemma C61_name_proof : forall t i s, o_cur s <> None -> o_state s = S_PROMPT_HOST ->
  exists s1, ush_service i (renamed t s) = Ok (true, s1) /\ pending s1 t /\ lg s1 = lg s.
Proof.
  intros t i s C E. rewrite service_eq. change (o_cur (renamed t s)) with (o_cur s). destruct (o_cur s); [|congruence].
  unfold svc. change (o_state (renamed t s)) with (o_state s). rewrite E. unfold ush_prompt_service. change (o_state (renamed t s)) with (o_state s). rewrite E.
  eexists. split; [reflexivity|]. split; [|reflexivity]. apply TreeProofs.pending_str.
Qed.

(** ** From ush_init on *)
Lemma do_op_kept : forall o s x s', do_op o s = Ok (x, s') -> o_desc s' = o_desc s /\ o_state s' = o_state s /\ o_wnext s' = o_wnext s.
Proof.
  intros o s x s' H. destruct o; cbn [do_op] in H.
  - unfold ush_node_mount in H. oks2; repeat split.
  - unfold ush_node_unmount in H. oks2; repeat split.
  - unfold ush_commands_add in H. oks2; repeat split.
  - unfold ush_commands_remove in H. oks2; repeat split.
  - unfold ush_node_set_current_dir in H. oks2; repeat split.
Qed.
Lemma do_ops_kept : forall os s x s', do_ops os s = Ok (x, s') -> o_desc s' = o_desc s /\ o_state s' = o_state s /\ o_wnext s' = o_wnext s.
Proof.
  intros os. induction os as [|o os IH]; intros s x s' H; cbn [do_ops] in H; [oks; auto|].
  ok1. destruct a as [y s1]. ok1. destruct a as [ys s2]. injection H as _ <-. apply do_op_kept in E as (A & B & C). apply IH in E0 as (A' & B' & C'). repeat split; congruence.
Qed.
Lemma init_kept : forall d ib ob s s', ush_init d ib ob s = Ok s' -> o_desc s' = d /\ pn_ok s'.
Proof.
  intros d ib ob s s' H. unfold ush_init in H. ok1. ok1. ok1. injection H as <-.
  split; [|intros X; discriminate X]. cbn. destruct (cfg_commands (d_cfg d)); [|oks; reflexivity].
  unfold ush_commands_add in E1. oks2; reflexivity.
Qed.

Lemma C61_init_proof : forall d d0 b ib0 ob0 hp0 l0 ib ob own os f h,
  2 <= d_insize d -> 4 <= d_outsize d -> length ib = d_insize d -> length ob = d_outsize d ->
  (cfg_commands (d_cfg d) = true -> buildin_commands (d_cfg d) <> []) -> In b own -> (forall i, In i own -> nth_error hp0 i = Some node_zero) ->
  let w0 := mkWorld [] (if cfg_commands (d_cfg d) then [(b, buildin_commands (d_cfg d))] else []) None in
  let w := snd (spec_ops os w0) in
  let x := mkSetting d f in let a := mkSess w (ins l0) 0 [] in
  all_allowed (d_pathmax d) own os w0 ->
  (forall r, fair (f r)) -> h (seen l0) = d_host d ->
  forall cwd cs, w_cwd w = Some cwd -> run_limits own x a cs ->
  exists s0 s1, ush_init d ib ob (st_zero d0 b ib0 ob0 hp0 l0) = Ok s0 /\ do_ops os s0 = Ok (fst (spec_ops os w0), s1) /\
    let L := l0 ++ map EvOut (greeting ++ prompt d (show cwd)) in
    (forall l, exists q s2, drive_host (app_of x) h cs l s1 = Ok (q, s2) /\
       (polling s2 -> exists p, cs = p ++ q /\ lg s2 = L ++ fst (sess_host h x L a p) /\ shows own (named_at h x (lg s2)) (snd (sess_host h x L a p)) (current h s2))) /\
    exists n, forall l, n <= both_ready l -> exists s2, drive_host (app_of x) h cs l s1 = Ok ([], s2) /\ polling s2.
Proof.
  intros d d0 b ib0 ob0 hp0 l0 ib ob own os f h H1 H2 H3 H4 H5 H6 H7 w0 w x a Al F Hh cwd cs Wc Li.
  destruct (boot_proof d d0 b ib0 ob0 hp0 l0 ib ob own os f H1 H2 H3 H4 H5 H6 H7 Al cwd Wc) as (s0 & s1 & s2 & E0 & E1 & Q & Sh & Lg).
  fold w0 in E1. fold w in Sh. fold x a in Sh. fold x in Q. exists s0, s1. split; [exact E0|]. split; [exact E1|]. intros L. fold L in Lg.
  destruct (init_kept _ _ _ _ _ E0) as (D0 & J0). destruct (do_ops_kept _ _ _ _ E1) as (D1 & S1 & W1).
  assert (Dn : with_host (d_host d) d = d) by (destruct d; reflexivity).
  assert (R1 : renamed (d_host d) s1 = s1) by (apply renamed_same; rewrite D1, D0; symmetry; exact Dn).
  apply quiet_by_esteps in Q as (ts & Q1 & Q2 & Q3).
  assert (Hl : d_host d = h (seen (lg s2))) by (rewrite Lg; unfold L; rewrite seen_app, seen_outs, app_nil_r; symmetry; exact Hh).
  assert (Sm : sim own x h (d_host d) L a ts s1 s2).
  { split; [|split; [|exact Lg]].
    - split; [rewrite R1; exact Q1|]. split; [exact Q2|]. split; [exact Q3|]. split; [exact Hl|].
      unfold pn_ok, at_state in *. rewrite S1, W1. intros X. destruct (J0 X) as [Y|Y]; exfalso; clear - E0 X; revert X;
        unfold ush_init in E0; oks2; discriminate.
    - unfold called_host, x. cbn [x_desc x_app]. rewrite Dn. exact Sh. }
  split.
  - intros l. destruct (sim_drive own x h F l cs _ _ _ _ _ _ Sm Li) as (p & q' & s3 & D & E & t3 & os3 & s3' & Sm3).
    exists q', s3. split; [exact D|]. intros P. exists p. split; [exact E|]. eapply sim_end; eauto.
  - destruct Sm as (W & Sh2 & _). destruct (sim_done own x h F cs _ _ _ _ Sh2 Lg Li) as (n & Hn). exists (n + length ts). intros l Le.
    destruct (Hn l ts s1 W Le) as (s3 & t3 & s3' & D & (W3 & _)). exists s3. split; [exact D|]. destruct W3 as (E & _ & P & _). inversion E; subst. exact P.
Qed.
