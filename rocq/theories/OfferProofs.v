(** * OfferProofs: proofs of C73. *)
From Coq Require Import Arith Lia.
From Verif Require Import Shell BaseFacts Spec PathFacts CollapseFacts PathProofs Words Sched Line Editor Tree TreeFacts Cmds Complete CompleteProofs Session SessionProofs Interrupt Screen ScreenProofs ForgetProofs ReachProofs.

Lemma no_space : forall t, ~ In SP t -> existsb (ceq SP) t = false.
Proof. intros t N. destruct (existsb (ceq SP) t) eqn:E; [|reflexivity]. apply existsb_exists in E as (c & I & E). apply ceq_true in E. subst. destruct (N I). Qed.
Lemma after_space_more : forall t l, ~ In SP t -> existsb (ceq SP) l = true -> after_space (l ++ t) = after_space l ++ t.
Proof.
  intros t. induction t as [|c t IH] using rev_ind; intros l N E; [rewrite !app_nil_r; reflexivity|].
  assert (Nt : ~ In SP t) by (intros I; apply N, in_or_app; auto). assert (Nc : ceq c SP = false) by (apply ceq_neq; intros ->; apply N, in_or_app; right; left; reflexivity).
  rewrite !app_assoc, after_space_snoc, Nc, existsb_app, E. cbn [orb]. rewrite IH by auto. reflexivity.
Qed.
Lemma last_word_more : forall l t, ~ In SP t -> l <> [SP] -> last_word (l ++ t) = last_word l ++ t.
Proof.
  intros l t N Q. pose proof (no_space t N) as Et. destruct l as [|c [|d r]].
  - cbn [app last_word]. destruct t as [|c [|d r]]; [reflexivity| |].
    + cbn [last_word after_space existsb] in *. destruct (ceq c SP) eqn:E; [|reflexivity]. apply ceq_true in E. subst. destruct N. left. reflexivity.
    + cbn [last_word]. cbn [existsb] in Et |- *. apply orb_false_iff in Et as (_ & Et). rewrite Et. reflexivity.
  - assert (Nc : ceq c SP = false) by (apply ceq_neq; intros ->; apply Q; reflexivity). assert (E1 : last_word [c] = [c]) by (cbn; rewrite Nc; reflexivity). rewrite E1.
    destruct t as [|d r]; [exact E1|]. change ([c] ++ d :: r) with (c :: d :: r). cbn [last_word]. rewrite Et. reflexivity.
  - change ((c :: d :: r) ++ t) with (c :: d :: (r ++ t)). cbn [last_word]. change (d :: r ++ t) with ((d :: r) ++ t). rewrite existsb_app, Et, orb_false_r.
    destruct (existsb (ceq SP) (d :: r)) eqn:E; [|reflexivity]. apply after_space_more; auto.
Qed.

Lemma cand_narrow : forall w cwd x y, prefixb x y = true -> candidates w cwd y = filter (prefixb y) (candidates w cwd x).
Proof.
  intros w cwd x y P. unfold candidates. induction (names_in w cwd) as [|n r IH]; [reflexivity|]. cbn [filter]. destruct (prefixb y n) eqn:E.
  - rewrite (prefixb_trans x y n P E). cbn [filter]. rewrite E, IH. reflexivity.
  - destruct (prefixb x n); [cbn [filter]; rewrite E|]; exact IH.
Qed.
Lemma filter_id : forall {A} (f : A -> bool) l, (forall x, In x l -> f x = true) -> filter f l = l.
Proof. intros A f l. induction l as [|x r IH]; intros H; [reflexivity|]. cbn [filter]. rewrite (H x (or_introl eq_refl)), IH; [reflexivity|]. intros y I. apply H. right. exact I. Qed.

(** The line is extended. *)
Lemma complete_extends : forall d w l, exists t, snd (complete d w l) = l ++ t.
Proof.
  intros d w l. unfold complete. pose proof (before_last l) as Bl. set (cs := candidates w (here w) (last_word l)).
  assert (Px : forall n, In n cs -> prefixb (last_word l) n = true) by (intros n I; apply filter_In in I; apply I).
  assert (Ex : forall n, prefixb (last_word l) n = true -> exists t, before_word l ++ n = l ++ t).
  { intros n P. apply prefixb_spec in P as (z & ->). exists z. rewrite app_assoc, <- Bl. reflexivity. }
  destruct cs as [|n1 [|n2 r]] eqn:E; [exists []; symmetry; apply app_nil_r|apply Ex, Px; left; reflexivity|]. rewrite <- E in *.
  destruct (beq (common cs) (last_word l)); [exists []; symmetry; apply app_nil_r|]. apply Ex, common_greatest; [rewrite E; discriminate|exact Px].
Qed.

(** Pressing TAB again leaves the line alone. *)
Lemma complete_again : forall d w l, (forall n, In n (names_in w (here w)) -> ~ In SP n) ->
  snd (complete d w (snd (complete d w l))) = snd (complete d w l).
Proof.
  intros d w l Ns. pose proof (before_last l) as Bl. set (cs := candidates w (here w) (last_word l)).
  assert (Px : forall n, In n cs -> prefixb (last_word l) n = true) by (intros n I; apply filter_In in I; apply I).
  assert (In' : forall n, In n cs -> ~ In SP n) by (intros n I; apply filter_In in I; apply Ns, I).
  assert (Same : snd (complete d w l) = l -> snd (complete d w (snd (complete d w l))) = snd (complete d w l)) by (intros H; rewrite H; exact H).
  assert (Step : forall y z, y = last_word l ++ z -> ~ In SP y -> (candidates w (here w) y = [y] \/ exists n1 n2 r, candidates w (here w) y = n1 :: n2 :: r /\ common (n1 :: n2 :: r) = y) ->
    snd (complete d w (before_word l ++ y)) = before_word l ++ y).
  { intros y z Ey Ny K. assert (El : before_word l ++ y = l ++ z) by (rewrite Ey, app_assoc, <- Bl; reflexivity). rewrite El.
    assert (Nz : ~ In SP z) by (intros I; apply Ny; rewrite Ey; apply in_or_app; auto).
    destruct (list_eq_dec Ascii.ascii_dec l [SP]) as [->|Nl].
    - destruct z as [|c z]; [rewrite app_nil_r|].
      + assert (Ey' : y = []) by (rewrite Ey; reflexivity). rewrite Ey' in K. unfold complete. change (last_word [SP]) with (@nil byte). destruct K as [->|(n1 & n2 & r & -> & ->)]; reflexivity.
      + assert (E0 : candidates w (here w) (last_word ([SP] ++ c :: z)) = []).
        { change ([SP] ++ c :: z) with (SP :: c :: z). cbn [last_word]. rewrite (no_space (c :: z) Nz). unfold candidates.
          destruct (filter (prefixb (SP :: c :: z)) (names_in w (here w))) as [|n r] eqn:Ef; [reflexivity|]. exfalso.
          assert (I : In n (filter (prefixb (SP :: c :: z)) (names_in w (here w)))) by (rewrite Ef; left; reflexivity). apply filter_In in I as (I & P).
          apply prefixb_spec in P as (u & ->). apply (Ns _ I). left. reflexivity. }
        unfold complete. rewrite E0. reflexivity.
    - assert (El' : last_word (l ++ z) = y) by (rewrite last_word_more, Ey by auto; reflexivity). pose proof (before_last (l ++ z)) as Bz. rewrite El' in Bz.
      unfold complete. rewrite El'. destruct K as [->|(n1 & n2 & r & -> & Ec)]; [cbn [snd]; symmetry; exact Bz|].
      rewrite Ec. replace (beq y y) with true by (symmetry; apply beq_refl). reflexivity. }
  remember (snd (complete d w l)) as l' eqn:El'. unfold complete in El'. fold cs in El'. destruct cs as [|n1 [|n2 r]] eqn:E; cbn [snd] in El'.
  - apply Same, El'.
  - subst l'. destruct (prefixb_spec (last_word l) n1) as (P & _). destruct P as (z & Ez); [apply Px; left; reflexivity|].
    apply (Step n1 z Ez); [apply In'; left; reflexivity|]. left. rewrite (cand_narrow w (here w) (last_word l) n1) by (apply Px; left; reflexivity).
    fold cs. rewrite E. cbn [filter]. rewrite prefixb_refl. reflexivity.
  - rewrite <- E in *. destruct (beq (common cs) (last_word l)); [apply Same, El'|]. cbn [snd] in El'. subst l'.
    assert (Pc : prefixb (last_word l) (common cs) = true) by (apply common_greatest; [rewrite E; discriminate|exact Px]).
    destruct (prefixb_spec (last_word l) (common cs)) as (P & _). destruct (P Pc) as (z & Ez). apply (Step _ z Ez).
    + intros I. assert (I1 : In n1 cs) by (rewrite E; left; reflexivity). pose proof (common_prefix cs n1 I1) as Pn. apply prefixb_spec in Pn as (u & Pn). apply (In' n1 I1). rewrite Pn. apply in_or_app. auto.
    + right. exists n1, n2, r. rewrite <- E. split; [|reflexivity]. rewrite (cand_narrow w (here w) (last_word l) (common cs) Pc). fold cs. apply filter_id. intros n I. apply common_prefix, I.
Qed.

Lemma tab_step : forall x a, completes x TAB = true -> se_world (snd (sess_step x a TAB)) = se_world a /\
  se_line (snd (sess_step x a TAB)) = snd (complete (x_desc x) (se_world a) (se_line a)) /\ se_esc (snd (sess_step x a TAB)) = se_esc a.
Proof.
  intros x a C. unfold sess_step, ends_line. replace (ceq TAB CR || ceq TAB LF) with false by reflexivity. rewrite andb_false_r, C.
  destruct (complete (x_desc x) (se_world a) (se_line a)). auto.
Qed.

Lemma C73_extends_proof : forall own x a s, shows own x a s -> cfg_autocomp (d_cfg (x_desc x)) = true -> run_limits own x a [TAB] ->
  exists n t, forall l, n <= both_ready l -> exists s' b, drive (app_of x) [TAB] l s = Ok ([], s') /\ shows own x b s' /\
    se_world b = se_world a /\ se_esc b = se_esc a /\ se_line b = se_line a ++ t.
Proof.
  intros own x a s Sh C L. assert (Ct : completes x TAB = true) by (unfold completes; rewrite C; reflexivity). destruct (tab_step x a Ct) as (E1 & E2 & E3).
  destruct (complete_extends (x_desc x) (se_world a) (se_line a)) as (t & Et).
  destruct (schedule_done own x [TAB] a s s (quiet_by_here _ _ (shows_polling _ _ _ _ Sh)) Sh L) as (_ & n & s' & B & Sh' & _).
  rewrite sess_run_cons in Sh'. cbn [sess_run snd] in Sh'. exists n, t. intros l K. exists s', (snd (sess_step x a TAB)). split; [exact (B l K)|]. split; [exact Sh'|]. rewrite E1, E2, E3, Et. auto.
Qed.

Lemma C73_again_proof : forall own x a s, shows own x a s -> cfg_autocomp (d_cfg (x_desc x)) = true -> run_limits own x a [TAB; TAB] ->
  (forall m, In m (names_in (se_world a) (here (se_world a))) -> ~ In SP m) ->
  exists n, forall l1 l2, n <= both_ready l1 -> n <= both_ready l2 -> exists s1 s2 b1 b2,
    drive (app_of x) [TAB] l1 s = Ok ([], s1) /\ drive (app_of x) [TAB; TAB] l2 s = Ok ([], s2) /\ shows own x b1 s1 /\ shows own x b2 s2 /\
    se_line b2 = se_line b1 /\ se_esc b2 = se_esc b1 /\ se_world b2 = se_world b1.
Proof.
  intros own x a s Sh C L Ns. assert (Ct : completes x TAB = true) by (unfold completes; rewrite C; reflexivity). destruct (tab_step x a Ct) as (E1 & E2 & E3).
  destruct (tab_step x (snd (sess_step x a TAB)) Ct) as (F1 & F2 & F3).
  destruct (schedule_done own x [TAB] a s s (quiet_by_here _ _ (shows_polling _ _ _ _ Sh)) Sh) as (_ & n1 & s1 & B1 & Sh1 & _); [split; [apply L|exact I]|].
  destruct (schedule_done own x [TAB; TAB] a s s (quiet_by_here _ _ (shows_polling _ _ _ _ Sh)) Sh L) as (_ & n2 & s2 & B2 & Sh2 & _).
  rewrite sess_run_cons in Sh1, Sh2. rewrite sess_run_cons in Sh2. cbn [sess_run snd] in Sh1, Sh2. exists (n1 + n2). intros l1 l2 K1 K2.
  exists s1, s2, (snd (sess_step x a TAB)), (snd (sess_step x (snd (sess_step x a TAB)) TAB)). split; [apply B1; lia|]. split; [apply B2; lia|]. split; [exact Sh1|]. split; [exact Sh2|].
  split; [rewrite F2, E1, E2; apply complete_again, Ns|]. auto.
Qed.

Lemma resolve_name : forall cwd n, path_ok cwd -> Forall no_dots cwd -> comp_ok n -> no_dots n -> resolve_text cwd n = cwd ++ [n].
Proof.
  intros cwd n O D Co Nd. assert (Et : PathProofs.typed [n] = n) by (unfold PathProofs.typed; cbn; apply app_nil_r).
  destruct (resolve_text_typed cwd [n] O D) as (E & _); [constructor; [exact Co|constructor]|discriminate|]. rewrite Et in E. rewrite E. apply resolve_no_dots_id. constructor; [exact Nd|constructor].
Qed.
Lemma named_in : forall f fl, In f fl -> file_named (f_name f) fl <> None.
Proof. intros f fl I E. unfold file_named in E. pose proof (find_none _ _ E f I) as N. cbn in N. rewrite beq_refl in N. discriminate. Qed.
Lemma C73_works_proof : forall own s w word n, knows own s w -> Forall no_dots (here w) -> In n (candidates w (here w) word) -> comp_ok n -> no_dots n ->
  denotes w n <> None \/ exists dd, In dd (w_fs w) /\ dir_named (show (resolve_text (here w) n)) (w_fs w) = Some dd.
Proof.
  intros own s w word n Kn Nd I Co No. assert (O : Forall (fun d => path_ok (de_path d)) (w_fs w)) by apply Kn. pose proof O as O'. rewrite Forall_forall in O'.
  assert (Nu : NoDup (map de_path (w_fs w))) by apply Kn.
  apply filter_In in I as (I & _). unfold names_in in I. rewrite !in_app_iff in I. destruct I as [I|[I|I]].
  - left. apply in_map_iff in I as (f & <- & I). unfold denotes, find_file. destruct (file_named (f_name f) (flat_map snd (w_groups w))) eqn:E; [discriminate|]. destruct (named_in f _ I E).
  - left. destruct (dir_at (here w) (w_fs w)) as [dd|] eqn:Da; [|destruct I]. apply in_map_iff in I as (f & <- & I).
    assert (Pc : path_ok (here w)). { apply dir_at_some in Da as (J & <-). exact (O' dd J). }
    unfold denotes, find_file. destruct (file_named (f_name f) (flat_map snd (w_groups w))); [discriminate|]. rewrite resolve_name by auto.
    destruct (here w ++ [f_name f]) as [|q r] eqn:E; [destruct (here w); discriminate|]. rewrite <- E, removelast_last, last_last, Da. apply named_in, I.
  - right. apply in_map_iff in I as (dd & <- & I). apply filter_In in I as (I & B). exists dd. split; [exact I|]. pose proof (O' dd I) as Pd.
    assert (Ep : de_path dd = here w ++ [dir_name dd]) by (apply below_spec in B as (B1 & <-); apply app_removelast_last; exact B1).
    assert (Pc : path_ok (here w)) by (rewrite Ep in Pd; apply Forall_app in Pd; apply Pd).
    rewrite resolve_name by auto. rewrite <- Ep, dir_named_show by auto. apply dir_at_in; auto.
Qed.

Lemma complete_out : forall d w l, let '(out, l') := complete d w l in
  (l' = l ++ out) \/ l' = l /\ exists cs, out = CRLF ++ flat_map (fun n => n ++ CRLF) cs ++ prompt d (show (here w)) ++ l /\ forall n, In n cs -> In n (candidates w (here w) (last_word l)).
Proof.
  intros d w l. unfold complete. pose proof (before_last l) as Bl. set (cs := candidates w (here w) (last_word l)).
  assert (Px : forall n, In n cs -> prefixb (last_word l) n = true) by (intros n I; apply filter_In in I; apply I).
  assert (Ex : forall n, prefixb (last_word l) n = true -> before_word l ++ n = l ++ skipn (length (last_word l)) n).
  { intros n P. apply prefixb_spec in P as (z & ->). rewrite skipn_app, skipn_all, Nat.sub_diag. cbn [skipn app]. rewrite app_assoc, <- Bl. reflexivity. }
  destruct cs as [|n1 [|n2 r]] eqn:E; [left; symmetry; apply app_nil_r|left; apply Ex, Px; left; reflexivity|]. rewrite <- E in *.
  destruct (beq (common cs) (last_word l)).
  - right. split; [reflexivity|]. exists cs. auto.
  - left. apply Ex, common_greatest; [rewrite E; discriminate|exact Px].
Qed.

Lemma C73_prints_proof : forall own x a s, let w := se_world a in shows own x a s -> cfg_autocomp (d_cfg (x_desc x)) = true -> run_limits own x a [TAB] ->
  Forall no_dots (here w) -> (forall m, In m (names_in w (here w)) -> comp_ok m /\ no_dots m) ->
  exists n out, (forall l, n <= both_ready l -> exists s', drive (app_of x) [TAB] l s = Ok ([], s') /\ polling s' /\ lg s' = lg s ++ EvIn TAB :: map EvOut out /\
      (editing (se_esc a) (se_line a ++ out) s' \/
       editing (se_esc a) (se_line a) s' /\ exists cs, out = CRLF ++ flat_map (fun m => m ++ CRLF) cs ++ prompt (x_desc x) (show (here w)) ++ se_line a /\
         forall m, In m cs -> denotes w m <> None \/ exists dd, In dd (w_fs w) /\ dir_named (show (resolve_text (here w) m)) (w_fs w) = Some dd)).
Proof.
  intros own x a s w Sh C L Nd Nm. assert (Ct : completes x TAB = true) by (unfold completes; rewrite C; reflexivity).
  destruct (schedule_done own x [TAB] a s s (quiet_by_here _ _ (shows_polling _ _ _ _ Sh)) Sh L) as (_ & n & s' & B & Sh' & Lg).
  pose proof (complete_out (x_desc x) w (se_line a)) as Co. cbn [sess_run] in Sh', Lg. unfold sess_step, ends_line in Sh', Lg. replace (ceq TAB CR || ceq TAB LF) with false in Sh', Lg by reflexivity.
  rewrite andb_false_r, Ct in Sh', Lg. fold w in Sh', Lg. destruct (complete (x_desc x) w (se_line a)) as [out l']. cbn [fst snd] in Sh', Lg. rewrite app_nil_r in Lg.
  exists n, out. intros l K. exists s'. split; [exact (B l K)|]. split; [apply (shows_polling _ _ _ _ Sh')|]. split; [exact Lg|].
  assert (Ed : editing (se_esc a) l' s') by apply Sh'. destruct Co as [->|(-> & cs & -> & Hc)]; [left; exact Ed|right]. split; [exact Ed|]. exists cs. split; [reflexivity|]. intros m I.
  assert (Kn : knows own s w) by apply Sh. pose proof (Hc m I) as I'. pose proof I' as J. apply filter_In in J as (J & _). destruct (Nm m J) as (C1 & C2). exact (C73_works_proof own s w _ m Kn Nd I' C1 C2).
Qed.
