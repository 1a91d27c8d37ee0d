(** * ShuffleProofs: proofs of C87. *)
From Coq Require Import Arith Lia Permutation.
From Verif Require Import Shell BaseFacts Spec PathFacts Words Sched Line Editor Tree TreeFacts Cmds Complete CompleteProofs Session SessionProofs Interrupt Forget ForgetProofs Order OrderProofs Shuffle.

Definition distinct_in (w : world) : Prop := (forall d, In d (w_fs w) -> NoDup (map f_name (de_files d))) /\ NoDup (map f_name (flat_map snd (w_groups w))).
Definition like_world (v w : world) : Prop :=
  fs_ok (w_fs v) /\ fs_ok (w_fs w) /\ dirs_in (w_fs v) (w_fs w) /\ dirs_in (w_fs w) (w_fs v) /\
  Permutation (flat_map snd (w_groups v)) (flat_map snd (w_groups w)) /\ distinct_in v /\ w_cwd v = w_cwd w.

Definition like_dir (d e : dirent) : Prop := de_path d = de_path e /\ Permutation (de_files d) (de_files e).
Definition like_opt (o p : option dirent) : Prop := match o, p with Some d, Some e => like_dir d e | None, None => True | _, _ => False end.

Lemma like_at : forall f g p, fs_ok f -> fs_ok g -> dirs_in f g -> dirs_in g f -> like_opt (dir_at p f) (dir_at p g).
Proof.
  intros f g p Of Og S T. destruct (dir_at p f) as [d|] eqn:E.
  - apply dir_at_some in E as (I & <-). destruct (S d I) as (e & J & E1 & E2). rewrite <- E1, (dir_at_in g e Og J). split; [symmetry; exact E1|exact E2].
  - destruct (dir_at p g) as [e|] eqn:F; [|exact Logic.I]. apply dir_at_some in F as (J & <-). destruct (T e J) as (d & I & E1 & _). destruct (dir_at_none _ _ E d I E1).
Qed.

Lemma like_named : forall f g t, fs_ok f -> fs_ok g -> dirs_in f g -> dirs_in g f -> like_opt (dir_named t f) (dir_named t g).
Proof.
  intros f g t Of Og S T.
  assert (One : forall f g, fs_ok f -> fs_ok g -> dirs_in f g -> forall d, dir_named t f = Some d -> exists e, dir_named t g = Some e /\ like_dir d e).
  { clear f g Of Og S T. intros f g Of Og S d E. destruct (named_in t f d E) as (I & K). destruct (S d I) as (e & J & E1 & E2).
    destruct K as [(-> & Ep)|(Nt & Et)].
    - exists e. change (dir_named [] g) with (dir_at [] g). rewrite <- Ep, <- E1, (dir_at_in g e Og J). split; [reflexivity|]. split; [symmetry; exact E1|exact E2].
    - destruct (dir_named t g) as [e'|] eqn:F.
      + destruct (named_in t g e' F) as (J' & [(Q & _)|(_ & Et')]); [destruct (Nt Q)|].
        assert (Ep : de_path e' = de_path e).
        { apply show_inj; [| |rewrite E1; congruence]; destruct Og as (P & _); rewrite Forall_forall in P; apply P; assumption. }
        pose proof (dir_at_in g e Og J) as A1. pose proof (dir_at_in g e' Og J') as A2. rewrite Ep, A1 in A2. injection A2 as <-. exists e. split; [reflexivity|]. split; [symmetry; exact E1|exact E2].
      + rewrite <- Et, <- E1 in F. destruct (named_of g e Og J F). }
  destruct (dir_named t f) as [d|] eqn:E; [destruct (One f g Of Og S d E) as (e & -> & L); exact L|].
  destruct (dir_named t g) as [e|] eqn:F; [|exact Logic.I]. destruct (One g f Og Of T e F) as (d & Q & _). rewrite E in Q. discriminate.
Qed.

Lemma like_here : forall v w, like_world v w -> here v = here w.
Proof. intros v w (_ & _ & _ & _ & _ & _ & E). unfold here. rewrite E. reflexivity. Qed.

Lemma find_perm : forall n l m, Permutation l m -> NoDup (map f_name l) -> file_named n l = file_named n m.
Proof.
  intros n l m P. unfold file_named. induction P as [|f l m P IH|f g l|l m k P IH Q IH2]; intros N; cbn [find map] in *.
  - reflexivity.
  - apply NoDup_cons_iff in N as (_ & N). rewrite (IH N). reflexivity.
  - destruct (beq (f_name g) n) eqn:E1, (beq (f_name f) n) eqn:E2; try reflexivity. apply beq_true in E1, E2. apply NoDup_cons_iff in N as (N & _). destruct N. left. congruence.
  - rewrite (IH N). apply IH2. apply (Permutation_NoDup (Permutation_map f_name P) N).
Qed.

Lemma like_denotes : forall v w n, like_world v w -> denotes v n = denotes w n.
Proof.
  intros v w n S. unfold denotes, find_file. rewrite (like_here _ _ S). destruct S as (Ov & Ow & S & T & Eg & (Df & Dg) & _). rewrite (find_perm n _ _ Eg Dg).
  destruct (file_named n (flat_map snd (w_groups w))); [reflexivity|]. destruct (resolve_text (here w) n) as [|c p]; [reflexivity|].
  pose proof (like_at _ _ (removelast (c :: p)) Ov Ow S T) as E. destruct (dir_at (removelast (c :: p)) (w_fs v)) as [d|] eqn:Ed, (dir_at (removelast (c :: p)) (w_fs w)); cbn [like_opt] in E; try destruct E; [|reflexivity].
  apply find_perm; [assumption|]. apply Df. apply dir_at_some in Ed as (I & _). exact I.
Qed.

Lemma like_unreadable : forall v w ns, like_world v w -> first_unreadable v ns = first_unreadable w ns.
Proof. intros v w ns S. induction ns as [|n r IH]; [reflexivity|]. cbn [first_unreadable]. unfold unreadable. rewrite (like_denotes _ _ n S), IH. reflexivity. Qed.
Lemma like_reads : forall e v w ns, mild e -> like_world v w -> fst (read_all e v ns) = fst (read_all e w ns).
Proof.
  intros e v w ns M S. induction ns as [|n r IH]; [reflexivity|]. cbn [read_all]. rewrite (like_denotes _ _ n S). destruct (denotes w n) as [f|]; [|reflexivity]. destruct (f_get f) as [k|]; [|reflexivity].
  rewrite !(mild_get e _ k f M). destruct (read_all e v r), (read_all e w r). cbn [fst] in *. rewrite IH. reflexivity.
Qed.

Lemma like_paths : forall f g, fs_ok f -> fs_ok g -> dirs_in f g -> dirs_in g f -> Permutation (map de_path f) (map de_path g).
Proof.
  intros f g (_ & Nf & _) (_ & Ng & _) S T. apply NoDup_Permutation; [exact Nf|exact Ng|].
  assert (One : forall f g, dirs_in f g -> forall q, In q (map de_path f) -> In q (map de_path g)).
  { clear. intros f g S q I. apply in_map_iff in I as (d & <- & I). destruct (S d I) as (e & J & E1 & _). rewrite <- E1. apply in_map. exact J. }
  intros q. split; [apply One; exact S|apply One; exact T].
Qed.
Lemma like_names : forall v w p x, like_world v w -> Permutation (candidates v p x) (candidates w p x).
Proof.
  intros v w p x (Ov & Ow & S & T & Eg & _). apply perm_filter. unfold names_in. pose proof (like_at _ _ p Ov Ow S T) as E.
  apply Permutation_app; [apply Permutation_map; exact Eg|]. apply Permutation_app; [apply Permutation_map|].
  - destruct (dir_at p (w_fs v)), (dir_at p (w_fs w)); cbn [like_opt] in E; try destruct E; [assumption|constructor].
  - rewrite !sub_paths. apply Permutation_map, perm_filter, like_paths; assumption.
Qed.

Lemma like_complete : forall d v w l, like_world v w ->
  (let names := candidates v (here v) (last_word l) in length names <= 1 \/ common names <> last_word l) -> complete d v l = complete d w l.
Proof.
  intros d v w l S K. unfold complete. rewrite (like_here _ _ S) in *. cbv zeta in *. pose proof (like_names v w (here w) (last_word l) S) as P. pose proof (common_perm _ _ P) as E.
  destruct (candidates v (here w) (last_word l)) as [|n1 [|n2 r]].
  - apply Permutation_nil in P as ->. reflexivity.
  - apply Permutation_length_1_inv in P as ->. reflexivity.
  - destruct K as [K|K]; [cbn in K; lia|]. pose proof (Permutation_length P) as Ln. destruct (candidates w (here w) (last_word l)) as [|m1 [|m2 q]]; try discriminate Ln.
    rewrite <- E. destruct (beq (common (n1 :: n2 :: r)) (last_word l)) eqn:B; [apply beq_true in B; destruct (K B)|reflexivity].
Qed.

(** Alike reactions. *)
Definition like_reaction (r q : reaction) : Prop := fst r = fst q /\ like_world (snd r) (snd q).

Lemma like_exec : forall d e v w c cb f ws, mild e -> like_world v w -> cb <> XLs -> (cb = XHelp -> 1 < length ws) -> like_reaction (do_exec d e v c cb f ws) (do_exec d e w c cb f ws).
Proof.
  intros d e v w c cb f ws M S Nl Nh. unfold do_exec. destruct (accepts cb (length ws)); [|split; [reflexivity|exact S]].
  destruct cb.
  - split; [|exact S]. unfold do_help. cbn [prints_only fst]. specialize (Nh eq_refl). destruct ws as [|n0 [|n r]]; cbn [length] in Nh; try lia. cbn [tl]. rewrite (like_denotes _ _ n S). reflexivity.
  - destruct (Nl eq_refl).
  - unfold do_cd. cbv zeta. destruct (nth 1 ws []) as [|b t]; [split; [reflexivity|exact S]|]. rewrite (like_here _ _ S).
    pose proof S as (Ov & Ow & Sd & Td & Eg & Di & Ec). set (p := show (resolve_text (here w) (b :: t))). pose proof (like_named _ _ p Ov Ow Sd Td) as E.
    destruct (dir_named p (w_fs v)) as [dd|], (dir_named p (w_fs w)) as [dd'|]; cbn [like_opt] in E; try contradiction; [|split; [reflexivity|exact S]].
    destruct E as (E & _). split; [reflexivity|]. cbn [snd]. split; [exact Ov|]. split; [exact Ow|]. split; [exact Sd|]. split; [exact Td|]. split; [exact Eg|]. split; [exact Di|]. cbn [w_cwd]. rewrite E. reflexivity.
  - split; [|exact S]. rewrite (like_here _ _ S). reflexivity.
  - unfold do_cat. rewrite (like_unreadable _ _ _ S). destruct (first_unreadable w (tl ws)); [split; [reflexivity|exact S]|].
    pose proof (like_reads e v w (tl ws) M S) as E. pose proof (mild_all e v (tl ws) M) as E1. pose proof (mild_all e w (tl ws) M) as E2.
    destruct (read_all e v (tl ws)), (read_all e w (tl ws)). cbn [fst snd] in *. subst. split; [reflexivity|exact S].
  - unfold do_xxd. rewrite (like_denotes _ _ _ S). destruct (denotes w (nth 1 ws [])) as [g|]; [|split; [reflexivity|exact S]]. destruct (f_get g) as [k|]; [|split; [reflexivity|exact S]].
    rewrite !(mild_get e _ k g M). split; [reflexivity|exact S].
  - unfold do_echo. destruct (tl ws) as [|t1 [|t2 [|t3 [|]]]]; try (split; [reflexivity|exact S]). destruct (beq t2 (lit ">")); [|split; [reflexivity|exact S]].
    rewrite (like_denotes _ _ _ S). destruct (denotes w t3) as [g|]; [|split; [reflexivity|exact S]]. destruct (f_set g) as [k|]; [|split; [reflexivity|exact S]].
    unfold do_calls. rewrite (proj1 (proj2 M)). split; [reflexivity|exact S].
  - unfold do_calls. rewrite (proj1 M). split; [reflexivity|exact S].
Qed.

Lemma like_step : forall x a b c, leaves_tree x -> like_world (se_world a) (se_world b) -> same_but_shuffled a b ->
  (ends_line a c = true -> forall f, denotes (se_world a) (hd [] (line_argv x a)) = Some f -> f_exec f <> Some XLs /\ (f_exec f = Some XHelp -> 1 < length (line_argv x a))) ->
  (completes x c = true -> let w := se_world a in let word := last_word (se_line a) in let names := candidates w (here w) word in length names <= 1 \/ common names <> word) ->
  fst (sess_step x a c) = fst (sess_step x b c) /\ same_but_shuffled (snd (sess_step x a c)) (snd (sess_step x b c)) /\
  like_world (se_world (snd (sess_step x a c))) (se_world (snd (sess_step x b c))).
Proof.
  intros x [v h k l] [w h' k' l'] c Lt S (Sd & Td & Sg & Df & Dg & Sc & E1 & E2 & E3) Nl Nt. cbn [se_world se_esc se_line se_read] in *. subst h' k' l'.
  pose proof (Lt (h ++ [c])) as M. cbv zeta in M. change (x_app x (h ++ [c])) with (env_at x (mkSess v h k l) c) in M. fold (mild (env_at x (mkSess v h k l) c)) in M.
  unfold sess_step. change (env_at x (mkSess w h k l) c) with (env_at x (mkSess v h k l) c). set (e := env_at x (mkSess v h k l) c) in *.
  change (ends_line (mkSess w h k l) c) with (ends_line (mkSess v h k l) c). change (line_argv x (mkSess w h k l)) with (line_argv x (mkSess v h k l)).
  set (ws := line_argv x (mkSess v h k l)) in *. cbn [se_world se_esc se_line se_read].
  assert (Fin : forall h k l, same_but_shuffled (mkSess v h k l) (mkSess w h k l)) by (intros; split; [exact Sd|split; [exact Td|split; [exact Sg|split; [exact Df|split; [exact Dg|split; [exact Sc|repeat split]]]]]]).
  destruct (ends_line (mkSess v h k l) c).
  - specialize (Nl eq_refl).
    assert (R : like_reaction (react (x_desc x) e v c ws) (react (x_desc x) e w c ws)).
    { unfold react. destruct ws as [|n r] eqn:Ew; [split; [reflexivity|exact S]|]. rewrite !(mild_hook _ _ _ _ M). cbn [hd] in Nl. cbv zeta.
      rewrite <- (like_denotes _ _ n S). destruct (denotes v n) as [f|]; [|split; [reflexivity|exact S]]. destruct (f_exec f) as [cb|] eqn:Ef; [|split; [reflexivity|exact S]].
      assert (Ncb : cb <> XLs) by (intros ->; exact (proj1 (Nl f eq_refl) Ef)).
      assert (Nhp : cb = XHelp -> 1 < length (n :: r)) by (intros ->; exact (proj2 (Nl f eq_refl) Ef)).
      pose proof (like_exec (x_desc x) e v w c cb f (n :: r) M S Ncb Nhp) as (Q1 & Q2).
      destruct (do_exec (x_desc x) e v c cb f (n :: r)) as [[ev t] v2], (do_exec (x_desc x) e w c cb f (n :: r)) as [[ev' t'] w2]. cbn [fst snd] in *. injection Q1 as <- <-. split; [reflexivity|exact Q2]. }
    destruct (react (x_desc x) e v c ws) as [[ev t] v2], (react (x_desc x) e w c ws) as [[ev' t'] w2]. destruct R as (R1 & R2). cbn [fst snd] in *. injection R1 as <- <-.
    rewrite (like_here _ _ R2). split; [reflexivity|]. split; [|exact R2]. destruct R2 as (_ & _ & B1 & B2 & B3 & (B4 & B5) & B6). split; [exact B1|]. split; [exact B2|]. split; [exact B3|]. split; [exact B4|]. split; [exact B5|]. split; [exact B6|]. repeat split.
  - destruct (completes x c).
    + specialize (Nt eq_refl). cbv zeta in Nt. rewrite <- (like_complete (x_desc x) v w l S Nt). destruct (complete (x_desc x) v l) as [out l2]. cbn [fst snd se_world].
      split; [reflexivity|]. split; [apply Fin|exact S].
    + cbn [fst snd se_world]. rewrite (like_here _ _ S). split; [reflexivity|]. split; [apply Fin|exact S].
Qed.

Lemma like_run : forall x cs a b, leaves_tree x -> like_world (se_world a) (se_world b) -> same_but_shuffled a b -> never_tells x a cs ->
  fst (sess_run x a cs) = fst (sess_run x b cs).
Proof.
  intros x cs. induction cs as [|c r IH]; intros a b Lt S O Nl; [reflexivity|]. cbn [never_tells] in Nl. destruct Nl as (Nl & Nt & Nr).
  destruct (like_step x a b c Lt S O Nl Nt) as (E & O' & S'). cbn [sess_run].
  destruct (sess_step x a c) as [ev a1], (sess_step x b c) as [ev' b1]. cbn [fst snd] in *.
  pose proof (IH a1 b1 Lt S' O' Nr) as E2. destruct (sess_run x a1 r), (sess_run x b1 r). cbn [fst] in *. subst. reflexivity.
Qed.

Lemma C87_proof : forall own1 own2 x a b s t cs, same_but_shuffled a b -> leaves_tree x ->
  shows own1 x a s -> shows own2 x b t -> run_limits own1 x a cs -> run_limits own2 x b cs -> never_tells x a cs ->
  exists n evs, (forall l, n <= both_ready l -> exists s', drive (app_of x) cs l s = Ok ([], s') /\ polling s' /\ lg s' = lg s ++ evs) /\
    (forall m, n <= both_ready m -> exists t', drive (app_of x) cs m t = Ok ([], t') /\ polling t' /\ lg t' = lg t ++ evs).
Proof.
  intros own1 own2 x a b s t cs O Lt Hs Ht Ls Lb Nl.
  assert (S : like_world (se_world a) (se_world b)).
  { destruct Hs as (_ & ((Ov & _) & _) & _), Ht as (_ & ((Ow & _) & _) & _), O as (A & B & C & D & F & G & _). split; [exact Ov|]. split; [exact Ow|]. split; [exact A|]. split; [exact B|]. split; [exact C|]. split; [split; [exact D|exact F]|exact G]. }
  pose proof (like_run x cs a b Lt S O Nl) as E.
  destruct (schedule_done own1 x cs a s s (quiet_by_here _ _ (shows_polling _ _ _ _ Hs)) Hs Ls) as (_ & n1 & s' & B1 & Sh1 & Lg1).
  destruct (schedule_done own2 x cs b t t (quiet_by_here _ _ (shows_polling _ _ _ _ Ht)) Ht Lb) as (_ & n2 & t' & B2 & Sh2 & Lg2).
  exists (n1 + n2), (fst (sess_run x a cs)). split.
  - intros l H. exists s'. split; [apply B1; lia|]. split; [apply (shows_polling _ _ _ _ Sh1)|exact Lg1].
  - intros m H. exists t'. split; [apply B2; lia|]. split; [apply (shows_polling _ _ _ _ Sh2)|rewrite E; exact Lg2].
Qed.
