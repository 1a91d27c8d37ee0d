(** * OrderProofs: proofs of C74. *)
From Coq Require Import Arith Lia Permutation.
From Verif Require Import Shell BaseFacts Spec PathFacts Words Sched Line Editor Tree TreeFacts Cmds Complete CompleteProofs Session SessionProofs Interrupt Forget ForgetProofs Order.

Definition same_world (v w : world) : Prop :=
  fs_ok (w_fs v) /\ fs_ok (w_fs w) /\ same_dirs (w_fs v) (w_fs w) /\ flat_map snd (w_groups v) = flat_map snd (w_groups w) /\ w_cwd v = w_cwd w.

Lemma same_sym : forall f g, same_dirs f g -> same_dirs g f.
Proof. intros f g H p fl. symmetry. apply H. Qed.

Lemma dir_at_some : forall p fs d, dir_at p fs = Some d -> In d fs /\ de_path d = p.
Proof. intros p fs d E. apply find_some in E as (I & E). split; [exact I|]. unfold path_eqb in E. destruct (path_dec (de_path d) p); [assumption|discriminate]. Qed.
Lemma dir_at_in : forall fs d, fs_ok fs -> In d fs -> dir_at (de_path d) fs = Some d.
Proof.
  intros fs d (_ & Nd & _) I. induction fs as [|e r IH]; [destruct I|]. unfold dir_at. cbn [find]. unfold path_eqb at 1. cbn [map] in Nd. apply NoDup_cons_iff in Nd as (Ni & Nd).
  destruct (path_dec (de_path e) (de_path d)) as [E|N].
  - destruct I as [->|I]; [reflexivity|]. destruct Ni. rewrite E. apply in_map. exact I.
  - destruct I as [->|I]; [destruct N; reflexivity|]. exact (IH Nd I).
Qed.
Lemma dir_at_none : forall p fs, dir_at p fs = None -> forall d, In d fs -> de_path d <> p.
Proof. intros p fs E d I Q. pose proof (find_none _ _ E d I) as N. cbv beta in N. unfold path_eqb in N. destruct (path_dec (de_path d) p); [discriminate|auto]. Qed.

Definition entry (d : dirent) : dirpath * list file := (de_path d, de_files d).

Lemma same_at : forall f g p, fs_ok f -> fs_ok g -> same_dirs f g -> option_map entry (dir_at p f) = option_map entry (dir_at p g).
Proof.
  intros f g p Of Og S. destruct (dir_at p f) as [d|] eqn:E.
  - apply dir_at_some in E as (I & <-). destruct (proj1 (S (de_path d) (de_files d)) (ex_intro _ d (conj I (conj eq_refl eq_refl)))) as (e & J & E1 & E2).
    rewrite <- E1, (dir_at_in g e Og J). cbn. unfold entry. rewrite E1, E2. reflexivity.
  - destruct (dir_at p g) as [e|] eqn:F; [|reflexivity]. apply dir_at_some in F as (J & <-).
    destruct (proj2 (S (de_path e) (de_files e)) (ex_intro _ e (conj J (conj eq_refl eq_refl)))) as (d & I & E1 & _). destruct (dir_at_none _ _ E d I E1).
Qed.

Lemma named_in : forall t fs d, dir_named t fs = Some d -> In d fs /\ (t = [] /\ de_path d = [] \/ t <> [] /\ show (de_path d) = t).
Proof.
  intros [|c t] fs d E.
  - apply dir_at_some in E as (I & E). auto.
  - apply find_some in E as (I & E). apply beq_true in E. split; [exact I|]. right. split; [discriminate|exact E].
Qed.
Lemma named_of : forall fs d, fs_ok fs -> In d fs -> dir_named (show (de_path d)) fs <> None.
Proof.
  intros fs d Ok I. destruct (show (de_path d)) as [|c t] eqn:E.
  - destruct (de_path d); discriminate E.
  - cbn [dir_named]. intros N. pose proof (find_none _ _ N d I) as F. cbv beta in F. rewrite E, beq_refl in F. discriminate.
Qed.

Lemma same_named : forall f g t, fs_ok f -> fs_ok g -> same_dirs f g -> option_map entry (dir_named t f) = option_map entry (dir_named t g).
Proof.
  intros f g t Of Og S.
  assert (One : forall f g, fs_ok f -> fs_ok g -> same_dirs f g -> forall d, dir_named t f = Some d -> option_map entry (dir_named t g) = Some (entry d)).
  { clear f g Of Og S. intros f g Of Og S d E. destruct (named_in t f d E) as (I & K).
    destruct (proj1 (S (de_path d) (de_files d)) (ex_intro _ d (conj I (conj eq_refl eq_refl)))) as (e & J & E1 & E2).
    assert (Ent : entry e = entry d) by (unfold entry; rewrite E1, E2; reflexivity).
    destruct K as [(-> & Ep)|(Nt & Et)].
    - change (dir_named [] g) with (dir_at [] g). rewrite <- Ep, <- E1, (dir_at_in g e Og J). cbn. rewrite Ent. reflexivity.
    - destruct (dir_named t g) as [e'|] eqn:F.
      + destruct (named_in t g e' F) as (J' & [(Q & _)|(_ & Et')]); [destruct (Nt Q)|].
        assert (Ep : de_path e' = de_path e).
        { apply show_inj; [| |rewrite E1; congruence]; destruct Og as (P & _); rewrite Forall_forall in P; apply P; assumption. }
        pose proof (dir_at_in g e Og J) as A1. pose proof (dir_at_in g e' Og J') as A2. rewrite Ep, A1 in A2. injection A2 as <-. cbn. rewrite Ent. reflexivity.
      + rewrite <- Et, <- E1 in F. destruct (named_of g e Og J F). }
  destruct (dir_named t f) as [d|] eqn:E; [symmetry; exact (One f g Of Og S d E)|].
  destruct (dir_named t g) as [e|] eqn:F; [|reflexivity]. pose proof (One g f Og Of (same_sym _ _ S) e F) as Q. rewrite E in Q. discriminate.
Qed.

Lemma same_here : forall v w, same_world v w -> here v = here w.
Proof. intros v w (_ & _ & _ & _ & E). unfold here. rewrite E. reflexivity. Qed.

Lemma same_denotes : forall v w n, same_world v w -> denotes v n = denotes w n.
Proof.
  intros v w n S. unfold denotes, find_file. rewrite (same_here _ _ S). destruct S as (Ov & Ow & S & Eg & _). rewrite Eg.
  destruct (file_named n (flat_map snd (w_groups w))); [reflexivity|]. destruct (resolve_text (here w) n) as [|c p]; [reflexivity|].
  pose proof (same_at _ _ (removelast (c :: p)) Ov Ow S) as E. destruct (dir_at (removelast (c :: p)) (w_fs v)), (dir_at (removelast (c :: p)) (w_fs w)); cbn [option_map] in E; try discriminate; [|reflexivity].
  unfold entry in E. injection E as _ E. rewrite E. reflexivity.
Qed.

Lemma same_unreadable : forall v w ns, same_world v w -> first_unreadable v ns = first_unreadable w ns.
Proof. intros v w ns S. induction ns as [|n r IH]; [reflexivity|]. cbn [first_unreadable]. unfold unreadable. rewrite (same_denotes _ _ n S), IH. reflexivity. Qed.
Lemma same_reads : forall e v w ns, mild e -> same_world v w -> fst (read_all e v ns) = fst (read_all e w ns).
Proof.
  intros e v w ns M S. induction ns as [|n r IH]; [reflexivity|]. cbn [read_all]. rewrite (same_denotes _ _ n S). destruct (denotes w n) as [f|]; [|reflexivity]. destruct (f_get f) as [k|]; [|reflexivity].
  rewrite !(mild_get e _ k f M). destruct (read_all e v r), (read_all e w r). cbn [fst] in *. rewrite IH. reflexivity.
Qed.

(** *** Completion *)
Lemma perm_filter : forall {A} (f : A -> bool) l m, Permutation l m -> Permutation (filter f l) (filter f m).
Proof.
  intros A f l m P. induction P as [|x l m P IH|x y l|l m n P IH Q IH2]; cbn [filter].
  - constructor.
  - destruct (f x); [constructor|]; exact IH.
  - destruct (f x), (f y); try apply Permutation_refl. apply perm_swap.
  - exact (Permutation_trans IH IH2).
Qed.
Lemma sub_paths : forall p fs, map dir_name (children p fs) = map (fun q => last q []) (filter (below p) (map de_path fs)).
Proof. intros p fs. unfold children. induction fs as [|d r IH]; [reflexivity|]. cbn [map filter]. destruct (below p (de_path d)); cbn [map]; rewrite IH; reflexivity. Qed.
Lemma same_paths : forall f g, fs_ok f -> fs_ok g -> same_dirs f g -> Permutation (map de_path f) (map de_path g).
Proof.
  intros f g (_ & Nf & _) (_ & Ng & _) S. apply NoDup_Permutation; [exact Nf|exact Ng|].
  assert (One : forall f g, same_dirs f g -> forall q, In q (map de_path f) -> In q (map de_path g)).
  { clear. intros f g S q I. apply in_map_iff in I as (d & <- & I). destruct (proj1 (S (de_path d) (de_files d)) (ex_intro _ d (conj I (conj eq_refl eq_refl)))) as (e & J & E1 & _).
    rewrite <- E1. apply in_map. exact J. }
  intros q. split; [apply One; exact S|apply One, same_sym, S].
Qed.
Lemma same_names : forall v w p x, same_world v w -> Permutation (candidates v p x) (candidates w p x).
Proof.
  intros v w p x (Ov & Ow & S & Eg & _). apply perm_filter. unfold names_in. rewrite Eg. apply Permutation_app_head.
  pose proof (same_at _ _ p Ov Ow S) as E.
  replace (match dir_at p (w_fs v) with Some d => de_files d | None => [] end) with (match dir_at p (w_fs w) with Some d => de_files d | None => [] end).
  - apply Permutation_app_head. rewrite !sub_paths. apply Permutation_map, perm_filter, same_paths; assumption.
  - destruct (dir_at p (w_fs v)), (dir_at p (w_fs w)); cbn [option_map] in E; try discriminate; [|reflexivity]. unfold entry in E. injection E as _ E. symmetry. exact E.
Qed.
Lemma prefix_anti : forall a b, prefixb a b = true -> prefixb b a = true -> a = b.
Proof.
  intros a b P Q. apply prefixb_spec in P as (z & ->). apply prefixb_spec in Q as (y & E). rewrite <- app_assoc in E.
  rewrite <- (app_nil_r a) in E at 1. apply app_inv_head in E. symmetry in E. apply app_eq_nil in E as (-> & _). symmetry. apply app_nil_r.
Qed.
Lemma common_perm : forall l m, Permutation l m -> common l = common m.
Proof.
  intros l m P. destruct l as [|a l]; [apply Permutation_nil in P as ->; reflexivity|].
  assert (Nm : m <> []) by (intros ->; apply Permutation_sym, Permutation_nil in P; discriminate).
  apply prefix_anti; apply common_greatest; try exact Nm; try discriminate; intros n I; apply common_prefix.
  - exact (Permutation_in n (Permutation_sym P) I).
  - exact (Permutation_in n P I).
Qed.
Lemma same_complete : forall d v w l, same_world v w ->
  (let names := candidates v (here v) (last_word l) in length names <= 1 \/ common names <> last_word l) -> complete d v l = complete d w l.
Proof.
  intros d v w l S K. unfold complete. rewrite (same_here _ _ S) in *. cbv zeta in *. pose proof (same_names v w (here w) (last_word l) S) as P. pose proof (common_perm _ _ P) as E.
  destruct (candidates v (here w) (last_word l)) as [|n1 [|n2 r]].
  - apply Permutation_nil in P as ->. reflexivity.
  - apply Permutation_length_1_inv in P as ->. reflexivity.
  - destruct K as [K|K]; [cbn in K; lia|]. pose proof (Permutation_length P) as Ln. destruct (candidates w (here w) (last_word l)) as [|m1 [|m2 q]]; try discriminate Ln.
    rewrite <- E. destruct (beq (common (n1 :: n2 :: r)) (last_word l)) eqn:B; [apply beq_true in B; destruct (K B)|reflexivity].
Qed.

(** Alike reactions. *)
Definition same_reaction (r q : reaction) : Prop := fst r = fst q /\ same_world (snd r) (snd q).

Lemma same_exec : forall d e v w c cb f ws, mild e -> same_world v w -> cb <> XLs -> same_reaction (do_exec d e v c cb f ws) (do_exec d e w c cb f ws).
Proof.
  intros d e v w c cb f ws M S Nl. unfold do_exec. destruct (accepts cb (length ws)); [|split; [reflexivity|exact S]].
  destruct cb.
  - split; [|exact S]. unfold do_help. cbn [prints_only fst]. destruct (tl ws) as [|n r]; [|rewrite (same_denotes _ _ n S); reflexivity].
    destruct S as (_ & _ & _ & -> & _). reflexivity.
  - destruct (Nl eq_refl).
  - unfold do_cd. cbv zeta. destruct (nth 1 ws []) as [|b t]; [split; [reflexivity|exact S]|]. rewrite (same_here _ _ S).
    pose proof S as (Ov & Ow & Sd & Eg & Ec). set (p := show (resolve_text (here w) (b :: t))). pose proof (same_named _ _ p Ov Ow Sd) as E.
    destruct (dir_named p (w_fs v)) as [dd|], (dir_named p (w_fs w)) as [dd'|]; cbn [option_map] in E; try discriminate; [|split; [reflexivity|exact S]].
    unfold entry in E. injection E as E _. split; [reflexivity|]. cbn [snd]. split; [exact Ov|]. split; [exact Ow|]. split; [exact Sd|]. split; [exact Eg|]. cbn [w_cwd]. rewrite E. reflexivity.
  - split; [|exact S]. rewrite (same_here _ _ S). reflexivity.
  - unfold do_cat. rewrite (same_unreadable _ _ _ S). destruct (first_unreadable w (tl ws)); [split; [reflexivity|exact S]|].
    pose proof (same_reads e v w (tl ws) M S) as E. pose proof (mild_all e v (tl ws) M) as E1. pose proof (mild_all e w (tl ws) M) as E2.
    destruct (read_all e v (tl ws)), (read_all e w (tl ws)). cbn [fst snd] in *. subst. split; [reflexivity|exact S].
  - unfold do_xxd. rewrite (same_denotes _ _ _ S). destruct (denotes w (nth 1 ws [])) as [g|]; [|split; [reflexivity|exact S]]. destruct (f_get g) as [k|]; [|split; [reflexivity|exact S]].
    rewrite !(mild_get e _ k g M). split; [reflexivity|exact S].
  - unfold do_echo. destruct (tl ws) as [|t1 [|t2 [|t3 [|]]]]; try (split; [reflexivity|exact S]). destruct (beq t2 (lit ">")); [|split; [reflexivity|exact S]].
    rewrite (same_denotes _ _ _ S). destruct (denotes w t3) as [g|]; [|split; [reflexivity|exact S]]. destruct (f_set g) as [k|]; [|split; [reflexivity|exact S]].
    unfold do_calls. rewrite (proj1 (proj2 M)). split; [reflexivity|exact S].
  - unfold do_calls. rewrite (proj1 M). split; [reflexivity|exact S].
Qed.

Lemma same_step : forall x a b c, leaves_tree x -> same_world (se_world a) (se_world b) -> same_but_order a b ->
  (ends_line a c = true -> forall f, denotes (se_world a) (hd [] (line_argv x a)) = Some f -> f_exec f <> Some XLs) ->
  (completes x c = true -> let w := se_world a in let word := last_word (se_line a) in let names := candidates w (here w) word in length names <= 1 \/ common names <> word) ->
  fst (sess_step x a c) = fst (sess_step x b c) /\ same_but_order (snd (sess_step x a c)) (snd (sess_step x b c)) /\
  same_world (se_world (snd (sess_step x a c))) (se_world (snd (sess_step x b c))).
Proof.
  intros x [v h k l] [w h' k' l'] c Lt S (Sd & Sg & Sc & E1 & E2 & E3) Nl Nt. cbn [se_world se_esc se_line se_read] in *. subst h' k' l'.
  pose proof (Lt (h ++ [c])) as M. cbv zeta in M. change (x_app x (h ++ [c])) with (env_at x (mkSess v h k l) c) in M. fold (mild (env_at x (mkSess v h k l) c)) in M.
  unfold sess_step. change (env_at x (mkSess w h k l) c) with (env_at x (mkSess v h k l) c). set (e := env_at x (mkSess v h k l) c) in *.
  change (ends_line (mkSess w h k l) c) with (ends_line (mkSess v h k l) c). change (line_argv x (mkSess w h k l)) with (line_argv x (mkSess v h k l)).
  set (ws := line_argv x (mkSess v h k l)) in *. cbn [se_world se_esc se_line se_read].
  assert (Fin : forall h k l, same_but_order (mkSess v h k l) (mkSess w h k l)) by (intros; repeat split; auto; apply Sd).
  destruct (ends_line (mkSess v h k l) c).
  - specialize (Nl eq_refl).
    assert (R : same_reaction (react (x_desc x) e v c ws) (react (x_desc x) e w c ws)).
    { unfold react. destruct ws as [|n r] eqn:Ew; [split; [reflexivity|exact S]|]. rewrite !(mild_hook _ _ _ _ M). cbn [hd] in Nl. cbv zeta.
      rewrite <- (same_denotes _ _ n S). destruct (denotes v n) as [f|]; [|split; [reflexivity|exact S]]. destruct (f_exec f) as [cb|] eqn:Ef; [|split; [reflexivity|exact S]].
      assert (Ncb : cb <> XLs) by (intros ->; exact (Nl f eq_refl Ef)).
      pose proof (same_exec (x_desc x) e v w c cb f (n :: r) M S Ncb) as (Q1 & Q2).
      destruct (do_exec (x_desc x) e v c cb f (n :: r)) as [[ev t] v2], (do_exec (x_desc x) e w c cb f (n :: r)) as [[ev' t'] w2]. cbn [fst snd] in *. injection Q1 as <- <-. split; [reflexivity|exact Q2]. }
    destruct (react (x_desc x) e v c ws) as [[ev t] v2], (react (x_desc x) e w c ws) as [[ev' t'] w2]. destruct R as (R1 & R2). cbn [fst snd] in *. injection R1 as <- <-.
    rewrite (same_here _ _ R2). split; [reflexivity|]. split; [|exact R2]. destruct R2 as (_ & _ & B1 & B2 & B3). split; [exact B1|]. split; [exact B2|]. split; [exact B3|]. repeat split.
  - destruct (completes x c).
    + specialize (Nt eq_refl). cbv zeta in Nt. rewrite <- (same_complete (x_desc x) v w l S Nt). destruct (complete (x_desc x) v l) as [out l2]. cbn [fst snd se_world].
      split; [reflexivity|]. split; [apply Fin|exact S].
    + cbn [fst snd se_world]. rewrite (same_here _ _ S). split; [reflexivity|]. split; [apply Fin|exact S].
Qed.

Lemma same_run : forall x cs a b, leaves_tree x -> same_world (se_world a) (se_world b) -> same_but_order a b -> never_lists x a cs ->
  fst (sess_run x a cs) = fst (sess_run x b cs).
Proof.
  intros x cs. induction cs as [|c r IH]; intros a b Lt S O Nl; [reflexivity|]. cbn [never_lists] in Nl. destruct Nl as (Nl & Nt & Nr).
  destruct (same_step x a b c Lt S O Nl Nt) as (E & O' & S'). cbn [sess_run].
  destruct (sess_step x a c) as [ev a1], (sess_step x b c) as [ev' b1]. cbn [fst snd] in *.
  pose proof (IH a1 b1 Lt S' O' Nr) as E2. destruct (sess_run x a1 r), (sess_run x b1 r). cbn [fst] in *. subst. reflexivity.
Qed.

Lemma C74_order_proof : forall own1 own2 x a b s t cs, same_but_order a b -> leaves_tree x ->
  shows own1 x a s -> shows own2 x b t -> run_limits own1 x a cs -> run_limits own2 x b cs -> never_lists x a cs ->
  exists n evs, (forall l, n <= both_ready l -> exists s', drive (app_of x) cs l s = Ok ([], s') /\ polling s' /\ lg s' = lg s ++ evs) /\
    (forall m, n <= both_ready m -> exists t', drive (app_of x) cs m t = Ok ([], t') /\ polling t' /\ lg t' = lg t ++ evs).
Proof.
  intros own1 own2 x a b s t cs O Lt Hs Ht Ls Lb Nl.
  assert (S : same_world (se_world a) (se_world b)).
  { destruct Hs as (_ & ((Ov & _) & _) & _), Ht as (_ & ((Ow & _) & _) & _), O as (A & B & C & _). split; [exact Ov|]. split; [exact Ow|]. split; [exact A|]. split; [exact B|exact C]. }
  pose proof (same_run x cs a b Lt S O Nl) as E.
  destruct (schedule_done own1 x cs a s s (quiet_by_here _ _ (shows_polling _ _ _ _ Hs)) Hs Ls) as (_ & n1 & s' & B1 & Sh1 & Lg1).
  destruct (schedule_done own2 x cs b t t (quiet_by_here _ _ (shows_polling _ _ _ _ Ht)) Ht Lb) as (_ & n2 & t' & B2 & Sh2 & Lg2).
  exists (n1 + n2), (fst (sess_run x a cs)). split.
  - intros l H. exists s'. split; [apply B1; lia|]. split; [apply (shows_polling _ _ _ _ Sh1)|exact Lg1].
  - intros m H. exists t'. split; [apply B2; lia|]. split; [apply (shows_polling _ _ _ _ Sh2)|rewrite E; exact Lg2].
Qed.
