(** * UndoProofs: proofs of C77. *)
From Coq Require Import Arith Lia.
From Verif Require Import Shell BaseFacts Spec PathFacts Words Sched Line Editor Tree TreeFacts TreeOps Cmds Complete Session SessionProofs Forget ForgetProofs Order OrderProofs Undo.

Lemma remove_other : forall p fs, dir_at p fs = None -> fs_remove p fs = fs.
Proof.
  intros p fs N. unfold fs_remove. pose proof (dir_at_none p fs N) as H. clear N. induction fs as [|d r IH]; [reflexivity|]. cbn [filter].
  rewrite (proj2 (path_eqb_false (de_path d) p) (H d (or_introl eq_refl))). cbn [negb]. rewrite IH; [reflexivity|]. intros e I. apply H. right. exact I.
Qed.

Lemma below_spec : forall p q, below p q = true -> q <> [] /\ removelast q = p.
Proof. intros p q H. destruct q as [|c q]; [discriminate H|]. split; [discriminate|]. unfold below in H. apply path_eqb_true in H. auto. Qed.

Lemma no_children : forall p fs, fs_ok fs -> dir_at p fs = None -> children p fs = [].
Proof.
  intros p fs (_ & _ & _ & Par) N. unfold children. destruct (filter _ fs) as [|d r] eqn:E; [reflexivity|].
  assert (I : In d (filter (fun d => below p (de_path d)) fs)) by (rewrite E; left; reflexivity). apply filter_In in I as (I & B).
  apply below_spec in B as (Ne & B). pose proof (Par d I Ne) as J. rewrite B in J. apply in_map_iff in J as (e & Ee & Ie). destruct (dir_at_none p fs N e Ie Ee).
Qed.

Lemma below_self : forall p, below p p = false.
Proof.
  intros p. destruct (below p p) eqn:B; [|reflexivity]. apply below_spec in B as (Ne & B). pose proof (app_removelast_last [] Ne) as E. rewrite B in E.
  apply (f_equal (@length _)) in E. rewrite app_length in E. cbn in E. lia.
Qed.

(** The abstract call is undone, in any current directory but the one mounted. *)
Lemma undo_world : forall pm own w o o' c, fs_ok (w_fs w) -> dir_at [] (w_fs w) <> None -> allowed pm own w o -> takes_back o o' -> fst (spec_op o w) = ST_OK -> outside o c ->
  let w1 := snd (spec_op o w) in w_cwd w1 = w_cwd w /\ spec_op o' (mkWorld (w_fs w1) (w_groups w1) c) = (ST_OK, mkWorld (w_fs w) (w_groups w) c).
Proof.
  intros pm own w o o' c Of Rt Al Tb Ok1 Out. destruct o as [p id fl|t|id fl|id|t]; destruct o' as [p' id' fl'|t'|id' fl'|id'|t']; try (exfalso; exact Tb).
  - (* mount *)
    cbn [takes_back] in *. subst t'. destruct Al as (Kp & _). cbn [spec_op] in *. unfold fs_mount in *.
    destruct (dir_at p (w_fs w)) as [z|] eqn:D; [discriminate Ok1|]. destruct p as [|e p]; [congruence|].
    destruct (dir_at (removelast (e :: p)) (w_fs w)) as [z|] eqn:D2; [|discriminate Ok1].
    cbv beta zeta iota. cbn [fst snd w_fs w_groups w_cwd is_status_ok]. split; [reflexivity|].
    assert (Fo : Forall (fun d => path_ok (de_path d)) (mkDir (e :: p) id fl :: w_fs w)) by (constructor; [exact Kp|exact (proj1 Of)]).
    rewrite (dir_named_show _ _ Fo Kp). set (q := e :: p) in *.
    assert (Da : dir_at q (mkDir q id fl :: w_fs w) = Some (mkDir q id fl)) by (unfold dir_at; cbn [find de_path]; rewrite path_eqb_refl; reflexivity).
    rewrite Da. cbn [de_path]. unfold fs_unmount. rewrite Da.
    assert (Ch : children q (mkDir q id fl :: w_fs w) = []) by (unfold children; cbn [filter de_path]; rewrite below_self; exact (no_children q _ Of D)).
    rewrite Ch. assert (Rm : fs_remove q (mkDir q id fl :: w_fs w) = w_fs w) by (unfold fs_remove; cbn [filter de_path]; rewrite path_eqb_refl; exact (remove_other q _ D)).
    rewrite Rm. cbn [is_status_ok andb]. destruct c as [cp|]; [|reflexivity]. cbn [outside] in Out.
    rewrite (proj2 (path_eqb_false cp q)); [reflexivity|]. intros ->. apply Out. reflexivity.
  - (* add *)
    cbn [takes_back] in Tb. subst id'. cbn [spec_op fst snd w_fs w_groups w_cwd map].
    split; [reflexivity|]. destruct Al as (_ & _ & Nu). destruct (in_dec Nat.eq_dec id (id :: map fst (w_groups w))) as [_|N]; [|destruct N; left; reflexivity].
    assert (E : group_remove id ((id, fl) :: w_groups w) = w_groups w).
    { apply (group_remove_eq id [] (w_groups w) fl); [intros []|]. intros I. apply Nu. right. exact I. }
    rewrite E. reflexivity.
Qed.

Lemma root_there : forall own x a s, shows own x a s -> fs_ok (w_fs (se_world a)) /\ dir_at [] (w_fs (se_world a)) <> None.
Proof.
  intros own x a s (_ & K & Nc & _). destruct K as ((Of & _) & _ & _ & _ & _ & C). split; [exact Of|].
  destruct (w_cwd (se_world a)) as [p|]; [|congruence]. destruct C as (d & D & _). clear Nc.
  assert (G : forall n d, length (de_path d) <= n -> In d (w_fs (se_world a)) -> dir_at [] (w_fs (se_world a)) <> None).
  { intros n. induction n as [|n IH]; intros e L I.
    - intros N. apply (dir_at_none [] _ N e I). destruct (de_path e); [reflexivity|cbn in L; lia].
    - destruct (de_path e) as [|h t] eqn:E; [intros N; exact (dir_at_none [] _ N e I E)|].
      pose proof (proj2 (proj2 (proj2 Of)) e I) as P. rewrite E in P. specialize (P ltac:(discriminate)). apply in_map_iff in P as (f & Ef & If).
      apply (IH f); [|exact If]. rewrite Ef. pose proof (app_removelast_last (l := h :: t) [] ltac:(discriminate)) as Q. apply (f_equal (@length _)) in Q. rewrite app_length in Q. cbn [length] in Q, L. cbn [length] in *. lia. }
  apply dir_at_some in D as (I & _). exact (G _ d (le_n _) I).
Qed.

(** The call that takes back is within the limits. *)
Lemma undo_allowed : forall pm own w w' o o', allowed pm own w o -> takes_back o o' -> allowed pm own w' o'.
Proof.
  intros pm own w w' o o' Al Tb. destruct o as [p id fl|t|id fl|id|t]; destruct o' as [p' id' fl'|t'|id' fl'|id'|t']; try (exfalso; exact Tb); [|exact I].
  cbn [takes_back allowed] in *. subst. destruct Al as (K & L & _). split; [|exact L]. exact (show_no_nul p K).
Qed.

Lemma call_gives : forall own x a s o s1, shows own x a s -> allowed (d_pathmax (x_desc x)) own (se_world a) o -> (exists o', takes_back o o') -> do_op o s = Ok (ST_OK, s1) ->
  fst (spec_op o (se_world a)) = ST_OK /\ shows own x (called_in o a) s1 /\ lg s1 = lg s.
Proof.
  intros own x a s o s1 Hs Al (o' & Tb) D.
  assert (Nc : w_cwd (snd (spec_op o (se_world a))) <> None).
  { destruct (root_there _ _ _ _ Hs) as (_ & Rt). destruct Hs as (_ & _ & Nc & _). destruct o; destruct o'; try (exfalso; exact Tb); cbn [spec_op]; [|exact Nc].
    unfold fs_mount. destruct (dir_at p (w_fs (se_world a))) eqn:Dp; [destruct p; exact Nc|]. destruct p as [|e p]; [congruence|].
    destruct (dir_at (removelast (e :: p)) (w_fs (se_world a))); exact Nc. }
  destruct (C49_call_proof own x a s o Hs Al Nc) as (s' & D' & Sh & Lg). rewrite D in D'. injection D' as E1 E2. subst s'. auto.
Qed.

Lemma here_outside : forall own x a s o, shows own x a s -> fst (spec_op o (se_world a)) = ST_OK -> outside o (w_cwd (se_world a)).
Proof.
  intros own x a s o Hs E. destruct o as [p id fl| | | |]; try exact I. cbn [outside]. intros C. destruct Hs as (_ & (_ & _ & _ & _ & _ & K) & _). rewrite C in K. destruct K as (d & D & _).
  cbn [spec_op] in E. unfold fs_mount in E. rewrite D in E. discriminate E.
Qed.

Lemma C77_for_a_while_proof : forall own x a s o o' s1 cs, takes_back o o' -> leaves_tree x -> shows own x a s -> allowed (d_pathmax (x_desc x)) own (se_world a) o ->
  do_op o s = Ok (ST_OK, s1) -> run_limits own x (called_in o a) cs ->
  let b := snd (sess_run x (called_in o a) cs) in outside o (w_cwd (se_world b)) ->
  exists n, forall l, n <= both_ready l -> exists s2 s3,
    drive (app_of x) cs l s1 = Ok ([], s2) /\ polling s2 /\ do_op o' s2 = Ok (ST_OK, s3) /\ lg s3 = lg s2 /\ shows own x (tree_of a b) s3.
Proof.
  intros own x a s o o' s1 cs Tb Lt Hs Al D Li b Out.
  destruct (call_gives own x a s o s1 Hs Al (ex_intro _ o' Tb) D) as (E & Sh1 & Lg1).
  destruct (schedule_done own x cs (called_in o a) s1 s1 (quiet_by_here _ _ (shows_polling _ _ _ _ Sh1)) Sh1 Li) as (_ & n & s2 & B & Sh2 & Lg2).
  fold b in Sh2. exists n. intros l Hl. exists s2.
  destruct (root_there _ _ _ _ Hs) as (Of & Rt).
  destruct (undo_world _ own (se_world a) o o' (w_cwd (se_world b)) Of Rt Al Tb E Out) as (_ & U).
  pose proof (mild_run x cs (called_in o a) Lt) as (A1 & A2 & _). cbv zeta in A1, A2. fold b in A1, A2. cbn [called_in se_world] in A1, A2.
  assert (Wb : se_world b = mkWorld (w_fs (snd (spec_op o (se_world a)))) (w_groups (snd (spec_op o (se_world a)))) (w_cwd (se_world b))).
  { rewrite <- A1, <- A2. destruct (se_world b). reflexivity. }
  rewrite <- Wb in U.
  assert (Nc : w_cwd (snd (spec_op o' (se_world b))) <> None) by (rewrite U; exact (proj1 (proj2 (proj2 Sh2)))).
  destruct (C49_call_proof own x b s2 o' Sh2 (undo_allowed _ _ _ _ _ _ Al Tb) Nc) as (s3 & D3 & Sh3 & Lg3). rewrite U in D3, Sh3. cbn [fst snd] in D3, Sh3.
  exists s3. split; [exact (B l Hl)|]. split; [exact (shows_polling _ _ _ _ Sh2)|]. split; [exact D3|]. split; [exact Lg3|exact Sh3].
Qed.

Lemma C77_at_once_proof : forall own x a s o o' s1, takes_back o o' -> shows own x a s -> allowed (d_pathmax (x_desc x)) own (se_world a) o ->
  do_op o s = Ok (ST_OK, s1) -> exists s2, do_op o' s1 = Ok (ST_OK, s2) /\ shows own x a s2 /\ lg s2 = lg s.
Proof.
  intros own x a s o o' s1 Tb Hs Al D.
  destruct (call_gives own x a s o s1 Hs Al (ex_intro _ o' Tb) D) as (E & Sh1 & Lg1).
  destruct (root_there _ _ _ _ Hs) as (Of & Rt).
  destruct (undo_world _ own (se_world a) o o' (w_cwd (se_world a)) Of Rt Al Tb E (here_outside _ _ _ _ _ Hs E)) as (Wc & U).
  rewrite <- Wc in U at 1.
  assert (W : forall w, mkWorld (w_fs w) (w_groups w) (w_cwd w) = w) by (intros []; reflexivity). rewrite !W in U.
  change (snd (spec_op o (se_world a))) with (se_world (called_in o a)) in U.
  assert (Nc : w_cwd (snd (spec_op o' (se_world (called_in o a)))) <> None) by (rewrite U; exact (proj1 (proj2 (proj2 Hs)))).
  destruct (C49_call_proof own x (called_in o a) s1 o' Sh1 (undo_allowed _ _ _ _ _ _ Al Tb) Nc) as (s2 & D2 & Sh2 & Lg2). rewrite U in D2, Sh2. cbn [fst snd called_in se_read se_esc se_line] in D2, Sh2.
  exists s2. split; [exact D2|]. split; [destruct a; exact Sh2|congruence].
Qed.

Lemma C77_no_trace_proof : forall own x a s o o' s1 cs, takes_back o o' -> shows own x a s -> allowed (d_pathmax (x_desc x)) own (se_world a) o ->
  do_op o s = Ok (ST_OK, s1) -> run_limits own x a cs ->
  exists s2 n evs, do_op o' s1 = Ok (ST_OK, s2) /\ lg s2 = lg s /\ forall l m, n <= both_ready l -> n <= both_ready m -> exists s3 s4,
    drive (app_of x) cs l s = Ok ([], s3) /\ polling s3 /\ lg s3 = lg s ++ evs /\
    drive (app_of x) cs m s2 = Ok ([], s4) /\ polling s4 /\ lg s4 = lg s ++ evs.
Proof.
  intros own x a s o o' s1 cs Tb Hs Al D Li. destruct (C77_at_once_proof own x a s o o' s1 Tb Hs Al D) as (s2 & D2 & Sh2 & Lg2).
  destruct (C69_forgets_proof own x a a s s2 cs (conj eq_refl (conj eq_refl eq_refl)) (fun _ => eq_refl) Hs Sh2 Li) as (_ & n & evs & A & B).
  exists s2, n, evs. split; [exact D2|]. split; [exact Lg2|]. intros l m Hl Hm. destruct (A l Hl) as (s3 & A1 & A2 & A3), (B m Hm) as (s4 & B1 & B2 & B3).
  exists s3, s4. rewrite Lg2 in B3. auto 10.
Qed.
