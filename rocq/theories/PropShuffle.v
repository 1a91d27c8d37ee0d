(** * Property C87: the order of files and commands shows in listings only.

    Vocabulary: [same_but_shuffled], [never_tells] in Shuffle.v; [leaves_tree] in Forget.v; [shows],
    [run_limits] in Session.v; [drive], [both_ready], [polling] in Sched.v. *)
From Coq Require Import Arith Lia Permutation.
From Verif Require Import Shell BaseFacts Words Sched Line Editor Spec Tree Cmds Complete Session SessionProofs Forget Shuffle ShuffleProofs Demo PropTree PropSession PropForget.

(** C87: two shells with the same directories, files and commands, whatever the order of the
    directories, of the files in a directory and of the commands, do exactly the same on any input,
    unless they list names: ls, help without a name, or TAB when several names fit and nothing can
    be added.  No two commands and no two files of a directory have the same name. *)
Theorem C87_shuffled : forall own1 own2 x a b s t cs, same_but_shuffled a b -> leaves_tree x ->
  shows own1 x a s -> shows own2 x b t -> run_limits own1 x a cs -> run_limits own2 x b cs -> never_tells x a cs ->
  exists n evs, (forall l, n <= both_ready l -> exists s', drive (app_of x) cs l s = Ok ([], s') /\ polling s' /\ lg s' = lg s ++ evs) /\
    (forall m, n <= both_ready m -> exists t', drive (app_of x) cs m t = Ok ([], t') /\ polling t' /\ lg t' = lg t ++ evs).
Proof. exact C87_proof. Qed.
Print Assumptions C87_shuffled.

(** Two shells: "/dev" before "/bin", and "/bin" before "/dev" with its files swapped. *)
Definition swap_mounts (o : bool) : list op :=
  OpApi (AMount (lit "/") 1 [f_run]) ::
  if o then [OpApi (AMount (lit "/dev") 2 [f_time; f_log]); OpApi (AMount (lit "/bin") 3 [f_run])]
  else [OpApi (AMount (lit "/bin") 2 [f_run]); OpApi (AMount (lit "/dev") 3 [f_log; f_time])].
Definition swap_booted (o : bool) : res st := s <- ush_init demo_desc (repeat NUL 32) (repeat NUL 64) demo_blank ;; s <- run (swap_mounts o) s ;; run (demo_ticks 60) s.
Definition swap1 : st := Eval vm_compute in from (swap_booted true).
Definition swap2 : st := Eval vm_compute in from (swap_booted false).
Definition swap (o : bool) : st := if o then swap1 else swap2.
Definition swap_world (o : bool) : world :=
  mkWorld (if o then [mkDir [lit "bin"] 3 [f_run]; mkDir [lit "dev"] 2 [f_time; f_log]; mkDir [] 1 [f_run]]
           else [mkDir [lit "dev"] 3 [f_log; f_time]; mkDir [lit "bin"] 2 [f_run]; mkDir [] 1 [f_run]])
          [(0, buildin_commands cfg_posix)] (Some []).
Definition swap_sess (o : bool) : sess := mkSess (swap_world o) [] 0 [].

Ltac swap_in := repeat match goal with
  | H : In _ _ |- _ => progress cbn [map In de_node de_path fst swap_world w_fs w_groups demo_own] in H
  | H : _ \/ _ |- _ => destruct H
  | H : False |- _ => destruct H
  | H : _ = ?x |- _ => is_var x; subst x
  end.

Lemma swap_knows : forall o, knows demo_own (swap o) (swap_world o).
Proof.
  intros [|]; (split; [|split; [|split; [|split; [|split]]]]).
  1, 7: split; [split; [|split; [|split]]|split];
    [repeat constructor; try discriminate; cbn; intuition discriminate|repeat constructor; cbn; intuition discriminate|repeat constructor; cbn; intuition discriminate
    |intros d I N; swap_in; cbn; auto; congruence
    |intros d I; swap_in; eexists; (split; [reflexivity|]); repeat split; try reflexivity; cbn; repeat (eexists; split; [reflexivity|]); repeat split; repeat (eexists; split; [reflexivity|]); try reflexivity; repeat split
    |cbn; split; [reflexivity|]; eexists; split; reflexivity].
  1, 6: split; [repeat constructor; cbn; intuition|split; [cbn; split; [reflexivity|]; eexists; split; reflexivity|]]; intros i fl I; cbn in I; destruct I as [E|[]]; injection E as <- <-; eexists; split; reflexivity.
  1, 5: intros i I J; swap_in; discriminate.
  1, 4: intros i [I|I]; swap_in; cbn; tauto.
  1, 3: intros i I; swap_in; eexists; (split; [reflexivity|]); intros N; cbn in N |- *; try reflexivity; tauto.
  all: cbn; eexists; split; reflexivity.
Qed.

Lemma swap_shows : forall o, shows demo_own demo_setting (swap_sess o) (swap o).
Proof.
  intros o. split; [destruct o; reflexivity|]. split; [apply swap_knows|]. split; [discriminate|]. split; [destruct o; reflexivity|].
  split; [destruct o; (split; [reflexivity|split; [reflexivity|split; [reflexivity|eexists; vm_compute; reflexivity]]])|].
  split; [destruct o; vm_compute; repeat split; repeat constructor|]. split; [cbn; repeat constructor|split; intros []].
Qed.

Lemma swap_file : forall o f, file_of (swap_world o) f -> In f (buildin_commands cfg_posix ++ [f_run; f_time; f_log]).
Proof.
  intros o f [I|(dd & I & J)]; apply in_or_app.
  - left. cbn [swap_world w_groups flat_map snd] in I. rewrite app_nil_r in I. exact I.
  - right. destruct o; cbn in I; destruct I as [<-|[<-|[<-|[]]]]; cbn in J; cbn; tauto.
Qed.
Definition swap_worlds (o : bool) (w : world) : Prop :=
  w_fs w = w_fs (swap_world o) /\ w_groups w = w_groups (swap_world o) /\ exists dd, In dd (w_fs (swap_world o)) /\ w_cwd w = Some (de_path dd).
Lemma swap_stock : forall o, stock demo_desc (swap_world o).
Proof.
  intros o. split; [|split].
  - intros f cb I. cbn in I. repeat (destruct I as [<-|I]; [intros E; injection E as <-; reflexivity|]). destruct I.
  - intros dd f cb I J. destruct o; cbn in I;
    destruct I as [<-|[<-|[<-|[]]]]; cbn in J; repeat (destruct J as [<-|J]; [intros E; try discriminate E; injection E as <-; eauto|]); destruct J.
  - intros d f I J. destruct o; swap_in; cbn in J; repeat (destruct J as [<-|J]); try destruct J;
    (split; [split; cbn; intuition discriminate|apply Nat.ltb_lt; vm_compute; reflexivity]).
Qed.

Lemma swap_ample : forall o, ample demo_own demo_setting (swap_worlds o).
Proof.
  intros o [fs gs cwd] (F & G & dd0 & I0 & C). cbn [w_fs w_groups w_cwd] in *. subst fs gs cwd.
  split; [exact (swap_stock o)|]. split; [|split; [|split; [apply Nat.ltb_lt; reflexivity|]]].
  { intros dd I. destruct o; cbn in I; destruct I as [<-|[<-|[<-|[]]]]; apply Nat.ltb_lt; reflexivity. }
  { destruct o; cbn in I0; destruct I0 as [<-|[<-|[<-|[]]]]; apply Nat.ltb_lt; reflexivity. }
  split; [|split; [|intros h; split; [|split; [|split]]]].
  - intros f F. apply (swap_file o f) in F. assert (A : Forall (listable demo_desc) (buildin_commands cfg_posix ++ [f_run; f_time; f_log])).
    { repeat constructor; try (apply Nat.ltb_lt; vm_compute; reflexivity); cbn; intuition discriminate. }
    exact (proj1 (Forall_forall _ _) A f F).
  - intros dd I. split; [reflexivity|]. split; [reflexivity|]. exists dd. split; [exact I|reflexivity].
  - intros f k ws _ _. split; [exists [], []; reflexivity|]. split.
    { split; [apply Nat.ltb_lt; reflexivity|]. split; [vm_compute; discriminate|]. split; apply Nat.ltb_lt; reflexivity. }
    split; [constructor|]. split; [split; [constructor|]; split; [left; apply Nat.leb_le; reflexivity|]; split; [exact I|discriminate]|].
    split; [|intros n U; exact U]. split; [reflexivity|]. split; [reflexivity|]. exists dd0. split; [exact I0|reflexivity].
  - intros ws. split; [|split; [reflexivity|split; [reflexivity|exists dd0; split; [exact I0|reflexivity]]]].
    split; [constructor|]. split; [left; apply Nat.leb_le; reflexivity|]. split; [exact I|discriminate].
  - intros f k ws t _ _. split; [constructor|]. split; [|split; [reflexivity|split; [reflexivity|exists dd0; split; [exact I0|reflexivity]]]].
    split; [constructor|]. split; [left; apply Nat.leb_le; reflexivity|]. split; [exact I|discriminate].
  - intros f k ws _ _. split; [|split; [reflexivity|split; [reflexivity|exists dd0; split; [exact I0|reflexivity]]]].
    split; [repeat constructor|]. split; [left; apply Nat.leb_le; reflexivity|]. split; [exact I|discriminate].
Qed.
Lemma swap_typing : forall o cs, ~ In TAB cs -> run_limits demo_own demo_setting (swap_sess o) cs.
Proof.
  intros o cs N. apply (ample_run demo_own demo_setting (swap_worlds o) cs (swap_sess o) (swap o) (swap_ample o)); [|apply swap_shows|intros I; destruct (N I)].
  split; [reflexivity|]. split; [reflexivity|]. exists (mkDir [] 1 [f_run]). split; [destruct o; cbn; tauto|reflexivity].
Qed.

Definition swap_keys : bytes := lit "cd dev" ++ [CR] ++ lit "cat time" ++ [CR] ++ lit "/bin/run 1" ++ [CR] ++ lit "help pwd" ++ [CR].

Example C87_example :
  swap_booted true = Ok swap1 /\ swap_booted false = Ok swap2 /\
  same_but_shuffled (swap_sess true) (swap_sess false) /\ leaves_tree demo_setting /\
  (forall o, shows demo_own demo_setting (swap_sess o) (swap o) /\ run_limits demo_own demo_setting (swap_sess o) swap_keys) /\
  never_tells demo_setting (swap_sess true) swap_keys /\
  (* ls tells them apart *)
  fst (sess_run demo_setting (swap_sess true) (lit "ls" ++ [CR])) <> fst (sess_run demo_setting (swap_sess false) (lit "ls" ++ [CR])).
Proof.
  assert (Nt : ~ In TAB swap_keys) by (cbn; intuition discriminate).
  split; [vm_compute; reflexivity|]. split; [vm_compute; reflexivity|]. split.
  { assert (Sw : Permutation [f_time; f_log] [f_log; f_time]) by apply perm_swap.
    assert (Dir : forall o, dirs_in (w_fs (swap_world o)) (w_fs (swap_world (negb o)))).
    { intros [|] d I; cbn in I; destruct I as [<-|[<-|[<-|[]]]];
        first [eexists; split; [left; reflexivity|split; [reflexivity|]]|eexists; split; [right; left; reflexivity|split; [reflexivity|]]|eexists; split; [right; right; left; reflexivity|split; [reflexivity|]]];
        first [apply Permutation_refl|exact Sw|apply Permutation_sym; exact Sw]. }
    split; [exact (Dir true)|]. split; [exact (Dir false)|]. split; [apply Permutation_refl|]. split.
    { intros d I. cbn in I; destruct I as [<-|[<-|[<-|[]]]]; cbn; repeat constructor; cbn; intuition discriminate. }
    split; [cbn; repeat constructor; cbn; intuition discriminate|repeat split]. }
  split; [intros h; repeat split|]. split; [intros o; split; [apply swap_shows|apply swap_typing; exact Nt]|]. split.
  - vm_compute. repeat (split; [first [intros E; discriminate E|intros _ f Ef; injection Ef as <-; split; [discriminate|first [discriminate|intros _; repeat constructor]]]|split; [intros E; discriminate E|]]). exact I.
  - vm_compute. discriminate.
Qed.
