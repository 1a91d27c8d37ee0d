(** * Property C74: the order of mounting shows in listings only.

    Vocabulary: [same_but_order], [never_lists] in Order.v; [leaves_tree] in Forget.v; [shows],
    [run_limits] in Session.v; [drive], [both_ready], [polling] in Sched.v. *)
From Coq Require Import Arith Lia.
From Verif Require Import Shell BaseFacts Words Sched Line Editor Spec Tree Cmds Complete Session SessionProofs Forget Order OrderProofs Demo PropTree PropSession PropForget.

(** C74: two shells with the same directories, files and commands, mounted in whatever order
    from whatever node objects, do exactly the same on any input, unless they list
    names: ls, or TAB when several names fit and nothing can be added. *)
Theorem C74_order : forall own1 own2 x a b s t cs, same_but_order a b -> leaves_tree x ->
  shows own1 x a s -> shows own2 x b t -> run_limits own1 x a cs -> run_limits own2 x b cs -> never_lists x a cs ->
  exists n evs, (forall l, n <= both_ready l -> exists s', drive (app_of x) cs l s = Ok ([], s') /\ polling s' /\ lg s' = lg s ++ evs) /\
    (forall m, n <= both_ready m -> exists t', drive (app_of x) cs m t = Ok ([], t') /\ polling t' /\ lg t' = lg t ++ evs).
Proof. exact C74_order_proof. Qed.
Print Assumptions C74_order.

(** Two shells: "/dev" before "/bin", and "/bin" before "/dev". *)
Definition two_mounts (o : bool) : list op :=
  OpApi (AMount (lit "/") 1 [f_run]) ::
  if o then [OpApi (AMount (lit "/dev") 2 [f_time; f_log]); OpApi (AMount (lit "/bin") 3 [f_run])]
  else [OpApi (AMount (lit "/bin") 2 [f_run]); OpApi (AMount (lit "/dev") 3 [f_time; f_log])].
Definition two_booted (o : bool) : res st := s <- ush_init demo_desc (repeat NUL 32) (repeat NUL 64) demo_blank ;; s <- run (two_mounts o) s ;; run (demo_ticks 60) s.
Definition two1 : st := Eval vm_compute in from (two_booted true).
Definition two2 : st := Eval vm_compute in from (two_booted false).
Definition two (o : bool) : st := if o then two1 else two2.
Definition two_world (o : bool) : world :=
  mkWorld (if o then [mkDir [lit "bin"] 3 [f_run]; mkDir [lit "dev"] 2 [f_time; f_log]; mkDir [] 1 [f_run]]
           else [mkDir [lit "dev"] 3 [f_time; f_log]; mkDir [lit "bin"] 2 [f_run]; mkDir [] 1 [f_run]])
          [(0, buildin_commands cfg_posix)] (Some []).
Definition two_sess (o : bool) : sess := mkSess (two_world o) [] 0 [].

Ltac two_in := repeat match goal with
  | H : In _ _ |- _ => progress cbn [map In de_node de_path fst two_world w_fs w_groups demo_own] in H
  | H : _ \/ _ |- _ => destruct H
  | H : False |- _ => destruct H
  | H : _ = ?x |- _ => is_var x; subst x
  end.

Lemma two_knows : forall o, knows demo_own (two o) (two_world o).
Proof.
  intros [|]; (split; [|split; [|split; [|split; [|split]]]]).
  1, 7: split; [split; [|split; [|split]]|split];
    [repeat constructor; try discriminate; cbn; intuition discriminate|repeat constructor; cbn; intuition discriminate|repeat constructor; cbn; intuition discriminate
    |intros d I N; two_in; cbn; auto; congruence
    |intros d I; two_in; eexists; (split; [reflexivity|]); repeat split; try reflexivity; cbn; repeat (eexists; split; [reflexivity|]); repeat split; repeat (eexists; split; [reflexivity|]); try reflexivity; repeat split
    |cbn; split; [reflexivity|]; eexists; split; reflexivity].
  1, 6: split; [repeat constructor; cbn; intuition|split; [cbn; split; [reflexivity|]; eexists; split; reflexivity|]]; intros i fl I; cbn in I; destruct I as [E|[]]; injection E as <- <-; eexists; split; reflexivity.
  1, 5: intros i I J; two_in; discriminate.
  1, 4: intros i [I|I]; two_in; cbn; tauto.
  1, 3: intros i I; two_in; eexists; (split; [reflexivity|]); intros N; cbn in N |- *; try reflexivity; tauto.
  all: cbn; eexists; split; reflexivity.
Qed.

Lemma two_shows : forall o, shows demo_own demo_setting (two_sess o) (two o).
Proof.
  intros o. split; [destruct o; reflexivity|]. split; [apply two_knows|]. split; [discriminate|]. split; [destruct o; reflexivity|].
  split; [destruct o; (split; [reflexivity|split; [reflexivity|split; [reflexivity|eexists; vm_compute; reflexivity]]])|].
  split; [destruct o; vm_compute; repeat split; repeat constructor|]. split; [cbn; repeat constructor|split; intros []].
Qed.

Lemma two_file : forall o f, file_of (two_world o) f -> In f (buildin_commands cfg_posix ++ [f_run; f_time; f_log]).
Proof.
  intros o f [I|(dd & I & J)]; apply in_or_app.
  - left. cbn [two_world w_groups flat_map snd] in I. rewrite app_nil_r in I. exact I.
  - right. destruct o; cbn in I; destruct I as [<-|[<-|[<-|[]]]]; cbn in J; cbn; tauto.
Qed.
Definition two_worlds (o : bool) (w : world) : Prop :=
  w_fs w = w_fs (two_world o) /\ w_groups w = w_groups (two_world o) /\ exists dd, In dd (w_fs (two_world o)) /\ w_cwd w = Some (de_path dd).
Lemma two_stock : forall o, stock demo_desc (two_world o).
Proof.
  intros o. split; [|split].
  - intros f cb I. cbn in I. repeat (destruct I as [<-|I]; [intros E; injection E as <-; reflexivity|]). destruct I.
  - intros dd f cb I J. destruct o; cbn in I;
    destruct I as [<-|[<-|[<-|[]]]]; cbn in J; repeat (destruct J as [<-|J]; [intros E; try discriminate E; injection E as <-; eauto|]); destruct J.
  - intros d f I J. destruct o; two_in; cbn in J; repeat (destruct J as [<-|J]); try destruct J;
    (split; [split; cbn; intuition discriminate|apply Nat.ltb_lt; vm_compute; reflexivity]).
Qed.

Lemma two_ample : forall o, ample demo_own demo_setting (two_worlds o).
Proof.
  intros o [fs gs cwd] (F & G & dd0 & I0 & C). cbn [w_fs w_groups w_cwd] in *. subst fs gs cwd.
  split; [exact (two_stock o)|]. split; [|split; [|split; [apply Nat.ltb_lt; reflexivity|]]].
  { intros dd I. destruct o; cbn in I; destruct I as [<-|[<-|[<-|[]]]]; apply Nat.ltb_lt; reflexivity. }
  { destruct o; cbn in I0; destruct I0 as [<-|[<-|[<-|[]]]]; apply Nat.ltb_lt; reflexivity. }
  split; [|split; [|intros h; split; [|split; [|split]]]].
  - intros f F. apply (two_file o f) in F. assert (A : Forall (listable demo_desc) (buildin_commands cfg_posix ++ [f_run; f_time; f_log])).
    { repeat constructor; try (apply Nat.ltb_lt; vm_compute; reflexivity); cbn; intuition discriminate. }
    exact (proj1 (Forall_forall _ _) A f F).
  - intros dd I. split; [reflexivity|]. split; [reflexivity|]. exists dd. split; [exact I|reflexivity].
  - intros f k ws _ _. split; [exists [], []; reflexivity|]. split.
    { split; [apply Nat.ltb_lt; reflexivity|]. split; [vm_compute; discriminate|]. split; apply Nat.ltb_lt; reflexivity. }
    split; [constructor|]. split; [split; [constructor|]; split; [left; apply Nat.leb_le; reflexivity|]; split; [exact I|discriminate]|].
    split; [|intros n U; exact U]. split; [reflexivity|]. split; [reflexivity|]. exists dd0. split; [exact I0|reflexivity].
  - intros ws. split; [|split; [reflexivity|split; [reflexivity|exists dd0; split; [exact I0|reflexivity]]]].
    split; [constructor|]. split; [left; apply Nat.leb_le; reflexivity|]. split; [exact I|discriminate].
  - intros f k ws t _ _. split; [constructor|]. split; [|split; [reflexivity|split; [reflexivity|exists dd0; split; [exact I0|reflexivity]]]].
    split; [constructor|]. split; [left; apply Nat.leb_le; reflexivity|]. split; [exact I|discriminate].
  - intros f k ws _ _. split; [|split; [reflexivity|split; [reflexivity|exists dd0; split; [exact I0|reflexivity]]]].
    split; [repeat constructor|]. split; [left; apply Nat.leb_le; reflexivity|]. split; [exact I|discriminate].
Qed.
Lemma two_typing : forall o cs, ~ In TAB cs -> run_limits demo_own demo_setting (two_sess o) cs.
Proof.
  intros o cs N. apply (ample_run demo_own demo_setting (two_worlds o) cs (two_sess o) (two o) (two_ample o)); [|apply two_shows|intros I; destruct (N I)].
  split; [reflexivity|]. split; [reflexivity|]. exists (mkDir [] 1 [f_run]). split; [destruct o; cbn; tauto|reflexivity].
Qed.

Definition order_keys : bytes := lit "cd dev" ++ [CR] ++ lit "cat time" ++ [CR] ++ lit "/bin/run 1" ++ [CR].

Example C74_example :
  two_booted true = Ok two1 /\ two_booted false = Ok two2 /\
  same_but_order (two_sess true) (two_sess false) /\ leaves_tree demo_setting /\
  (forall o, shows demo_own demo_setting (two_sess o) (two o) /\ run_limits demo_own demo_setting (two_sess o) order_keys) /\
  never_lists demo_setting (two_sess true) order_keys /\
  (* only ls tells them apart *)
  fst (sess_run demo_setting (two_sess true) (lit "ls" ++ [CR])) <> fst (sess_run demo_setting (two_sess false) (lit "ls" ++ [CR])).
Proof.
  assert (Nt : ~ In TAB order_keys) by (cbn; intuition discriminate).
  split; [vm_compute; reflexivity|]. split; [vm_compute; reflexivity|]. split.
  { split; [|repeat split]. intros p fl. split; intros (d & I & E1 & E2); cbn in I; destruct I as [<-|[<-|[<-|[]]]]; cbn in E1, E2; subst p fl;
      first [eexists; split; [left; reflexivity|split; reflexivity]|eexists; split; [right; left; reflexivity|split; reflexivity]|eexists; split; [right; right; left; reflexivity|split; reflexivity]]. }
  split; [intros h; repeat split|]. split; [intros o; split; [apply two_shows|apply two_typing; exact Nt]|]. split.
  - vm_compute. repeat (split; [first [intros E; discriminate E|intros _ f Ef; injection Ef as <-; discriminate]|split; [intros E; discriminate E|]]). exact I.
  - vm_compute. discriminate.
Qed.
