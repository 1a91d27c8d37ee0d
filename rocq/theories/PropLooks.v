(** * Property C81: how the shell looks does not change what it does.

    Vocabulary: [same_but_looks], [unseen] in Looks.v; [shows], [run_limits], [sess_run] in
    Session.v; [drive], [both_ready] in Sched.v. *)
From Coq Require Import Arith Lia.
From Verif Require Import Shell BaseFacts Words Sched Line Editor Spec Tree Cmds Complete Session SessionProofs Looks LooksProofs Demo PropTree PropLine DemoCmd PropSession PropForget PropSizes.

(** C81: two shells standing alike, with the same application but other host names, colours,
    messages, columns of help, ls and xxd, output buffers and path_max_length, call the same callbacks with the
    same arguments at the same points of the same input, as long as it is within the limits of
    both, and stand alike afterwards. *)
Theorem C81_looks : forall own own' x y a s t cs, same_but_looks x y -> shows own x a s -> run_limits own x a cs -> shows own' y a t -> run_limits own' y a cs ->
  exists n evs evs' b, unseen evs = unseen evs' /\
    (forall l, n <= both_ready l -> exists s', drive (app_of x) cs l s = Ok ([], s') /\ shows own x b s' /\ lg s' = lg s ++ evs) /\
    (forall m, n <= both_ready m -> exists t', drive (app_of y) cs m t = Ok ([], t') /\ shows own' y b t' /\ lg t' = lg t ++ evs').
Proof. exact C81_proof. Qed.
Print Assumptions C81_looks.

(** Another host name, no colours, French messages. *)
Definition french_cfg : config := mkConfig false true true 12 16 true true true true true true true (lit "erreur") (fun _ => lit "non").
Definition french_desc : desc := mkDesc 32 80 64 (lit "hote") None french_cfg.
Definition french_setting : setting := mkSetting french_desc (fun _ => demo_env).
Definition french_demo : st := set_desc french_desc (set_outb (repeat NUL 80) demo).
Definition looks_keys : bytes := lit "cd nowhere" ++ [CR] ++ lit "cd dev" ++ [CR] ++ lit "cat time" ++ [CR].
Lemma french_shows : shows demo_own french_setting demo_sess french_demo.
Proof.
  split; [reflexivity|]. split; [exact demo_knows|]. split; [discriminate|]. split; [reflexivity|]. split; [exact demo_editing|].
  split; [|split; [cbn; repeat constructor|split; intros []]].
  split; [reflexivity|]. split; [reflexivity|]. split; [apply Nat.leb_le; reflexivity|apply Nat.leb_le; reflexivity].
Qed.
Lemma french_ample : ample demo_own french_setting demo_worlds.
Proof.
  intros [fs gs cwd] (F & G & dd0 & I0 & C). cbn [w_fs w_groups w_cwd] in *. subst fs gs cwd.
  split; [exact demo_stock|]. split; [|split; [|split; [apply Nat.ltb_lt; reflexivity|]]].
  { intros dd I. cbn in I. destruct I as [<-|[<-|[<-|[]]]]; apply Nat.ltb_lt; reflexivity. }
  { cbn in I0. destruct I0 as [<-|[<-|[<-|[]]]]; apply Nat.ltb_lt; reflexivity. }
  split; [|split; [|intros h; split; [|split; [|split]]]].
  - intros f F. apply (demo_file f) in F. assert (A : Forall (listable french_desc) (buildin_commands cfg_posix ++ [f_run; f_time; f_log])).
    { repeat constructor; try (apply Nat.ltb_lt; vm_compute; reflexivity); cbn; intuition discriminate. }
    exact (proj1 (Forall_forall _ _) A f F).
  - intros dd I. split; [reflexivity|]. split; [reflexivity|]. exists dd. split; [exact I|reflexivity].
  - intros f k ws _ _. split; [exists [], []; reflexivity|]. split.
    { split; [apply Nat.ltb_lt; reflexivity|]. split; [vm_compute; discriminate|]. split; apply Nat.ltb_lt; reflexivity. }
    split; [constructor|]. split; [split; [constructor|]; split; [left; apply Nat.leb_le; reflexivity|]; split; [exact I|discriminate]|].
    split; [|intros n U; exact U]. split; [reflexivity|]. split; [reflexivity|]. exists dd0. split; [exact I0|reflexivity].
  - intros ws. split; [|split; [reflexivity|split; [reflexivity|exists dd0; split; [exact I0|reflexivity]]]].
    split; [constructor|]. split; [left; apply Nat.leb_le; reflexivity|]. split; [exact I|discriminate].
  - intros f k ws t _ _. split; [constructor|]. split; [|split; [reflexivity|split; [reflexivity|exists dd0; split; [exact I0|reflexivity]]]].
    split; [constructor|]. split; [left; apply Nat.leb_le; reflexivity|]. split; [exact I|discriminate].
  - intros f k ws _ _. split; [|split; [reflexivity|split; [reflexivity|exists dd0; split; [exact I0|reflexivity]]]].
    split; [repeat constructor|]. split; [left; apply Nat.leb_le; reflexivity|]. split; [exact I|discriminate].
Qed.

Example C81_example :
  same_but_looks demo_setting french_setting /\ shows demo_own demo_setting demo_sess demo /\ run_limits demo_own demo_setting demo_sess looks_keys /\
  shows demo_own french_setting demo_sess french_demo /\ run_limits demo_own french_setting demo_sess looks_keys /\
  outs_of (fst (sess_run french_setting demo_sess (lit "cd nowhere" ++ [CR]))) = lit "cd nowhere" ++ CRLF ++ lit "erreur: non" ++ CRLF ++ lit "[hote /]$ " /\
  outs_of (fst (sess_run demo_setting demo_sess looks_keys)) <> outs_of (fst (sess_run french_setting demo_sess looks_keys)) /\
  length (filter (fun e => match e with EvIn _ => false | _ => true end) (unseen (fst (sess_run french_setting demo_sess looks_keys)))) = 4.
Proof.
  split; [repeat split|]. split; [exact demo_shows|]. split; [apply demo_typing; cbn; intuition discriminate|]. split; [exact french_shows|].
  split; [apply (ample_run demo_own french_setting demo_worlds _ demo_sess french_demo french_ample demo_in french_shows); cbn; intuition discriminate|].
  split; [vm_compute; reflexivity|]. split; [vm_compute; discriminate|vm_compute; reflexivity].
Qed.
