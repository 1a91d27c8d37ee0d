(** * Property C73: TAB only adds to the line, offers what exists, and has had its say after once.

    Vocabulary: [candidates], [names_in] in Complete.v; [shows], [run_limits] in Session.v;
    [denotes] in Cmds.v; [dir_named] in Tree.v; [drive], [both_ready] in Sched.v. *)
From Coq Require Import Arith Lia.
From Verif Require Import Shell BaseFacts Words Sched Line Editor Spec Tree Cmds Complete Session SessionProofs Interrupt ForgetProofs OfferProofs Demo PropTree PropLine DemoCmd PropSession PropForget.

(** C73: after TAB the line is the line before and possibly something more; nothing else changes. *)
Theorem C73_extends : forall own x a s, shows own x a s -> cfg_autocomp (d_cfg (x_desc x)) = true -> run_limits own x a [TAB] ->
  exists n t, forall l, n <= both_ready l -> exists s' b, drive (app_of x) [TAB] l s = Ok ([], s') /\ shows own x b s' /\
    se_world b = se_world a /\ se_esc b = se_esc a /\ se_line b = se_line a ++ t.
Proof. exact C73_extends_proof. Qed.
Print Assumptions C73_extends.

(** C73: a second TAB leaves the line as the first one left it, if names have no spaces. *)
Theorem C73_again : forall own x a s, shows own x a s -> cfg_autocomp (d_cfg (x_desc x)) = true -> run_limits own x a [TAB; TAB] ->
  (forall m, In m (names_in (se_world a) (here (se_world a))) -> ~ In SP m) ->
  exists n, forall l1 l2, n <= both_ready l1 -> n <= both_ready l2 -> exists s1 s2 b1 b2,
    drive (app_of x) [TAB] l1 s = Ok ([], s1) /\ drive (app_of x) [TAB; TAB] l2 s = Ok ([], s2) /\ shows own x b1 s1 /\ shows own x b2 s2 /\
    se_line b2 = se_line b1 /\ se_esc b2 = se_esc b1 /\ se_world b2 = se_world b1.
Proof. exact C73_again_proof. Qed.
Print Assumptions C73_again.

(** C73: TAB prints what it adds; or it adds nothing and prints names, one per line, and the
    prompt and the line again.  Each of the names names a file or a mounted directory. *)
Theorem C73_prints : forall own x a s, let w := se_world a in shows own x a s -> cfg_autocomp (d_cfg (x_desc x)) = true -> run_limits own x a [TAB] ->
  Forall no_dots (here w) -> (forall m, In m (names_in w (here w)) -> comp_ok m /\ no_dots m) ->
  exists n out, (forall l, n <= both_ready l -> exists s', drive (app_of x) [TAB] l s = Ok ([], s') /\ polling s' /\ lg s' = lg s ++ EvIn TAB :: map EvOut out /\
      (editing (se_esc a) (se_line a ++ out) s' \/
       editing (se_esc a) (se_line a) s' /\ exists cs, out = CRLF ++ flat_map (fun m => m ++ CRLF) cs ++ prompt (x_desc x) (show (here w)) ++ se_line a /\
         forall m, In m cs -> denotes w m <> None \/ exists dd, In dd (w_fs w) /\ dir_named (show (resolve_text (here w) m)) (w_fs w) = Some dd)).
Proof. exact C73_prints_proof. Qed.
Print Assumptions C73_prints.

(** C73: every candidate - so also the only one, which is completed - names a file or a mounted directory. *)
Theorem C73_works : forall own s w word n, knows own s w -> Forall no_dots (here w) -> In n (candidates w (here w) word) -> comp_ok n -> no_dots n ->
  denotes w n <> None \/ exists dd, In dd (w_fs w) /\ dir_named (show (resolve_text (here w) n)) (w_fs w) = Some dd.
Proof. exact C73_works_proof. Qed.
Print Assumptions C73_works.

(** "cd de" TAB TAB. *)
Example C73_example : exists a s, shows demo_own demo_setting a s /\ se_line a = lit "cd de" /\ run_limits demo_own demo_setting a [TAB; TAB] /\
  (forall m, In m (names_in (se_world a) (here (se_world a))) -> ~ In SP m) /\ candidates (se_world a) (here (se_world a)) (lit "de") = [lit "dev"] /\
  denotes (se_world a) (lit "dev") = None /\ Forall no_dots (here (se_world a)) /\ (forall m, In m (names_in (se_world a) (here (se_world a))) -> comp_ok m /\ no_dots m) /\ se_line (snd (sess_run demo_setting a [TAB; TAB])) = lit "cd dev".
Proof.
  destruct (schedule_done demo_own demo_setting (lit "cd de") demo_sess demo demo (quiet_by_here _ _ (shows_polling _ _ _ _ demo_shows)) demo_shows) as (_ & n & s' & _ & Sh & _);
    [apply demo_typing; cbn; intuition discriminate|].
  replace (snd (sess_run demo_setting demo_sess (lit "cd de"))) with (mkSess demo_world (lit "cd de") 0 (lit "cd de")) in Sh by (vm_compute; reflexivity).
  exists (mkSess demo_world (lit "cd de") 0 (lit "cd de")), s'. split; [exact Sh|]. split; [reflexivity|]. split.
  - split; [|split; [|exact I]].
    + split; [discriminate|]. intros _. split; [exact demo_tidy|]. split; [cbn; intuition discriminate|]. cbn [se_world se_line].
      replace (candidates demo_world (here demo_world) (last_word (lit "cd de"))) with [lit "dev"] by (vm_compute; reflexivity).
      split; [split; apply Nat.ltb_lt; reflexivity|]. repeat constructor; cbn; intuition discriminate.
    + replace (snd (sess_step demo_setting (mkSess demo_world (lit "cd de") 0 (lit "cd de")) TAB)) with (mkSess demo_world (lit "cd de" ++ [TAB]) 0 (lit "cd dev")) by (vm_compute; reflexivity).
      split; [discriminate|]. intros _. split; [exact demo_tidy|]. split; [cbn; intuition discriminate|]. cbn [se_world se_line].
      replace (candidates demo_world (here demo_world) (last_word (lit "cd dev"))) with [lit "dev"] by (vm_compute; reflexivity).
      split; [split; apply Nat.ltb_lt; reflexivity|]. repeat constructor; cbn; intuition discriminate.
  - split; [|split; [vm_compute; reflexivity|split; [vm_compute; reflexivity|split; [constructor|split; [|vm_compute; reflexivity]]]]].
    { intros m I J. assert (F : forallb (fun m => negb (existsb (ceq SP) m)) (names_in demo_world (here demo_world)) = true) by (vm_compute; reflexivity).
    rewrite forallb_forall in F. specialize (F m I). apply negb_true_iff in F. assert (T : existsb (ceq SP) m = true) by (apply existsb_exists; exists SP; auto). congruence. }
    intros m I. vm_compute in I. repeat (destruct I as [<-|I]; [split; [split; [discriminate|split; cbn; intuition discriminate]|split; discriminate]|]). destruct I.
Qed.
