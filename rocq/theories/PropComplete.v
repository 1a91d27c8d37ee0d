(** * PropComplete: properties of TAB completion (C28, C29, C30).

    Vocabulary: Complete.v ([last_word], [before_word], [candidates], [common], [tidy],
    [tab_room], [at_tab], [tabbed], [fails]), Tree.v ([world], [knows]), Sched.v. *)
From Coq Require Import Arith.
From Verif Require Import Shell BaseFacts Sched SchedProofs SchedFacts Editor Words Line Spec Tree Cmds Complete CmdProofs CompleteProofs Demo PropTree PropLine.

(** C28: no candidate: nothing is printed, the line stays. *)
Theorem C28_none : forall e own w cwd k l s, at_tab own w cwd k l s -> length (full_text cwd (last_word l)) < d_pathmax (o_desc s) ->
  candidates w cwd (last_word l) = [] -> exists s', tabbed e k s [] l s'.
Proof. exact C28_none_proof. Qed.
Print Assumptions C28_none.

(** C28: one candidate: the word is completed and the missing part is printed. *)
Theorem C28_one : forall e own w cwd k l s n, at_tab own w cwd k l s -> tab_room (o_desc s) cwd l [n] ->
  candidates w cwd (last_word l) = [n] -> exists s', tabbed e k s (skipn (length (last_word l)) n) (before_word l ++ n) s'.
Proof. exact C28_one_proof. Qed.
Print Assumptions C28_one.

(** C29: several candidates with a longer common prefix: the word is extended to it. *)
Theorem C29_extend : forall e own w cwd k l s, let cs := candidates w cwd (last_word l) in at_tab own w cwd k l s -> tab_room (o_desc s) cwd l cs -> 2 <= length cs ->
  common cs <> last_word l -> exists s', tabbed e k s (skipn (length (last_word l)) (common cs)) (before_word l ++ common cs) s'.
Proof. exact C29_extend_proof. Qed.
Print Assumptions C29_extend.

(** C29: the word is the common prefix: the candidates are listed, the line stays. *)
Theorem C29_list : forall e own w cwd k l s, let cs := candidates w cwd (last_word l) in at_tab own w cwd k l s -> tab_room (o_desc s) cwd l cs -> 2 <= length cs ->
  common cs = last_word l -> exists s', tabbed e k s (CRLF ++ flat_map (fun n => n ++ CRLF) cs ++ prompt (o_desc s) (show cwd) ++ l) l s'.
Proof. exact C29_list_proof. Qed.
Print Assumptions C29_list.

(** C29: [common] is the longest common prefix, and the typed word is always one. *)
Theorem C29_common : forall cs, cs <> [] ->
  (forall n, In n cs -> exists r, n = common cs ++ r) /\
  (forall p, (forall n, In n cs -> exists r, n = p ++ r) -> exists r, common cs = p ++ r).
Proof. exact C29_common_proof. Qed.
Print Assumptions C29_common.

(** C30: when there is room, TAB ends well: the shell polls again, its buffers keep their
    sizes, nothing but the line has changed, and the line has only grown. *)
Theorem C30_fits : forall e own w cwd k l s, at_tab own w cwd k l s -> tab_room (o_desc s) cwd l (candidates w cwd (last_word l)) ->
  exists out u s', tabbed e k s out (l ++ u) s' /\ length (l ++ u) < d_insize (o_desc s).
Proof. exact C30_fits_proof. Qed.
Print Assumptions C30_fits.

(** C30: in all other cases the shell never polls again. *)
Theorem C30_exact : forall e own w cwd k l s, at_tab own w cwd k l s ->
  ((exists s', fed e [TAB] s s') <-> tab_room (o_desc s) cwd l (candidates w cwd (last_word l))).
Proof. exact C30_exact_proof. Qed.
Print Assumptions C30_exact.

(** C30: in almost all of them because of a memory error (several candidates for the first word
    of a line, with a common prefix that fills the whole buffer, are excepted). *)
Theorem C30_overflow : forall e own w cwd k l s, let cs := candidates w cwd (last_word l) in at_tab own w cwd k l s ->
  before_word l <> [] \/ length (tried (last_word l) cs) < d_insize (o_desc s) \/ length cs < 2 ->
  ~ tab_room (o_desc s) cwd l cs -> fails e TAB s EOob.
Proof. exact C30_overflow_proof. Qed.
Print Assumptions C30_overflow.

(** C30: the exception exists: if all names start with the same text, the word typed is a
    beginning of it, and it fills the whole buffer, the shell works for ever. *)
Theorem C30_endless : forall e own w cwd k l s, let cs := names_in w cwd in at_tab own w cwd k l s -> before_word l = [] -> candidates w cwd (last_word l) = cs -> 2 <= length cs ->
  d_insize (o_desc s) <= length (tried (last_word l) cs) -> length (full_text cwd (common cs)) < d_pathmax (o_desc s) -> endless e TAB s.
Proof. exact C30_endless_proof. Qed.
Print Assumptions C30_endless.

(** C30: in particular a single candidate that does not fit is copied past the end of the
    buffer. *)
Theorem C30_overflow_one : forall e own w cwd k l s n, at_tab own w cwd k l s -> length (full_text cwd (last_word l)) < d_pathmax (o_desc s) ->
  candidates w cwd (last_word l) = [n] -> d_insize (o_desc s) <= length (before_word l) + length n -> fails e TAB s EOob.
Proof. exact C30_over_proof. Qed.
Print Assumptions C30_overflow_one.

(** The demo shell, with a directory "/runner" beside the file "/run". *)
Definition tab_mounted : st := st_of (ush_node_mount (lit "/runner") 4 [] demo).
Definition tab_world : world := mkWorld (mkDir [lit "runner"] 4 [] :: w_fs demo_world) (w_groups demo_world) (Some []).
Definition tab_typed (l : bytes) : st := st_of (drive (always demo_env) l (repeat (true, true) 400) tab_mounted).
Definition tab_said (l : bytes) : bytes :=
  match key 3000 demo_env TAB (tab_typed l) with
  | Some (Ok s') => flat_map (fun x => match x with EvOut c => [c] | _ => [] end) (skipn (length (lg (tab_typed l))) (lg s'))
  | _ => [] end.

Lemma tab_knows : knows demo_own tab_mounted tab_world.
Proof.
  destruct (C13_mount demo_own demo demo_world [lit "runner"] 4 []) as (x & s' & E & _ & [(-> & _)|[(-> & _)|(-> & _ & _ & K)]]).
  - exact demo_knows.
  - repeat constructor; try discriminate; cbn; intuition discriminate.
  - vm_compute. repeat constructor.
  - cbn. tauto.
  - unfold used; cbn; intuition discriminate.
  - exfalso. vm_compute in E. discriminate.
  - exfalso. vm_compute in E. discriminate.
  - unfold tab_mounted. change (lit "/runner") with (show [lit "runner"]). rewrite E. exact K.
Qed.

Lemma tab_tidy : tidy tab_world.
Proof.
  split; [|split].
  - intros f I. cbn in I. repeat (destruct I as [<-|I]; [split; cbn; intuition discriminate|]). destruct I.
  - intros d f I J. cbn in I. repeat (destruct I as [<-|I]; [cbn in J; repeat (destruct J as [<-|J]; [split; cbn; intuition discriminate|]); destruct J|]). destruct I.
  - intros d r I. cbn in I. repeat (destruct I as [<-|I]; [cbn; discriminate|]). destruct I.
Qed.

Lemma tab_at : forall l r, core (tab_typed l) = core tab_mounted ->
  o_state (tab_typed l) = S_READ_CHAR -> o_esc (tab_typed l) = 0 -> o_inpos (tab_typed l) = length l -> inb (tab_typed l) = l ++ NUL :: r ->
  length (inb (tab_typed l)) = 32 -> length (outb (tab_typed l)) = 64 -> existsb (ceq NUL) l = false -> at_tab demo_own tab_world [] 0 l (tab_typed l).
Proof.
  intros l r K H1 H2 H3 H4 H5 H6 H7. assert (D : o_desc (tab_typed l) = demo_desc) by (rewrite (core_desc _ _ K); reflexivity).
  split; [eapply knows_core; [exact K|exact tab_knows]|]. split; [reflexivity|]. split; [split; [exact H1|split; [exact H2|split; [exact H3|eauto]]]|].
  split; [split; [rewrite D; exact H5|split; [rewrite D; exact H6|rewrite D; split; repeat constructor]]|].
  split; [|split; [exact tab_tidy|rewrite D; reflexivity]].
  intros I. assert (E : existsb (ceq NUL) l = true) by (apply existsb_exists; exists NUL; split; [exact I|apply ceq_refl]). congruence.
Qed.
Ltac tab_ask := eapply tab_at; vm_compute; reflexivity.
Ltac tab_fit := split; vm_compute; repeat constructor.

Example C28_example :
  at_tab demo_own tab_world [] 0 (lit "cat zz") (tab_typed (lit "cat zz")) /\ candidates tab_world [] (last_word (lit "cat zz")) = [] /\ tab_said (lit "cat zz") = [] /\
  at_tab demo_own tab_world [] 0 (lit "cat runn") (tab_typed (lit "cat runn")) /\ tab_room demo_desc [] (lit "cat runn") [lit "runner"] /\
  candidates tab_world [] (last_word (lit "cat runn")) = [lit "runner"] /\ tab_said (lit "cat runn") = lit "er" /\ before_word (lit "cat runn") = lit "cat ".
Proof.
  split; [tab_ask|]. split; [vm_compute; reflexivity|]. split; [vm_compute; reflexivity|]. split; [tab_ask|]. split; [tab_fit|].
  split; [vm_compute; reflexivity|]. split; vm_compute; reflexivity.
Qed.

Example C29_example :
  at_tab demo_own tab_world [] 0 (lit "ls r") (tab_typed (lit "ls r")) /\ candidates tab_world [] (lit "r") = [lit "run"; lit "runner"] /\
  tab_room demo_desc [] (lit "ls r") [lit "run"; lit "runner"] /\ common [lit "run"; lit "runner"] = lit "run" /\ tab_said (lit "ls r") = lit "un" /\
  at_tab demo_own tab_world [] 0 (lit "ls run") (tab_typed (lit "ls run")) /\ tab_room demo_desc [] (lit "ls run") [lit "run"; lit "runner"] /\
  tab_said (lit "ls run") = CRLF ++ lit "run" ++ CRLF ++ lit "runner" ++ CRLF ++ prompt demo_desc (lit "/") ++ lit "ls run".
Proof.
  split; [tab_ask|]. split; [vm_compute; reflexivity|]. split; [tab_fit|]. split; [vm_compute; reflexivity|]. split; [vm_compute; reflexivity|].
  split; [tab_ask|]. split; [tab_fit|]. vm_compute; reflexivity.
Qed.

(** A long line: 26 characters, then the word. *)
Definition wide (w : string) : bytes := lit "cat aaaaaaaaaaaaaaaaaaaaa " ++ lit w.
Example C30_example :
  at_tab demo_own tab_world [] 0 (wide "runn") (tab_typed (wide "runn")) /\ candidates tab_world [] (last_word (wide "runn")) = [lit "runner"] /\
  d_insize demo_desc <= length (before_word (wide "runn")) + length (lit "runner") /\
  key 3000 demo_env TAB (tab_typed (wide "runn")) = Some (Err EOob) /\
  at_tab demo_own tab_world [] 0 (wide "  ru") (tab_typed (wide "  ru")) /\ candidates tab_world [] (last_word (wide "  ru")) = [lit "run"; lit "runner"] /\
  before_word (wide "  ru") <> [] /\ ~ tab_room demo_desc [] (wide "  ru") [lit "run"; lit "runner"] /\ tried (lit "ru") [lit "run"; lit "runner"] = lit "runn".
Proof.
  split; [tab_ask|]. split; [vm_compute; reflexivity|]. split; [vm_compute; repeat constructor|]. split; [vm_compute; reflexivity|]. split; [tab_ask|].
  split; [vm_compute; reflexivity|]. split; [discriminate|]. split; [|vm_compute; reflexivity]. intros (_ & X). apply Nat.ltb_lt in X. vm_compute in X. discriminate.
Qed.

(** A shell without commands, an input buffer of 8 bytes, and two files in "/": TAB at the
    prompt never ends. *)
Definition cfg_bare : config := mkConfig true true false 16 8 true true true true true true true (lit "error") posix_msg.
Definition bare_desc : desc := mkDesc 8 64 64 (lit "host") None cfg_bare.
Definition bare_file (n : string) : file := mkFile (lit n) None None None (Some 0) None None.
Definition bare_files : list file := [bare_file "sensor_1"; bare_file "sensor_2"].
Definition bare : st := Eval vm_compute in from (
  s <- ush_init bare_desc (repeat NUL 8) (repeat NUL 64) (st_zero bare_desc 0 (repeat NUL 8) (repeat NUL 64) (repeat node_zero 2) []) ;;
  s <- run [OpApi (AMount (lit "/") 1 bare_files)] s ;; run (demo_ticks 60) s).
Definition bare_world : world := mkWorld [mkDir [] 1 bare_files] [] (Some []).
Lemma bare_knows : knows [0; 1] bare bare_world.
Proof.
  split; [|split; [|split; [|split; [|split]]]].
  - split; [split; [|split; [|split]]|split].
    + repeat constructor.
    + repeat constructor; cbn; intuition discriminate.
    + repeat constructor; cbn; intuition discriminate.
    + intros d I N. cbn in I. destruct I as [<-|[]]. exfalso. apply N. reflexivity.
    + intros d I. cbn in I. destruct I as [<-|[]]. eexists. split; [reflexivity|]. repeat split; reflexivity.
    + cbn. split; [reflexivity|]. eexists. split; reflexivity.
  - split; [constructor|split]; [reflexivity|]. intros i fl [].
  - intros i I [].
  - intros i [I|[]]. destruct I as [<-|[]]. cbn. tauto.
  - intros i I. destruct I as [<-|[<-|[]]]; eexists; (split; [reflexivity|]); reflexivity.
  - eexists. split; reflexivity.
Qed.
Example C30_endless_example :
  at_tab [0; 1] bare_world [] 0 [] bare /\ names_in bare_world [] = [lit "sensor_1"; lit "sensor_2"] /\ endless demo_env TAB bare.
Proof.
  assert (A : at_tab [0; 1] bare_world [] 0 [] bare).
  { split; [exact bare_knows|]. split; [reflexivity|]. split; [split; [reflexivity|split; [reflexivity|split; [reflexivity|eexists; vm_compute; reflexivity]]]|].
    split; [split; [reflexivity|split; [reflexivity|split; repeat constructor]]|]. split; [intros []|]. split; [|reflexivity].
    split; [|split].
    - intros f [].
    - intros d f I J. cbn in I. destruct I as [<-|[]]. cbn in J. repeat (destruct J as [<-|J]; [split; cbn; intuition discriminate|]). destruct J.
    - intros d r I. cbn in I. destruct I as [<-|[]]. cbn. discriminate. }
  split; [exact A|]. split; [reflexivity|]. apply (C30_endless demo_env _ _ _ _ _ _ A); try reflexivity; vm_compute; repeat constructor.
Qed.

(** C30: with several candidates it is not enough that the completed line fits: the shell
    tries one character more than the common prefix. *)
Theorem C30_extend_refuted : exists e own w cwd k l s, at_tab own w cwd k l s /\ length (full_text cwd (last_word l)) < d_pathmax (o_desc s) /\
  2 <= length (candidates w cwd (last_word l)) /\ length (before_word l) + length (common (candidates w cwd (last_word l))) < d_insize (o_desc s) /\
  fails e TAB s EOob.
Proof.
  exists demo_env, demo_own, tab_world, [], 0, (wide "  ru"), (tab_typed (wide "  ru")). split; [tab_ask|]. split; [vm_compute; repeat constructor|].
  split; [vm_compute; repeat constructor|]. split; [vm_compute; repeat constructor|]. apply (key_err 3000); vm_compute; reflexivity.
Qed.
Print Assumptions C30_extend_refuted.

(** C28: a space at the very beginning of the line is taken as part of the word, so the
    word after it is not completed. *)
Theorem C28_leading_space_refuted : exists e own w cwd k x n s s', at_tab own w cwd k (SP :: x) s /\ ~ In SP x /\ candidates w cwd x = [n] /\ n <> x /\
  tab_room (o_desc s) cwd x [n] /\ tabbed e k s [] (SP :: x) s'.
Proof.
  set (s := tab_typed (lit " runn")). assert (A : at_tab demo_own tab_world [] 0 (lit " runn") s) by tab_ask.
  destruct (C28_none demo_env _ _ _ _ _ _ A) as (s' & T); [vm_compute; repeat constructor|vm_compute; reflexivity|].
  exists demo_env, demo_own, tab_world, [], 0, (lit "runn"), (lit "runner"), s, s'. split; [exact A|]. split; [cbn; intuition discriminate|]. split; [vm_compute; reflexivity|].
  split; [discriminate|]. split; [|exact T]. replace (o_desc s) with demo_desc by (vm_compute; reflexivity). tab_fit.
Qed.
Print Assumptions C28_leading_space_refuted.

(** A directory whose name starts with a dot: "/dev/.d", seen from "/dev". *)
Definition dot_mounted : st := st_of (ush_node_mount (lit "/dev/.d") 5 [] demo).
Definition dot_typed (l : bytes) : st := st_of (drive (always demo_env) (lit "cd dev" ++ [CR] ++ l) (repeat (true, true) 2000) dot_mounted).
Definition dot_world : world := mkWorld (mkDir [lit "dev"; lit ".d"] 5 [] :: w_fs demo_world) (w_groups demo_world) (Some [lit "dev"]).

Lemma dot_knows : knows demo_own (dot_typed (lit "ls .")) dot_world.
Proof.
  destruct (C13_mount demo_own demo demo_world [lit "dev"; lit ".d"] 5 []) as (x & s' & M & _ & [(-> & _)|[(-> & _)|(-> & _ & _ & K)]]).
  - exact demo_knows.
  - repeat constructor; try discriminate; cbn; intuition discriminate.
  - vm_compute. repeat constructor.
  - cbn. tauto.
  - unfold used; cbn; intuition discriminate.
  - exfalso. vm_compute in M. discriminate.
  - exfalso. vm_compute in M. discriminate.
  - assert (F : dot_mounted = s') by (unfold dot_mounted; change (lit "/dev/.d") with (show [lit "dev"; lit ".d"]); rewrite M; reflexivity).
    assert (C : core (dot_typed (lit "ls .")) = (o_desc dot_mounted, o_cmds dot_mounted, o_root dot_mounted, Some 2, o_buildin dot_mounted, hp dot_mounted)) by (vm_compute; reflexivity).
    rewrite F in C. revert C. generalize (dot_typed (lit "ls .")). intros t C. unfold core in C. injection C as C1 C2 C3 C4 C5 C6. unfold knows in *. rewrite C2, C3, C4, C6. cbn [w_fs w_groups w_cwd dot_world] in *.
    destruct K as (K1 & K2 & K3 & K4 & K5 & _). split; [exact K1|]. split; [exact K2|]. split; [exact K3|]. split; [exact K4|]. split; [exact K5|].
    eexists. split; reflexivity.
Qed.

(** C28: a directory whose name starts with a dot is not found when just the dot has been
    typed (the dot is taken as "this directory"). *)
Theorem C28_dot_refuted : exists e own w cwd k l n s s', knows own s w /\ w_cwd w = Some cwd /\ editing k l s /\ bufs_ok s /\ ~ In NUL l /\ cfg_autocomp (d_cfg (o_desc s)) = true /\
  candidates w cwd (last_word l) = [n] /\ n <> last_word l /\ tab_room (o_desc s) cwd l [n] /\ tabbed e k s [] l s'.
Proof.
  set (s := dot_typed (lit "ls .")). assert (D : o_desc s = demo_desc) by (vm_compute; reflexivity).
  assert (P : polling s) by (vm_compute; reflexivity).
  destruct (key 3000 demo_env TAB s) as [[s'|]|] eqn:K; [|exfalso; vm_compute in K; discriminate|exfalso; vm_compute in K; discriminate].
  assert (V : match key 3000 demo_env TAB s with Some (Ok s') => o_state s' = S_READ_CHAR /\ o_esc s' = 0 /\ o_inpos s' = 4 /\ inb s' = inb s /\ length (outb s') = 64 /\ core s' = core s /\ lg s' = lg s ++ [EvIn TAB] | _ => False end)
    by (vm_compute; repeat split).
  rewrite K in V. destruct V as (V1 & V2 & V3 & V4 & V5 & V6 & V7).
  assert (Ib : inb s = lit "ls ." ++ NUL :: skipn 5 (inb s)) by (vm_compute; reflexivity).
  exists demo_env, demo_own, dot_world, [lit "dev"], 0, (lit "ls ."), (lit ".d"), s, s'.
  split; [exact dot_knows|]. split; [reflexivity|]. split; [split; [exact P|split; [vm_compute; reflexivity|split; [vm_compute; reflexivity|eauto]]]|].
  split; [split; [vm_compute; reflexivity|split; [vm_compute; reflexivity|rewrite D; split; repeat constructor]]|]. split; [cbn; intuition discriminate|]. split; [rewrite D; reflexivity|].
  split; [vm_compute; reflexivity|]. split; [discriminate|]. split; [rewrite D; tab_fit|].
  split; [eapply key_ok; [exact P|exact K]|]. split; [split; [exact V1|split; [exact V2|split; [exact V3|rewrite V4; eauto]]]|].
  split; [|split; [exact V6|exact V7]]. assert (D' : o_desc s' = demo_desc) by (rewrite (core_desc _ _ V6); exact D). split; [rewrite V4, D'; vm_compute; reflexivity|]. split; [rewrite D'; exact V5|]. rewrite D'. split; repeat constructor.
Qed.
Print Assumptions C28_dot_refuted.
