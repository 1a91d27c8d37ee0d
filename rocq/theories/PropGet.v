(** * Property C51: getters that call the API.

    Vocabulary: [asked], [does], [gives_calling], [reads_on] (reading files one after the
    other while their getters change the world), [has_getter], [denotes], [findable],
    [plain_print], [proper_call], [tree_calls], [xxd_dump] in Cmds.v; [spec_ops], [all_allowed],
    [knows] in Tree.v; [drive] (the service calls of any schedule) in Sched.v. *)
From Coq Require Import Arith Lia.
From Verif Require Import Shell BaseFacts Words Sched SchedFacts SchedProofs Line Editor Spec Tree Cmds LineFacts CmdProofs GetProofs Complete Session SessionProofs Demo PropTree PropLine DemoCmd PropSession PropReconf PropHook.

(** C51: the getters of the files cat reads may mount and unmount directories, register and
    remove commands and change the directory.  The calls have the effect they have outside
    callbacks, the data printed are not disturbed, and the prompt shows the new directory. *)
Theorem C51_cat : forall e own w cwd l n names s c evs w' cwd', asked e own w cwd l (n :: names) cmd_cat s -> c = CR \/ c = LF -> names <> [] -> findable s w names ->
  Forall (has_getter (denotes w)) names -> reads_on e own s w names evs w' -> w_cwd w' = Some cwd' ->
  exists s', does e c s XCat cmd_cat (n :: names) evs [] cwd' s' /\ knows own s' w' /\ o_desc s' = o_desc s.
Proof. exact C51_cat_proof. Qed.
Print Assumptions C51_cat.

(** C51: so may the getter of the file xxd dumps; if it also prints, that is lost. *)
Theorem C51_xxd : forall e own w cwd l n name s c g cb d extra calls cwd', asked e own w cwd l [n; name] cmd_xxd s -> c = CR \/ c = LF -> findable s w [name] ->
  denotes w name = Some g -> f_get g = Some cb -> e_get e cb (f_name g) = mkGet (GData (d ++ extra)) (length d) calls -> dumpable (o_desc s) d ->
  let hk := hook_calls e (o_desc s) [n; name] in
  let w' := snd (spec_ops (tree_calls calls) w) in
  Forall (proper_call []) calls -> room_for (o_desc s) (hk ++ calls) -> all_allowed (d_pathmax (o_desc s)) own (tree_calls calls) w -> w_cwd w' = Some cwd' ->
  exists s', does e c s XXxd cmd_xxd [n; name] [EvGet cb (f_name g)] (xxd_dump (cfg_cols (d_cfg (o_desc s))) d) cwd' s' /\ knows own s' w' /\ o_desc s' = o_desc s.
Proof. exact C51_xxd_proof. Qed.
Print Assumptions C51_xxd.

(** C51: a getter that prints while cat reads its file stops the shell for good: the data
    come out, and from then on service calls have no effect at all, whatever is typed. *)
Theorem C51_printing_getter_hangs : forall e own w cwd l n pre name post s c evs w' f cb d extra calls,
  asked e own w cwd l (n :: pre ++ name :: post) cmd_cat s -> c = CR \/ c = LF -> findable s w (pre ++ name :: post) ->
  Forall (has_getter (denotes w)) (pre ++ name :: post) -> reads_on e own s w pre evs w' ->
  findable s w' [name] -> denotes w' name = Some f -> f_get f = Some cb -> e_get e cb (f_name f) = mkGet (GData (d ++ extra)) (length d) calls -> Forall plain_print calls -> calls <> [] ->
  exists l1 s1, drive (always e) [c] l1 s = Ok ([], s1) /\
    lg s1 = lg s ++ EvIn c :: map EvOut (eol_echo c) ++ hook_events (o_desc s) (n :: pre ++ name :: post) ++
      EvExec XCat (Some (f_name cmd_cat)) (n :: pre ++ name :: post) :: evs ++ EvGet cb (f_name f) :: map EvOut d /\
    forall a q l2, drive a q l2 s1 = Ok (q, s1).
Proof. exact C51_hang_proof. Qed.
Print Assumptions C51_printing_getter_hangs.

(** C51: if the getters called so far have made a later name of the same cat unreadable,
    cat follows a NULL pointer: the check made before the first file is not repeated. *)
Theorem C51_lost_file_crashes : forall e own w cwd l n pre name post s c evs w', asked e own w cwd l (n :: pre ++ name :: post) cmd_cat s -> c = CR \/ c = LF ->
  findable s w (pre ++ name :: post) -> Forall (has_getter (denotes w)) (pre ++ name :: post) -> reads_on e own s w pre evs w' ->
  findable s w' [name] -> ~ has_getter (denotes w') name ->
  exists l1, drive (always e) [c] l1 s = Err ENull.
Proof. exact C51_lost_proof. Qed.
Print Assumptions C51_lost_file_crashes.

(** C51: at a getter that gives NULL, or does not set its pointer, cat stops, whatever the size
    returned: with a failed assertion, or by using an indeterminate pointer. *)
Theorem C51_cat_no_pointer : forall e own w cwd l n pre name post s c evs w' f cb p z x, asked e own w cwd l (n :: pre ++ name :: post) cmd_cat s -> c = CR \/ c = LF ->
  findable s w (pre ++ name :: post) -> Forall (has_getter (denotes w)) (pre ++ name :: post) -> reads_on e own s w pre evs w' ->
  findable s w' [name] -> denotes w' name = Some f -> f_get f = Some cb -> e_get e cb (f_name f) = mkGet p z [] ->
  p = GNull /\ x = EAssert \/ p = GUnset /\ x = EUninit ->
  exists l1, drive (always e) [c] l1 s = Err x.
Proof. exact C51_null_proof. Qed.
Print Assumptions C51_cat_no_pointer.

(** C51: xxd follows a NULL pointer if the size is not 0 (if it is 0, see C20). *)
Theorem C51_xxd_null : forall e own w cwd l n name s c g cb z, asked e own w cwd l [n; name] cmd_xxd s -> c = CR \/ c = LF -> findable s w [name] ->
  denotes w name = Some g -> f_get g = Some cb -> e_get e cb (f_name g) = mkGet GNull z [] -> 0 < z -> 0 < cfg_cols (d_cfg (o_desc s)) -> 10 < d_outsize (o_desc s) ->
  exists l1, drive (always e) [c] l1 s = Err ENull.
Proof. exact C51_xxd_null_proof. Qed.
Print Assumptions C51_xxd_null.

(** The demo shell with other getters. *)
Definition blank_env (p : gptr) (z : nat) : env := mkEnv (e_exec demo_env) (fun _ _ => mkGet p z []) (e_set demo_env) (e_proc demo_env).
(** "xxd dev/time" has been entered, and is typed again. *)
Definition dumped_once : st := Eval vm_compute in st_of (drive (always demo_env) (lit "xxd dev/time" ++ [CR] ++ lit "xxd dev/time") (repeat (true, true) 500) demo).
(** C51: if a getter returns a size and does not set its pointer, xxd shows the data of the file
    that was dumped before: "12:00" here, although the file has given no data. *)
Theorem C51_xxd_unset_refuted : exists e own w cwd l n name s g cb, asked e own w cwd l [n; name] cmd_xxd s /\ findable s w [name] /\
  denotes w name = Some g /\ f_get g = Some cb /\ e_get e cb (f_name g) = mkGet GUnset 5 [] /\
  exists l1 s1, drive (always e) [CR] l1 s = Ok ([], s1) /\
    lg s1 = lg s ++ EvIn CR :: map EvOut CRLF ++ EvExec XXxd (Some (lit "xxd")) [n; name] :: EvGet cb (f_name g) :: map EvOut (xxd_dump (cfg_cols (d_cfg (o_desc s))) (lit "12:00") ++ prompt (o_desc s) (show cwd)).
Proof.
  set (l := lit "xxd dev/time"). exists (blank_env GUnset 5), demo_own, demo_world, [], l, (lit "xxd"), (lit "dev/time"), dumped_once, f_time, 0.
  assert (K : core dumped_once = core demo) by (vm_compute; reflexivity). assert (D : o_desc dumped_once = demo_desc) by (vm_compute; reflexivity).
  split; [|split; [|split; [vm_compute; reflexivity|split; [reflexivity|split; [reflexivity|]]]]].
  - split; [exact (knows_core _ _ _ _ K demo_knows)|]. split; [reflexivity|]. split; [|split; [rewrite D; apply demo_no_hook|vm_compute; reflexivity]].
    split; [split; [vm_compute; reflexivity|]; split; [vm_compute; reflexivity|]; split; [vm_compute; reflexivity|]; exists (skipn 13 (inb dumped_once)); vm_compute; reflexivity|].
    split; [vm_compute; repeat split; repeat constructor|]. split; [split; vm_compute; intuition discriminate|vm_compute; reflexivity].
  - split; [rewrite D; exact (proj1 C17_example)|]. constructor; [|constructor]. right. rewrite D. apply Nat.ltb_lt. vm_compute. reflexivity.
  - exists (repeat (true, true) 300), (st_of (drive (always (blank_env GUnset 5)) [CR] (repeat (true, true) 300) dumped_once)). split; vm_compute; reflexivity.
Qed.
Print Assumptions C51_xxd_unset_refuted.

Example C51_no_pointer_example :
  asked (blank_env GNull 0) demo_own demo_world [] (lit "cat dev/time") [lit "cat"; lit "dev/time"] cmd_cat (demo_line "cat dev/time") /\
  asked (blank_env GNull 3) demo_own demo_world [] (lit "xxd dev/time") [lit "xxd"; lit "dev/time"] cmd_xxd (demo_line "xxd dev/time") /\
  gives_or_none (blank_env GNull 0) 0 f_time [] /\ gives_or_none (blank_env GUnset 0) 0 f_time [] /\
  outs (lg (st_of (drive (always (blank_env GNull 0)) [CR] (repeat (true, true) 2000) (demo_line "xxd dev/time")))) =
    outs (lg (demo_line "xxd dev/time")) ++ CRLF ++ xxd_dump (cfg_cols (d_cfg demo_desc)) [] ++ prompt demo_desc (lit "/").
Proof.
  split; [demo_ask|]. split; [demo_ask|]. split; [exists GNull; split; [reflexivity|left; reflexivity]|]. split; [exists GUnset; split; [reflexivity|left; reflexivity]|]. vm_compute. reflexivity.
Qed.

Definition get_env (calls : list action) : env :=
  mkEnv (e_exec demo_env) (fun _ _ => mkGet (GData (lit "12:00")) 5 calls) (e_set demo_env) (e_proc demo_env).
Definition dev_world : world := mkWorld (w_fs demo_world) (w_groups demo_world) (Some [lit "dev"]).

Lemma enter_dev : forall l w rest evs w', core (demo_line l) = core demo -> In w [demo_world; dev_world] ->
  forall name, length (full_text [] name) <? 64 = true -> length (full_text [lit "dev"] name) <? 64 = true -> denotes w name = Some f_time ->
  reads_on (get_env [ASetDir (lit "/dev")]) demo_own (demo_line l) dev_world rest evs w' ->
  reads_on (get_env [ASetDir (lit "/dev")]) demo_own (demo_line l) w (name :: rest) (EvGet 0 (lit "time") :: map EvOut (lit "12:00") ++ evs) w'.
Proof.
  intros l w rest evs w' K I name L1 L2 De R. assert (D : o_desc (demo_line l) = demo_desc) by (rewrite (core_desc _ _ K); reflexivity).
  apply (reads_on_cons _ _ _ w name f_time 0 (lit "12:00") [TChdir (lit "/dev")]).
  - split; [rewrite D; destruct I as [<-|[<-|[]]]; exact (proj1 C17_example)|]. constructor; [|constructor]. right. rewrite D. apply Nat.ltb_lt.
    destruct I as [<-|[<-|[]]]; [exact L1|exact L2].
  - exact De.
  - reflexivity.
  - exists [], [ASetDir (lit "/dev")]. split; [reflexivity|]. split; [repeat constructor; discriminate|reflexivity].
  - rewrite D. destruct I as [<-|[<-|[]]]; right_calls.
  - destruct I as [<-|[<-|[]]]; vm_compute; discriminate.
  - replace (snd (spec_ops [TChdir (lit "/dev")] w)) with dev_world; [exact R|]. destruct I as [<-|[<-|[]]]; vm_compute; reflexivity.
Qed.

Definition both := "cat dev/time /dev/time"%string.
Definition lost := "cat dev/time dev/time"%string.
Example C51_example :
  (* the getter enters /dev; the second name is absolute *)
  asked (get_env [ASetDir (lit "/dev")]) demo_own demo_world [] (lit both) [lit "cat"; lit "dev/time"; lit "/dev/time"] cmd_cat (demo_line both) /\
  findable (demo_line both) demo_world [lit "dev/time"; lit "/dev/time"] /\ Forall (has_getter (denotes demo_world)) [lit "dev/time"; lit "/dev/time"] /\
  reads_on (get_env [ASetDir (lit "/dev")]) demo_own (demo_line both) demo_world [lit "dev/time"; lit "/dev/time"]
    (EvGet 0 (lit "time") :: map EvOut (lit "12:00") ++ EvGet 0 (lit "time") :: map EvOut (lit "12:00") ++ []) dev_world /\
  (* the second name is relative: it is lost *)
  asked (get_env [ASetDir (lit "/dev")]) demo_own demo_world [] (lit lost) [lit "cat"; lit "dev/time"; lit "dev/time"] cmd_cat (demo_line lost) /\
  findable (demo_line lost) demo_world [lit "dev/time"; lit "dev/time"] /\ Forall (has_getter (denotes demo_world)) [lit "dev/time"; lit "dev/time"] /\
  reads_on (get_env [ASetDir (lit "/dev")]) demo_own (demo_line lost) demo_world [lit "dev/time"] (EvGet 0 (lit "time") :: map EvOut (lit "12:00") ++ []) dev_world /\
  ~ has_getter (denotes dev_world) (lit "dev/time") /\
  (* the getter prints *)
  asked (get_env [APrint (lit "hello")]) demo_own demo_world [] (lit lost) [lit "cat"; lit "dev/time"; lit "dev/time"] cmd_cat (demo_line lost) /\
  denotes demo_world (lit "dev/time") = Some f_time /\ Forall plain_print [APrint (lit "hello")] /\
  outs (lg (st_of (drive (always (get_env [APrint (lit "hello")])) [CR] (repeat (true, true) 500) (demo_line lost)))) =
    outs (lg (demo_line lost)) ++ CRLF ++ lit "12:00".
Proof.
  assert (H : has_getter (denotes demo_world) (lit "dev/time")) by (exists f_time, 0; split; vm_compute; reflexivity).
  assert (H' : has_getter (denotes demo_world) (lit "/dev/time")) by (exists f_time, 0; split; vm_compute; reflexivity).
  split; [demo_ask|]. split; [apply demo_findable; vm_compute; reflexivity|]. split; [constructor; [exact H|constructor; [exact H'|constructor]]|].
  split.
  { apply enter_dev; try (vm_compute; reflexivity); [left; reflexivity|]. apply enter_dev; try (vm_compute; reflexivity); [right; left; reflexivity|]. apply reads_on_nil. }
  split; [demo_ask|]. split; [apply demo_findable; vm_compute; reflexivity|]. split; [constructor; [exact H|constructor; [exact H|constructor]]|].
  split.
  { apply enter_dev; try (vm_compute; reflexivity); [left; reflexivity|]. apply reads_on_nil. }
  split; [intros (f & cb & De & _); vm_compute in De; discriminate|].
  split; [demo_ask|]. split; [vm_compute; reflexivity|]. split; [repeat constructor|]. vm_compute. reflexivity.
Qed.

(** xxd: the getter prints and enters /dev; only the dump comes out. *)
Example C51_example_xxd :
  let e := get_env [APrint (lit "hello"); ASetDir (lit "/dev")] in
  asked e demo_own demo_world [] (lit "xxd dev/time") [lit "xxd"; lit "dev/time"] cmd_xxd (demo_line "xxd dev/time") /\
  Forall (proper_call []) [APrint (lit "hello"); ASetDir (lit "/dev")] /\ dumpable demo_desc (lit "12:00") /\
  all_allowed (d_pathmax demo_desc) demo_own (tree_calls [APrint (lit "hello"); ASetDir (lit "/dev")]) demo_world /\
  snd (spec_ops (tree_calls [APrint (lit "hello"); ASetDir (lit "/dev")]) demo_world) = dev_world /\
  outs (lg (st_of (drive (always e) [CR] (repeat (true, true) 2000) (demo_line "xxd dev/time")))) =
    outs (lg (demo_line "xxd dev/time")) ++ CRLF ++ xxd_dump (cfg_cols (d_cfg demo_desc)) (lit "12:00") ++ prompt demo_desc (lit "/dev").
Proof.
  cbv zeta. split; [demo_ask|]. split; [repeat constructor|]. split; [unfold dumpable; cbn; repeat split; try lia; vm_compute; discriminate|].
  split; [right_calls|]. split; vm_compute; reflexivity.
Qed.

(** A session (C41, C51): every reading of "dev/time" registers the command "now" afresh. *)
Definition f_now : file := mkFile (lit "now") None None (Some (XUser 0)) None None None.
Definition refresh : list action := [ACmdRemove 5; ACmdAdd 5 [f_now]].
Definition keen_setting : setting := mkSetting demo_desc (fun _ => get_env refresh).
Definition keen_groups : groups := (5, [f_now]) :: w_groups demo_world.
Definition keen_worlds (w : world) : Prop :=
  w_fs w = w_fs demo_world /\ (w_groups w = w_groups demo_world \/ w_groups w = keen_groups) /\ exists dd, In dd (w_fs demo_world) /\ w_cwd w = Some (de_path dd).

Lemma keen_file : forall w f, keen_worlds w -> file_of w f -> In f (f_now :: buildin_commands cfg_posix ++ [f_run; f_time; f_log]).
Proof.
  intros w f (F & G & _) [I|(dd & I & J)].
  - destruct G as [G|G]; rewrite G in I; [right|destruct I as [I|I]; [left; exact I|right]]; apply in_or_app; left; cbn [demo_world w_groups flat_map snd app] in I; rewrite app_nil_r in I; exact I.
  - right. apply in_or_app. right. rewrite F in I. cbn in I. destruct I as [<-|[<-|[<-|[]]]]; cbn in J; cbn; tauto.
Qed.

Lemma keen_now : forall w n f, keen_worlds w -> denotes w n = Some f -> f_get f <> None -> denotes (mkWorld (w_fs w) keen_groups (w_cwd w)) n = Some f.
Proof.
  intros w n f (F & G & dd & I & C) De Gt. destruct G as [G|G]; [|rewrite <- G; destruct w; exact De].
  unfold denotes, find_file in *. cbn [w_groups w_fs here w_cwd]. rewrite F, G in *. unfold keen_groups. cbn [flat_map snd app]. unfold file_named at 1. cbn [find].
  destruct (beq (f_name f_now) n) eqn:B; [|exact De]. apply beq_true in B. subst n. exfalso.
  unfold here in De. rewrite C in De. cbn in I. destruct I as [<-|[<-|[<-|[]]]]; vm_compute in De; discriminate.
Qed.

Lemma keen_calls : forall w, keen_worlds w -> after_get (get_env refresh) w 0 f_time = mkWorld (w_fs w) keen_groups (w_cwd w) /\
  all_allowed (d_pathmax demo_desc) demo_own (tree_calls refresh) w.
Proof.
  intros [fs gs cwd] (F & G & _). cbn [w_fs w_groups w_cwd] in *. subst fs. split.
  - destruct G as [-> | ->]; vm_compute; reflexivity.
  - destruct G as [-> | ->]; cbn [tree_calls refresh flat_map tree_call app]; right_calls.
Qed.

Lemma keen_ample : ample demo_own keen_setting keen_worlds.
Proof.
  intros w Kw. pose proof Kw as (F & G & dd0 & I0 & C0). assert (Wn : w_cwd w <> None) by congruence.
  destruct (keen_calls w Kw) as (Ca & Al). destruct demo_stock as (S1 & S2 & S3).
  assert (Sm : forall dd, In dd (w_fs demo_world) -> length (show (de_path dd)) + 32 < 64).
  { intros dd I. cbn in I. destruct I as [<-|[<-|[<-|[]]]]; apply Nat.ltb_lt; reflexivity. }
  assert (Kn : keen_worlds (mkWorld (w_fs w) keen_groups (w_cwd w))) by (split; [exact F|]; split; [right; reflexivity|]; exists dd0; split; [exact I0|exact C0]).
  split.
  { split; [|split; [rewrite F; exact S2|rewrite F; exact S3]]. intros f cb I. destruct G as [G|G]; rewrite G in I; [exact (S1 f cb I)|]. destruct I as [<-|I]; [|exact (S1 f cb I)].
    intros E. injection E as <-. exact Logic.I. }
  split; [rewrite F; exact Sm|]. split; [unfold here; rewrite C0; exact (Sm _ I0)|]. split; [apply Nat.ltb_lt; reflexivity|].
  split; [|split; [|intros h; split; [|split; [|split]]]].
  - intros f If. apply (keen_file w f Kw) in If. assert (A : Forall (listable demo_desc) (f_now :: buildin_commands cfg_posix ++ [f_run; f_time; f_log])).
    { repeat constructor; try (apply Nat.ltb_lt; vm_compute; reflexivity); cbn; intuition discriminate. }
    exact (proj1 (Forall_forall _ _) A f If).
  - intros dd I. rewrite F in I. split; [exact F|]. split; [exact G|]. exists dd. split; [exact I|reflexivity].
  - intros f k ws _ _. split; [exists [], refresh; reflexivity|]. split.
    { split; [apply Nat.ltb_lt; reflexivity|]. split; [vm_compute; discriminate|]. split; apply Nat.ltb_lt; reflexivity. }
    split; [repeat constructor; discriminate|]. change (after_get (get_env refresh) w k f) with (after_get (get_env refresh) w 0 f_time). split.
    { split; [repeat constructor|]. split; [left; apply Nat.leb_le; reflexivity|]. split; [exact Al|]. change (w_cwd (after_get (get_env refresh) w 0 f_time) <> None). rewrite Ca. exact Wn. }
    change (keen_worlds (after_get (get_env refresh) w 0 f_time) /\ forall n, unreadable w n = None -> unreadable (after_get (get_env refresh) w 0 f_time) n = None).
    rewrite Ca. split; [exact Kn|]. intros n U. unfold unreadable in *. destruct (denotes w n) as [g|] eqn:De; [|discriminate].
    destruct (f_get g) as [j|] eqn:Gg; [|discriminate]. rewrite (keen_now w n g Kw De) by congruence. rewrite Gg. reflexivity.
  - intros ws. split; [|exact Kw]. split; [constructor|]. split; [left; apply Nat.leb_le; reflexivity|]. split; [exact I|exact Wn].
  - intros f k ws t _ _. split; [constructor|]. split; [|exact Kw]. split; [constructor|]. split; [left; apply Nat.leb_le; reflexivity|]. split; [exact I|exact Wn].
  - intros f k ws _ _. split; [|exact Kw]. split; [repeat constructor|]. split; [left; apply Nat.leb_le; reflexivity|]. split; [exact I|exact Wn].
Qed.

Definition keen_keys : bytes := lit "now" ++ [CR] ++ lit "cat dev/time dev/time" ++ [CR] ++ lit "now" ++ [CR].
Example C51_example_session :
  ample demo_own keen_setting keen_worlds /\ keen_worlds (se_world demo_sess) /\ shows demo_own keen_setting demo_sess demo /\ ~ In TAB keen_keys /\
  outs_of (fst (sess_run keen_setting demo_sess keen_keys)) =
    lit "now" ++ CRLF ++ lit "error: syntax error" ++ CRLF ++ prompt demo_desc (lit "/") ++
    lit "cat dev/time dev/time" ++ CRLF ++ lit "12:0012:00" ++ prompt demo_desc (lit "/") ++
    lit "now" ++ CRLF ++ lit "running" ++ CRLF ++ prompt demo_desc (lit "/").
Proof.
  split; [exact keen_ample|]. split; [split; [reflexivity|]; split; [left; reflexivity|]; exists (mkDir [] 1 [f_run]); split; [cbn; tauto|reflexivity]|].
  split; [exact demo_shows|]. split; [cbn; intuition discriminate|]. vm_compute. reflexivity.
Qed.

(** A session (C41, C47) with an exec hook that registers the command "now" afresh for every
    line, before the name is looked up. *)
Definition hooking_env : env :=
  mkEnv (fun _ who _ => match who with None => refresh | Some _ => [APrint (lit "running")] end)
        (fun _ _ => mkGet (GData (lit "12:00")) 5 []) (fun _ _ _ => []) (fun _ _ => []).
Definition hooking_setting : setting := mkSetting hook_desc (fun _ => hooking_env).

Lemma hooking_ample : ample demo_own hooking_setting keen_worlds.
Proof.
  intros w Kw. pose proof Kw as (F & G & dd0 & I0 & C0). assert (Wn : w_cwd w <> None) by congruence.
  destruct (keen_calls w Kw) as (Ca & Al). destruct demo_stock as (S1 & S2 & S3).
  assert (Sm : forall dd, In dd (w_fs demo_world) -> length (show (de_path dd)) + 32 < 64).
  { intros dd I. cbn in I. destruct I as [<-|[<-|[<-|[]]]]; apply Nat.ltb_lt; reflexivity. }
  assert (Kn : keen_worlds (mkWorld (w_fs w) keen_groups (w_cwd w))) by (split; [exact F|]; split; [right; reflexivity|]; exists dd0; split; [exact I0|exact C0]).
  split.
  { split; [|split; [rewrite F; exact S2|rewrite F; exact S3]]. intros f cb I. destruct G as [G|G]; rewrite G in I; [exact (S1 f cb I)|]. destruct I as [<-|I]; [|exact (S1 f cb I)].
    intros E. injection E as <-. exact Logic.I. }
  split; [rewrite F; exact Sm|]. split; [unfold here; rewrite C0; exact (Sm _ I0)|]. split; [apply Nat.ltb_lt; reflexivity|].
  split; [|split; [|intros h; split; [|split; [|split]]]].
  - intros f If. apply (keen_file w f Kw) in If. assert (A : Forall (listable hook_desc) (f_now :: buildin_commands cfg_posix ++ [f_run; f_time; f_log])).
    { repeat constructor; try (apply Nat.ltb_lt; vm_compute; reflexivity); cbn; intuition discriminate. }
    exact (proj1 (Forall_forall _ _) A f If).
  - intros dd I. rewrite F in I. split; [exact F|]. split; [exact G|]. exists dd. split; [exact I|reflexivity].
  - intros f k ws _ _. split; [exists [], []; reflexivity|]. split.
    { split; [apply Nat.ltb_lt; reflexivity|]. split; [vm_compute; discriminate|]. split; apply Nat.ltb_lt; reflexivity. }
    split; [constructor|]. split; [split; [constructor|]; split; [left; apply Nat.leb_le; reflexivity|]; split; [exact I|exact Wn]|].
    split; [exact Kw|intros n U; exact U].
  - intros ws. change (calls_well demo_own hook_desc w ws [] refresh /\ keen_worlds (after_get (get_env refresh) w 0 f_time)). rewrite Ca. split; [|exact Kn].
    split; [repeat constructor|]. split; [left; apply Nat.leb_le; reflexivity|]. split; [exact Al|].
    change (w_cwd (after_get (get_env refresh) w 0 f_time) <> None). rewrite Ca. exact Wn.
  - intros f k ws t _ _. split; [repeat constructor|]. split; [|exact Kw]. split; [constructor|]. split; [left; apply Nat.leb_le; reflexivity|]. split; [exact I|exact Wn].
  - intros f k ws _ _. split; [|exact Kw]. split; [repeat constructor|]. split; [left; apply Nat.leb_le; reflexivity|]. split; [exact I|exact Wn].
Qed.

Lemma hooking_shows : shows demo_own hooking_setting demo_sess hook_shell.
Proof.
  split; [reflexivity|]. split; [exact (hook_knows "" eq_refl eq_refl eq_refl eq_refl)|]. split; [discriminate|]. split; [reflexivity|].
  split. { split; [reflexivity|split; [reflexivity|split; [reflexivity|]]]. eexists. vm_compute. reflexivity. }
  split; [vm_compute; repeat split; repeat constructor|]. split; [cbn; repeat constructor|split; intros []].
Qed.

Definition hooking_keys : bytes := lit "now" ++ [CR] ++ lit "pwd" ++ [CR].
Example C47_example_session :
  ample demo_own hooking_setting keen_worlds /\ keen_worlds (se_world demo_sess) /\ shows demo_own hooking_setting demo_sess hook_shell /\ ~ In TAB hooking_keys /\
  outs_of (fst (sess_run hooking_setting demo_sess hooking_keys)) =
    lit "now" ++ CRLF ++ lit "running" ++ CRLF ++ prompt hook_desc (lit "/") ++
    lit "pwd" ++ CRLF ++ lit "/" ++ CRLF ++ prompt hook_desc (lit "/") /\
  se_world (snd (sess_run hooking_setting demo_sess hooking_keys)) = mkWorld (w_fs demo_world) keen_groups (Some []).
Proof.
  split; [exact hooking_ample|]. split; [split; [reflexivity|]; split; [left; reflexivity|]; exists (mkDir [] 1 [f_run]); split; [cbn; tauto|reflexivity]|].
  split; [exact hooking_shows|]. split; [cbn; intuition discriminate|]. split; vm_compute; reflexivity.
Qed.
