(** * Property C75: ls and help tell everything.

    Vocabulary: the reader [read_ls], [read_help], [looks], [legible], [one_line] and [explore] in
    Listing.v; [fresh_line] in Reach.v; [typeable] in Builtin.v; [shows], [stock], [dir_listable]
    in Session.v; [drive], [both_ready], [polling], [prompt] in Sched.v. *)
From Coq Require Import Arith Lia.
From Verif Require Import Shell BaseFacts Words Sched Line Editor Spec Tree Cmds Complete Session SessionProofs Builtin Reach Listing ListingProofs Demo PropTree PropLine DemoCmd PropSession.

(** C75: from what ls prints for a mounted directory the reader recovers the names of its
    sub-directories and the name, the abilities and the description of each file, all of them and
    in order. *)
Theorem C75_ls : forall own x a s p dd, let d := x_desc x in let w := se_world a in
  shows own x a s -> d_exec d = None -> stock d w -> file_named (lit "ls") (flat_map snd (w_groups w)) = Some cmd_ls ->
  dir_at p (w_fs w) = Some dd -> dir_listable d dd -> Forall no_dots p -> length (show p) < d_pathmax d -> typeable d (command_line [lit "ls"; show p]) ->
  Forall legible (de_files dd) -> Forall one_line (map dir_name (children p (w_fs w))) ->
  exists n out, read_ls out = map SeenDir (map dir_name (children p (w_fs w))) ++ map looks (de_files dd) /\
    forall l, n <= both_ready l -> exists s' pre, drive (app_of x) (fresh_line [lit "ls"; show p]) l s = Ok ([], s') /\ polling s' /\
      lg s' = lg s ++ pre ++ EvExec XLs (Some (lit "ls")) [lit "ls"; show p] :: map EvOut (out ++ prompt d (show (here w))).
Proof. exact C75_ls_proof. Qed.
Print Assumptions C75_ls.

(** C75: from what help prints, the names and descriptions of all commands. *)
Theorem C75_help : forall own x a s, let d := x_desc x in let w := se_world a in let fl := flat_map snd (w_groups w) in
  shows own x a s -> d_exec d = None -> stock d w -> file_named (lit "help") fl = Some cmd_help ->
  typeable d (command_line [lit "help"]) -> Forall (listable d) fl -> Forall legible fl ->
  exists n out, read_help out = map (fun f => (f_name f, f_desc f)) fl /\
    forall l, n <= both_ready l -> exists s' pre, drive (app_of x) (fresh_line [lit "help"]) l s = Ok ([], s') /\ polling s' /\
      lg s' = lg s ++ pre ++ EvExec XHelp (Some (lit "help")) [lit "help"] :: map EvOut (out ++ prompt d (show (here w))).
Proof. exact C75_help_proof. Qed.
Print Assumptions C75_help.

(** C75: going from "/" into every directory that a listing names finds exactly the mounted
    directories. *)
Theorem C75_explore : forall fs names n, fs_ok fs -> fs <> [] -> (forall p, In p (map de_path fs) -> names p = map dir_name (children p fs)) ->
  (forall dd, In dd fs -> length (de_path dd) <= n) -> forall q, In q (explore n names []) <-> In q (map de_path fs).
Proof. exact C75_explore_proof. Qed.
Print Assumptions C75_explore.

Definition demo_dev : dirent := mkDir [lit "dev"] 2 [f_time; f_log].
Example C75_example : let w := demo_world in let d := demo_desc in let fl := flat_map snd (w_groups w) in
  shows demo_own demo_setting demo_sess demo /\ d_exec d = None /\ stock d w /\ file_named (lit "ls") fl = Some cmd_ls /\ file_named (lit "help") fl = Some cmd_help /\
  dir_at [lit "dev"] (w_fs w) = Some demo_dev /\ dir_listable d demo_dev /\ typeable d (command_line [lit "ls"; lit "/dev"]) /\ typeable d (command_line [lit "help"]) /\
  Forall legible (de_files demo_dev) /\ Forall one_line (map dir_name (children [lit "dev"] (w_fs w))) /\ Forall (listable d) fl /\ Forall legible fl /\
  map SeenDir (map dir_name (children [lit "dev"] (w_fs w))) ++ map looks (de_files demo_dev) =
    [SeenDir (lit "a"); SeenFile (lit "time") true true false false (Some (lit "clock")); SeenFile (lit "log") false false false false None] /\
  fs_ok (w_fs w) /\ explore 2 (fun p => map dir_name (children p (w_fs w))) [] = [[]; [lit "dev"]; [lit "dev"; lit "a"]].
Proof.
  cbv zeta. assert (Li : Forall (listable demo_desc) (flat_map snd (w_groups demo_world))).
  { apply Forall_forall. intros f I. apply (demo_ample demo_world demo_in). left. exact I. }
  assert (Le : forall fl, forallb (fun f => forallb (fun c => negb (ceq c ESC || ceq c CR || ceq c LF)) (f_name f ++ match f_desc f with Some d => d | None => [] end) && forallb (fun c => negb (ceq c SP)) (f_name f)) fl = true -> Forall legible fl).
  { intros fl H. apply Forall_forall. intros f I. rewrite forallb_forall in H. specialize (H f I). apply andb_true_iff in H as (H1 & H2). rewrite forallb_forall in H1, H2.
    assert (One : forall t, (forall c, In c t -> In c (f_name f ++ match f_desc f with Some d => d | None => [] end)) -> one_line t).
    { intros t T. repeat split; intros J; specialize (H1 _ (T _ J)); discriminate. }
    split; [apply One; intros; apply in_or_app; auto|]. split; [intros J; specialize (H2 _ J); discriminate|]. intros dd E. apply One. rewrite E. intros; apply in_or_app; auto. }
  split; [exact demo_shows|]. split; [reflexivity|]. split; [exact demo_stock|]. split; [reflexivity|]. split; [reflexivity|]. split; [reflexivity|].
  split. { split; [|left; apply Nat.ltb_lt; reflexivity]. apply Forall_forall. intros f I. apply (demo_ample demo_world demo_in). right. exists demo_dev. split; [right; left; reflexivity|exact I]. }
  split; [split; [repeat constructor; discriminate|vm_compute; lia]|]. split; [split; [repeat constructor; discriminate|vm_compute; lia]|].
  split; [apply Le; vm_compute; reflexivity|]. split; [repeat constructor; cbn; intuition discriminate|]. split; [exact Li|]. split; [apply Le; vm_compute; reflexivity|].
  split; [vm_compute; reflexivity|]. split; [apply demo_knows|vm_compute; reflexivity].
Qed.
