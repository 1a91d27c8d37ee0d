(** * Properties C13 to C18, C35, C36, C39, C40, C43: the directory tree and the commands.

    Vocabulary: Tree.v, in particular [fsys] (the mounted directories, newest first),
    [world], [knows own s w] (shell [s] stands for world [w] and uses only node objects of
    [own]), [only_tree], [dir_at] (by path), [dir_named] (by text), [children], [scan];
    [show], [slashed], [resolve_text], [full_text], [path_ok] in Spec.v. *)
From Verif Require Import Shell Sched Spec Tree TreeProofs MountProofs Demo.

(** C13: mounting. *)
Theorem C13_mount : forall own s w p id fl, knows own s w -> path_ok p -> length (show p) < d_pathmax (o_desc s) -> In id own -> ~ used w id ->
  exists x s', ush_node_mount (show p) id fl s = Ok (x, s') /\ only_tree own s s' /\
  ((x = ST_NODE_ALREADY_MOUNTED /\ dir_at p (w_fs w) <> None /\ knows own s' w) \/
   (x = ST_NODE_WITHOUT_PARENT /\ dir_at p (w_fs w) = None /\ p <> [] /\ dir_at (removelast p) (w_fs w) = None /\ knows own s' w) \/
   (x = ST_OK /\ dir_at p (w_fs w) = None /\ (p = [] \/ dir_at (removelast p) (w_fs w) <> None) /\
    knows own s' (mkWorld (mkDir p id fl :: w_fs w) (w_groups w) (match p with [] => Some [] | _ => w_cwd w end)))).
Proof. exact C13_proof. Qed.
Print Assumptions C13_mount.

(** The world of the demo shell: "/", "/dev" and "/dev/a" are mounted, nodes 4 and 5 are free. *)
Definition demo_world : world :=
  mkWorld [mkDir [lit "dev"; lit "a"] 3 []; mkDir [lit "dev"] 2 [f_time; f_log]; mkDir [] 1 [f_run]]
          [(0, buildin_commands cfg_posix)] (Some []).
Definition demo_own : list nat := [0; 1; 2; 3; 4; 5].

Ltac solve_in := repeat match goal with
  | H : In _ _ |- _ => progress cbn [map In de_node de_path fst demo_world w_fs w_groups demo_own] in H
  | H : _ \/ _ |- _ => destruct H
  | H : False |- _ => destruct H
  | H : _ = ?x |- _ => is_var x; subst x
  end.

Lemma demo_knows : knows demo_own demo demo_world.
Proof.
  split; [|split; [|split; [|split; [|split]]]].
  - split; [split; [|split; [|split]]|split].
    + repeat constructor; try discriminate; cbn; intuition discriminate.
    + repeat constructor; cbn; intuition discriminate.
    + repeat constructor; cbn; intuition discriminate.
    + intros d I N. solve_in; cbn; auto; congruence.
    + intros d I. solve_in; eexists; (split; [reflexivity|]); repeat split; try reflexivity; cbn; repeat (eexists; split; [reflexivity|]); repeat split; eexists; split; reflexivity.
    + cbn. split; [reflexivity|]. eexists. split; reflexivity.
  - split; [repeat constructor; cbn; intuition|split].
    + cbn. split; [reflexivity|]. eexists. split; reflexivity.
    + intros i fl I. cbn in I. destruct I as [E|[]]. injection E as <- <-. eexists. split; reflexivity.
  - intros i I J. solve_in; discriminate.
  - intros i [I|I]; solve_in; cbn; tauto.
  - intros i I. solve_in; eexists; (split; [reflexivity|]); cbn; intros; try reflexivity; tauto.
  - eexists. split; reflexivity.
Qed.

Example C13_example :
  knows demo_own demo demo_world /\ path_ok [lit "dev"; lit "b"] /\ ~ used demo_world 4 /\
  (exists s', ush_node_mount (lit "/dev/b") 4 [f_log] demo = Ok (ST_OK, s')) /\
  (exists s', ush_node_mount (lit "/etc/b") 4 [f_log] demo = Ok (ST_NODE_WITHOUT_PARENT, s')) /\
  (exists s', ush_node_mount (lit "/dev") 4 [f_log] demo = Ok (ST_NODE_ALREADY_MOUNTED, s')).
Proof.
  split; [exact demo_knows|]. split; [repeat constructor; try discriminate; cbn; intuition discriminate|].
  split; [cbn; unfold used; cbn; intuition discriminate|].
  split; [|split]; (match goal with |- exists s', ?m = Ok (?x, s') => exists (st_of m) end; vm_compute; reflexivity).
Qed.

(** C13: mounting at any text: the status, and no change of the tree on an error.  ([inside]
    in Tree.v: the text reads as a path directly inside a mounted directory.) *)
Theorem C13_any_text : forall own s w t id fl, knows own s w -> ~ In NUL t -> length t < d_pathmax (o_desc s) -> In id own -> ~ used w id ->
  exists x s', ush_node_mount t id fl s = Ok (x, s') /\ only_tree own s s' /\ (x <> ST_OK -> knows own s' w) /\
  ((x = ST_NODE_ALREADY_MOUNTED /\ dir_named t (w_fs w) <> None) \/
   (x = ST_NODE_WITHOUT_PARENT /\ dir_named t (w_fs w) = None /\ t <> lit "/" /\ ~ exists d, In d (w_fs w) /\ inside d t) \/
   (x = ST_OK /\ dir_named t (w_fs w) = None /\ (t = lit "/" \/ exists d, In d (w_fs w) /\ inside d t))).
Proof. exact C13_any_proof. Qed.
Print Assumptions C13_any_text.

Definition status_of {A} (r : res (status * A)) : option status := match r with Ok (x, _) => Some x | Err _ => None end.
Example C13_any_text_example :
  map (fun t => status_of (ush_node_mount (lit t) 4 [] demo)) ["dev/b"; "dev"; "x"; ""; "/dev/"; "//b"; "/dev//b"; "/dev/a/../b"]%string =
    [Some ST_NODE_WITHOUT_PARENT; Some ST_NODE_WITHOUT_PARENT; Some ST_NODE_WITHOUT_PARENT; Some ST_NODE_ALREADY_MOUNTED;
     Some ST_OK; Some ST_OK; Some ST_NODE_WITHOUT_PARENT; Some ST_NODE_WITHOUT_PARENT].
Proof. vm_compute. reflexivity. Qed.

(** That a path is mounted at most once, and can be unmounted after it has been mounted, does
    not hold for texts that are not normalised: "//b" is mounted twice, cannot be found, and
    neither it nor the root above it can be unmounted. *)
Theorem C13_unnormalised_refuted : exists own s w t s1 s2,
  knows own s w /\ ~ In NUL t /\ length t < d_pathmax (o_desc s) /\ ~ used w 4 /\ ~ used w 5 /\
  ush_node_mount t 4 [] s = Ok (ST_OK, s1) /\ ush_node_mount t 5 [] s1 = Ok (ST_OK, s2) /\
  ush_node_get_by_path (d_pathmax (o_desc s2)) (hp s2) (o_root s2) t = Ok None /\
  ush_node_unmount t s2 = Ok (ST_NODE_NOT_FOUND, s2) /\
  forall s3, ush_node_unmount (lit "/dev/a") s2 = Ok (ST_OK, s3) -> forall s4, ush_node_unmount (lit "/dev") s3 = Ok (ST_OK, s4) ->
    ush_node_unmount (lit "/") s4 = Ok (ST_NODE_WITH_CHILDS, s4).
Proof.
  exists demo_own, demo, demo_world, (lit "//b"), (st_of (ush_node_mount (lit "//b") 4 [] demo)),
    (st_of (ush_node_mount (lit "//b") 5 [] (st_of (ush_node_mount (lit "//b") 4 [] demo)))).
  split; [exact demo_knows|]. split; [cbn; intuition discriminate|]. split; [apply Nat.ltb_lt; reflexivity|].
  split; [cbn; unfold used; cbn; intuition discriminate|]. split; [cbn; unfold used; cbn; intuition discriminate|].
  split; [vm_compute; reflexivity|]. split; [vm_compute; reflexivity|]. split; [vm_compute; reflexivity|]. split; [vm_compute; reflexivity|].
  intros s3 E3 s4 E4. vm_compute in E3. injection E3 as <-. vm_compute in E4. injection E4 as <-. vm_compute. reflexivity.
Qed.
Print Assumptions C13_unnormalised_refuted.

(** The object must be fresh.  Handed over while it is in use, it is renamed although the
    call fails; or the call succeeds and other directories disappear. *)
Theorem C13_object_in_use_refuted : exists own s w s1 s2 s3,
  let found x p := ush_node_get_by_path (d_pathmax (o_desc x)) (hp x) (o_root x) p in
  knows own s w /\ In 4 own /\ ~ used w 4 /\ ush_node_mount (lit "/b") 4 [] s = Ok (ST_OK, s1) /\ found s1 (lit "/b") = Ok (Some 4) /\ found s1 (lit "/dev") = Ok (Some 2) /\
  ush_node_mount (lit "/c") 4 [] s1 = Ok (ST_NODE_ALREADY_MOUNTED, s2) /\ found s2 (lit "/b") = Ok None /\ found s2 (lit "/c") = Ok (Some 4) /\
  ush_node_mount (lit "/dev/c") 4 [] s1 = Ok (ST_OK, s3) /\ found s3 (lit "/dev") = Ok None.
Proof.
  exists demo_own, demo, demo_world, (st_of (ush_node_mount (lit "/b") 4 [] demo)), (st_of (ush_node_mount (lit "/c") 4 [] (st_of (ush_node_mount (lit "/b") 4 [] demo)))),
    (st_of (ush_node_mount (lit "/dev/c") 4 [] (st_of (ush_node_mount (lit "/b") 4 [] demo)))).
  cbv zeta. split; [exact demo_knows|]. split; [cbn; tauto|]. split; [cbn; unfold used; cbn; intuition discriminate|]. repeat split; vm_compute; reflexivity.
Qed.
Print Assumptions C13_object_in_use_refuted.

(** C14: unmounting; the text names a mounted directory or not. *)
Theorem C14_unmount : forall own s w t, knows own s w -> ~ In NUL t -> length t < d_pathmax (o_desc s) ->
  exists x s', ush_node_unmount t s = Ok (x, s') /\ only_tree own s s' /\ (x <> ST_OK -> s' = s) /\
  match dir_named t (w_fs w) with
  | None => x = ST_NODE_NOT_FOUND
  | Some d =>
      (x = ST_NODE_WITH_CHILDS /\ children (de_path d) (w_fs w) <> []) \/
      (x = ST_OK /\ children (de_path d) (w_fs w) = [] /\
       knows own s' (mkWorld (fs_remove (de_path d) (w_fs w)) (w_groups w)
                       (match w_cwd w with Some p => if path_eqb p (de_path d) then None else Some p | None => None end)))
  end.
Proof. exact C14_proof. Qed.
Print Assumptions C14_unmount.

Example C14_example :
  (exists s', ush_node_unmount (lit "/dev/a") demo = Ok (ST_OK, s')) /\
  (exists s', ush_node_unmount (lit "/dev") demo = Ok (ST_NODE_WITH_CHILDS, s')) /\
  (exists s', ush_node_unmount (lit "/etc") demo = Ok (ST_NODE_NOT_FOUND, s')).
Proof. split; [|split]; (match goal with |- exists s', ?m = Ok (?x, s') => exists (st_of m) end; vm_compute; reflexivity). Qed.

(** C15: any history, from a shell without directories, against the abstract map; every
    lookup answers what the map says. *)
Theorem C15_abstract_map : forall own os s, o_root s = None -> o_cmds s = None -> (forall i, In i own -> nth_error (hp s) i = Some node_zero) ->
  let pm := d_pathmax (o_desc s) in let w0 := mkWorld [] [] None in let w := snd (spec_ops os w0) in
  all_allowed pm own os w0 ->
  exists s', do_ops os s = Ok (fst (spec_ops os w0), s') /\ knows own s' w /\
    forall t, ~ In NUL t -> length t < pm ->
      ush_node_get_by_path pm (hp s') (o_root s') t = Ok (option_map de_node (dir_named t (w_fs w))).
Proof. exact C15_map_proof. Qed.
Print Assumptions C15_abstract_map.

(** C15: the same from any shell whose world is known. *)
Theorem C15_history : forall own os s w, knows own s w -> all_allowed (d_pathmax (o_desc s)) own os w ->
  exists s', do_ops os s = Ok (fst (spec_ops os w), s') /\ knows own s' (snd (spec_ops os w)) /\ only_tree own s s'.
Proof. exact C15_history_proof. Qed.
Print Assumptions C15_history.

Theorem C15_lookup : forall own s w t, knows own s w -> ~ In NUL t -> length t < d_pathmax (o_desc s) ->
  ush_node_get_by_path (d_pathmax (o_desc s)) (hp s) (o_root s) t = Ok (option_map de_node (dir_named t (w_fs w))).
Proof. exact C15_lookup_proof. Qed.
Print Assumptions C15_lookup.

Example C15_example :
  let os := [TMount [] 1 [f_run]; TMount [lit "dev"] 2 []; TAdd 4 [f_log]; TMount [lit "dev"; lit "a"] 3 []; TUnmount (lit "/dev");
             TChdir (lit "dev/a/.."); TUnmount (lit "/dev/a"); TRemove 4; TMount [lit "dev"; lit "b"] 4 []] in
  all_allowed 64 [1; 2; 3; 4] os (mkWorld [] [] None) /\
  fst (spec_ops os (mkWorld [] [] None)) =
    [ST_OK; ST_OK; ST_OK; ST_OK; ST_NODE_WITH_CHILDS; ST_OK; ST_OK; ST_OK; ST_OK].
Proof.
  assert (P : forall l, forallb (fun c => match c with [] => false | _ => negb (existsb (fun x => ceq x SL || ceq x NUL) c) end) l = true -> path_ok l).
  { intros l H. rewrite forallb_forall in H. apply Forall_forall. intros c I. specialize (H c I). destruct c as [|x c]; [discriminate|].
    apply Bool.negb_true_iff in H. split; [discriminate|]. split; intros J; (assert (X : existsb (fun x => ceq x SL || ceq x NUL) (x :: c) = true); [|congruence]);
      apply existsb_exists; eexists; (split; [exact J|]); reflexivity. }
  cbv zeta. split; [|vm_compute; reflexivity].
  repeat match goal with
  | |- all_allowed _ _ (_ :: _) _ => split
  | |- all_allowed _ _ [] _ => exact I
  | |- allowed _ _ _ (TRemove _) => exact I
  | |- allowed _ _ _ _ => repeat split; try (apply P; reflexivity); try discriminate; try (apply Nat.ltb_lt; vm_compute; reflexivity); vm_compute; try tauto; intuition discriminate
  end.
Qed.

(** C16: changing directory. *)
Theorem C16_chdir : forall own s w t, knows own s w -> ~ In NUL t -> length (full_text (here w) t) < d_pathmax (o_desc s) ->
  (w_cwd w = None -> exists r, t = SL :: r) ->
  exists x s', ush_node_set_current_dir t s = Ok (x, s') /\
  match (match t with [] => None | _ => dir_named (show (resolve_text (here w) t)) (w_fs w) end) with
  | Some d => x = ST_OK /\ s' = set_cur (Some (de_node d)) s /\ knows own s' (mkWorld (w_fs w) (w_groups w) (Some (de_path d)))
  | None => x = ST_NODE_NOT_FOUND /\ s' = s
  end.
Proof. exact C16_proof. Qed.
Print Assumptions C16_chdir.

Example C16_example : resolve_text (here demo_world) (lit "dev/x/../a/") = [lit "dev"; lit "a"] /\
  ush_node_set_current_dir (lit "dev/x/../a/") demo = Ok (ST_OK, set_cur (Some 3) demo) /\
  ush_node_set_current_dir (lit "a") demo = Ok (ST_NODE_NOT_FOUND, demo).
Proof. split; [|split]; vm_compute; reflexivity. Qed.

(** C17: what a name denotes. *)
Theorem C17_lookup : forall own s w name, knows own s w -> ~ In NUL name -> (w_cwd w = None -> exists r, name = SL :: r) ->
  names_ok (d_pathmax (o_desc s)) (w_fs w) ->
  file_named name (flat_map snd (w_groups w)) <> None \/ length (full_text (here w) name) < d_pathmax (o_desc s) ->
  ush_file_find_by_name name s = Ok (find_file (w_groups w) (w_fs w) (here w) name).
Proof. exact TreeFind.find_file_ok. Qed.
Print Assumptions C17_lookup.

Example C17_example : names_ok 64 (w_fs demo_world) /\
  find_file (w_groups demo_world) (w_fs demo_world) [] (lit "dev/time") = Some f_time /\
  find_file (w_groups demo_world) (w_fs demo_world) [] (lit "run") = Some f_run /\
  find_file (w_groups demo_world) (w_fs demo_world) [lit "dev"] (lit "run") = None /\
  find_file (w_groups demo_world) (w_fs demo_world) [] (lit "nope") = None.
Proof.
  split; [|repeat split; vm_compute; reflexivity].
  intros d f I J. solve_in; cbn in J; repeat (destruct J as [<-|J]); try destruct J;
    (split; [split; cbn; intuition discriminate|apply Nat.ltb_lt; vm_compute; reflexivity]).
Qed.

(** C18: command groups. *)
Theorem C18_add : forall own s w id fl, knows own s w -> fl <> [] -> In id own -> ~ used w id ->
  exists s', ush_commands_add id fl s = Ok (ST_OK, s') /\ only_tree own s s' /\
    knows own s' (mkWorld (w_fs w) ((id, fl) :: w_groups w) (w_cwd w)).
Proof. exact C18_add_proof. Qed.
Print Assumptions C18_add.

Theorem C18_remove : forall own s w id, knows own s w ->
  exists x s', ush_commands_remove id s = Ok (x, s') /\ only_tree own s s' /\
    ((x = ST_NODE_NOT_FOUND /\ ~ In id (map fst (w_groups w)) /\ s' = s) \/
     (x = ST_OK /\ In id (map fst (w_groups w)) /\ knows own s' (mkWorld (w_fs w) (group_remove id (w_groups w)) (w_cwd w)))).
Proof. exact C18_remove_proof. Qed.
Print Assumptions C18_remove.

(** C18: the search through the groups finds the first file of that name, newest group first. *)
Theorem C18_groups_searched : forall own s w name, knows own s w ->
  find_cmds (S (length (hp s))) (hp s) (o_cmds s) name = Ok (file_named name (flat_map snd (w_groups w))).
Proof. exact C18_lookup_proof. Qed.
Print Assumptions C18_groups_searched.

Example C18_example : ~ used demo_world 4 /\
  (exists s', ush_commands_add 4 [f_log] demo = Ok (ST_OK, s')) /\
  (exists s', ush_commands_remove 0 demo = Ok (ST_OK, s')) /\
  ush_commands_remove 4 demo = Ok (ST_NODE_NOT_FOUND, demo).
Proof.
  split; [unfold used; cbn; intuition discriminate|]. split; [|split; [|vm_compute; reflexivity]];
  (match goal with |- exists s', ?m = Ok (?x, s') => exists (st_of m) end; vm_compute; reflexivity).
Qed.

(** C35: deinitialisation. *)
Theorem C35_deinit : forall own s w, knows own s w -> nth_error (hp s) (o_buildin s) <> None ->
  exists h', ush_deinit s = Ok (st_zero (o_desc s) (o_buildin s) (inb s) (outb s) h' (lg s)) /\
    length h' = length (hp s) /\
    (forall i, In i (map de_node (w_fs w)) \/ i = o_buildin s -> nth_error h' i = Some node_zero) /\
    (forall i, ~ In i (map de_node (w_fs w)) -> i <> o_buildin s -> nth_error h' i = nth_error (hp s) i).
Proof. exact C35_proof. Qed.
Print Assumptions C35_deinit.

Example C35_example : knows demo_own demo demo_world /\ nth_error (hp demo) (o_buildin demo) <> None /\
  ush_deinit demo = Ok (st_zero demo_desc 0 (inb demo) (outb demo) (repeat node_zero 6) (lg demo)).
Proof. split; [exact demo_knows|]. split; [vm_compute; discriminate|vm_compute; reflexivity]. Qed.

(** C36: initialisation of a zeroed object. *)
Theorem C36_init : forall d d0 b ib0 ob0 h l ib ob own, 1 <= d_insize d -> 4 <= d_outsize d ->
  (cfg_commands (d_cfg d) = true -> buildin_commands (d_cfg d) <> []) -> In b own ->
  (forall i, In i own -> nth_error h i = Some node_zero) ->
  exists s, ush_init d ib ob (st_zero d0 b ib0 ob0 h l) = Ok s /\
    knows own s (mkWorld [] (if cfg_commands (d_cfg d) then [(b, buildin_commands (d_cfg d))] else []) None) /\
    o_desc s = d /\ inb s = ib /\ outb s = ob /\ lg s = l /\ o_cur s = None /\
    pending s greeting /\ o_wnext s = S_RESET_PROMPT /\
    forall i, ush_service i s = Err EAssert.
Proof. exact C36_init_proof. Qed.
Print Assumptions C36_init.

(** C36: initialised again, a search for an unknown name never ends, whatever the number of steps. *)
Theorem C36_init_twice : forall d ib ob s own w b, knows own s w -> w_groups w = [(b, buildin_commands (d_cfg d))] -> o_buildin s = b ->
  1 <= d_insize d -> 4 <= d_outsize d -> cfg_commands (d_cfg d) = true -> buildin_commands (d_cfg d) <> [] ->
  exists s', ush_init d ib ob s = Ok s' /\
    forall name, file_named name (buildin_commands (d_cfg d)) = None ->
      (forall fuel, find_cmds fuel (hp s') (o_cmds s') name = Err EDiverge) /\
      ush_file_find_by_name name s' = Err EDiverge.
Proof. exact C36_twice_proof. Qed.
Print Assumptions C36_init_twice.

Example C36_example : knows demo_own demo demo_world /\ o_buildin demo = 0 /\ cfg_commands (d_cfg demo_desc) = true /\
  buildin_commands (d_cfg demo_desc) <> [] /\ file_named (lit "bogus") (buildin_commands (d_cfg demo_desc)) = None /\
  (forall i, In i demo_own -> nth_error (hp demo_blank) i = Some node_zero).
Proof.
  split; [exact demo_knows|]. split; [reflexivity|]. split; [reflexivity|]. split; [vm_compute; discriminate|]. split; [vm_compute; reflexivity|].
  intros i I. solve_in; reflexivity.
Qed.

(** C39: looking a path up needs room for each prefix that is compared. *)
Theorem C39_lookup : forall own s w cs, knows own s w -> Forall (fun c => ~ In SL c /\ ~ In NUL c) cs -> cs <> [] -> cs <> [[]] ->
  let pm := d_pathmax (o_desc s) in
  let fits := forall k, k < length cs -> node_at (firstn k cs) (w_fs w) <> None -> length (slashed (firstn (S k) cs)) < pm in
  (fits -> ush_node_get_by_path pm (hp s) (o_root s) (slashed cs) = Ok (node_at cs (w_fs w))) /\
  (~ fits -> ush_node_get_by_path pm (hp s) (o_root s) (slashed cs) = Err EOob).
Proof. exact C39_lookup_proof. Qed.
Print Assumptions C39_lookup.

(** C39: the absolute path of a text needs room for the unnormalised path. *)
Theorem C39_absolute : forall own s w t, knows own s w -> ~ In NUL t -> (w_cwd w = None -> exists r, t = SL :: r) ->
  let pm := d_pathmax (o_desc s) in
  abs_path_str pm (hp s) (o_cur s) t =
    if length (full_text (here w) t) <? pm then Ok (show (resolve_text (here w) t)) else Err EOob.
Proof. exact C39_abs_proof. Qed.
Print Assumptions C39_absolute.

(** C39: searching a file needs, besides, room for the path of each file compared. *)
Theorem C39_find : forall own s w name, knows own s w -> ~ In NUL name -> (w_cwd w = None -> exists r, name = SL :: r) ->
  (forall d f, In d (w_fs w) -> In f (de_files d) -> ~ In NUL (f_name f)) ->
  file_named name (flat_map snd (w_groups w)) = None ->
  let pm := d_pathmax (o_desc s) in
  (pm <= length (full_text (here w) name) -> ush_file_find_by_name name s = Err EOob) /\
  (length (full_text (here w) name) < pm ->
   forall p c, resolve_text (here w) name = p ++ [c] -> ~ In SL c ->
   ush_file_find_by_name name s =
     match dir_at p (w_fs w) with
     | None => Ok None
     | Some d => scan pm (slashed (p ++ [c])) (d :: siblings_after d (w_fs w))
     end).
Proof. exact C39_find_proof. Qed.
Print Assumptions C39_find.

Example C39_example :
  let long := repeat "x"%char 64 in
  ush_node_get_by_path 64 (hp demo) (o_root demo) (SL :: long) = Err EOob /\
  ush_node_get_by_path 64 (hp demo) (o_root demo) (lit "/nope" ++ SL :: long) = Ok None /\
  abs_path_str 64 (hp demo) (o_cur demo) long = Err EOob /\
  ush_file_find_by_name long demo = Err EOob /\
  ush_file_find_by_name (lit "/dev/time") demo = Ok (Some f_time).
Proof. cbv zeta. repeat split; vm_compute; reflexivity. Qed.

(** C40: any history of one shell leaves what another shell knows as it was. *)
Theorem C40_operations : forall own1 own2 os s1 w1 s2 w2, knows own1 s1 w1 -> knows own2 s2 w2 -> hp s2 = hp s1 ->
  (forall i, In i own1 -> ~ In i own2) -> all_allowed (d_pathmax (o_desc s1)) own1 os w1 ->
  exists xs s1', do_ops os s1 = Ok (xs, s1') /\ knows own2 (set_hp (hp s1') s2) w2.
Proof. exact C40_ops_proof. Qed.
Print Assumptions C40_operations.

Theorem C40_deinit : forall own1 own2 s1 w1 s2 w2, knows own1 s1 w1 -> knows own2 s2 w2 -> hp s2 = hp s1 ->
  (forall i, In i own1 -> ~ In i own2) -> In (o_buildin s1) own1 ->
  exists s1', ush_deinit s1 = Ok s1' /\ knows own2 (set_hp (hp s1') s2) w2.
Proof. exact C40_deinit_proof. Qed.
Print Assumptions C40_deinit.

(** Two shells in one memory: the demo shell with nodes 0 to 3, and one with nodes 4 and 5. *)
Lemma demo_knows_small : knows [0; 1; 2; 3] demo demo_world.
Proof.
  pose proof demo_knows as (A & B & C & D & E & F). repeat split; try apply A; try apply B; auto.
  - intros i [I|I]; solve_in; cbn; tauto.
  - intros i I. apply E. solve_in; cbn; tauto.
Qed.
Example C40_example :
  let s2 := from ('(_, s) <- ush_commands_add 4 [f_log] (st_zero demo_desc 5 [] [] (hp demo) []) ;; Ok s) in
  let s1 := set_hp (hp s2) demo in
  knows [0; 1; 2; 3] s1 demo_world /\ knows [4; 5] s2 (mkWorld [] [(4, [f_log])] None) /\ hp s2 = hp s1.
Proof.
  cbv zeta. split; [|split; [|reflexivity]].
  - apply knows_other; [exact demo_knows_small|]. intros i I. solve_in; reflexivity.
  - destruct (C18_add [4; 5] (st_zero demo_desc 5 [] [] (hp demo) []) (mkWorld [] [] None) 4 [f_log]) as (s' & E & _ & K).
    + apply knows_blank; try reflexivity. apply blank_childless. intros i I. solve_in; reflexivity.
    + discriminate.
    + cbn; tauto.
    + intros [[]|[]].
    + rewrite E. exact K.
Qed.

(** C43: no operation but a change of directory, or unmounting it, moves or loses the current directory. *)
Theorem C43_current_stays : forall own o s w, knows own s w -> allowed (d_pathmax (o_desc s)) own w o ->
  forall p, w_cwd w = Some p ->
  match o with TMount _ _ _ | TAdd _ _ | TRemove _ => True | TUnmount t => dir_named t (w_fs w) <> dir_at p (w_fs w) | TChdir _ => False end ->
  exists x s', do_op o s = Ok (x, s') /\ o_cur s' = o_cur s /\ exists d, In d (w_fs (snd (spec_op o w))) /\ de_path d = p /\ o_cur s' = Some (de_node d).
Proof. exact C43_stays_proof. Qed.
Print Assumptions C43_current_stays.

(** C43: unmounting the current directory succeeds and leaves the shell in a directory
    that is mounted no more. *)
Theorem C43_current_lost : forall own s w d, knows own s w -> w_cwd w = Some (de_path d) -> In d (w_fs w) -> children (de_path d) (w_fs w) = [] ->
  length (show (de_path d)) < d_pathmax (o_desc s) ->
  exists s', ush_node_unmount (show (de_path d)) s = Ok (ST_OK, s') /\
    o_cur s' = Some (de_node d) /\ cwd_is s' (show (de_path d)) /\
    ush_node_get_by_path (d_pathmax (o_desc s)) (hp s') (o_root s') (show (de_path d)) = Ok None /\
    knows own s' (mkWorld (fs_remove (de_path d) (w_fs w)) (w_groups w) None).
Proof. exact C43_lost_proof. Qed.
Print Assumptions C43_current_lost.

Example C43_example :
  knows demo_own (set_cur (Some 3) demo) (mkWorld (w_fs demo_world) (w_groups demo_world) (Some [lit "dev"; lit "a"])) /\
  children [lit "dev"; lit "a"] (w_fs demo_world) = [].
Proof.
  split; [|vm_compute; reflexivity]. pose proof demo_knows as (A & B & C & D & E & _).
  repeat split; try apply A; try apply B; auto. eexists. split; reflexivity.
Qed.
