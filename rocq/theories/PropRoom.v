(** * Output buffers that are too small for a command (C62).

    Vocabulary: Room.v ([breaks], [breaks_off], [too_long], [ls_stops], [xxd_stops]), Cmds.v ([asked], the texts
    of the commands), Sched.v ([fed], [drive]). *)
From Coq Require Import Arith.
From Verif Require Import Shell Spec Words Sched Editor Line Tree Cmds Complete Room RoomProofs.
From Verif Require Import Demo PropTree DemoCmd DemoRoom.

(** C62: help gets back to the prompt if and only if each registered command fits in the output buffer. *)
Theorem C62_help_exact : forall e own w cwd l n s c, asked e own w cwd l [n] cmd_help s -> c = CR \/ c = LF ->
  Forall (fun f => ~ In NUL (f_name f)) (flat_map snd (w_groups w)) ->
  ((exists s', fed e [c] s s') <-> Forall (fun f => ~ too_long (o_desc s) f) (flat_map snd (w_groups w))).
Proof. exact C62_help_exact_proof. Qed.
Print Assumptions C62_help_exact.

(** C62: it lists the commands before the first one that does not fit, and then writes past the buffer. *)
Theorem C62_help : forall e own w cwd l n s c pre f post, asked e own w cwd l [n] cmd_help s -> c = CR \/ c = LF ->
  flat_map snd (w_groups w) = pre ++ f :: post -> Forall (listable (o_desc s)) pre -> too_long (o_desc s) f ->
  breaks_off e c s XHelp cmd_help [n] [] (help_text (d_cfg (o_desc s)) pre) EOob.
Proof. exact C62_help_proof. Qed.
Print Assumptions C62_help.

(** C62: ls gets back to the prompt if and only if each file of the directory fits in the output buffer and, if
    there are files, the column of flags does. *)
Theorem C62_ls_exact : forall e own w cwd l n s c d, asked e own w cwd l [n] cmd_ls s -> c = CR \/ c = LF -> dir_at cwd (w_fs w) = Some d ->
  Forall (fun f => ~ In NUL (f_name f)) (de_files d) ->
  ((exists s', fed e [c] s s') <-> Forall (fun f => ~ too_long (o_desc s) f) (de_files d) /\ (6 < d_outsize (o_desc s) \/ de_files d = [])).
Proof. exact C62_ls_exact_proof. Qed.
Print Assumptions C62_ls_exact.
Theorem C62_ls_path_exact : forall e own w cwd l n path s c d, asked e own w cwd l [n; path] cmd_ls s -> c = CR \/ c = LF ->
  length (full_text cwd path) < d_pathmax (o_desc s) -> dir_named (show (resolve_text cwd path)) (w_fs w) = Some d ->
  Forall (fun f => ~ In NUL (f_name f)) (de_files d) ->
  ((exists s', fed e [c] s s') <-> Forall (fun f => ~ too_long (o_desc s) f) (de_files d) /\ (6 < d_outsize (o_desc s) \/ de_files d = [])).
Proof. exact C62_ls_path_exact_proof. Qed.
Print Assumptions C62_ls_path_exact.

(** C62: it lists the directories and the files before the first one that does not fit, and then writes past the
    buffer. *)
Theorem C62_ls : forall e own w cwd l n s c d pre f post t, asked e own w cwd l [n] cmd_ls s -> c = CR \/ c = LF -> dir_at cwd (w_fs w) = Some d ->
  de_files d = pre ++ f :: post -> ls_stops (o_desc s) pre f t ->
  breaks_off e c s XLs cmd_ls [n] [] (ls_text (d_cfg (o_desc s)) (is_root d) (map dir_name (children (de_path d) (w_fs w))) pre ++ t) EOob.
Proof. exact C62_ls_here_proof. Qed.
Print Assumptions C62_ls.
Theorem C62_ls_path : forall e own w cwd l n path s c d pre f post t, asked e own w cwd l [n; path] cmd_ls s -> c = CR \/ c = LF ->
  length (full_text cwd path) < d_pathmax (o_desc s) -> dir_named (show (resolve_text cwd path)) (w_fs w) = Some d ->
  de_files d = pre ++ f :: post -> ls_stops (o_desc s) pre f t ->
  breaks_off e c s XLs cmd_ls [n; path] [] (ls_text (d_cfg (o_desc s)) (is_root d) (map dir_name (children (de_path d) (w_fs w))) pre ++ t) EOob.
Proof. exact C62_ls_path_proof. Qed.
Print Assumptions C62_ls_path.

(** C62: xxd gets back to the prompt if and only if an address and a line of hexadecimal columns fit in the
    output buffer, however short the data are. *)
Theorem C62_xxd_exact : forall e own w cwd l n name s c g cb d, asked e own w cwd l [n; name] cmd_xxd s -> c = CR \/ c = LF -> findable s w [name] ->
  denotes w name = Some g -> f_get g = Some cb -> gives_or_none e cb g d -> 0 < cfg_cols (d_cfg (o_desc s)) -> (N.of_nat (length d) <= 2 ^ 32)%N ->
  ((exists s', fed e [c] s s') <-> 10 < d_outsize (o_desc s) /\ 3 * cfg_cols (d_cfg (o_desc s)) + 1 < d_outsize (o_desc s)).
Proof. exact C62_xxd_exact_proof. Qed.
Print Assumptions C62_xxd_exact.
(** C62: otherwise it writes past the buffer in the first line, whatever the data are. *)
Theorem C62_xxd : forall e own w cwd l n name s c g cb d t, asked e own w cwd l [n; name] cmd_xxd s -> c = CR \/ c = LF -> findable s w [name] ->
  denotes w name = Some g -> f_get g = Some cb -> gives_or_none e cb g d -> xxd_stops (o_desc s) t ->
  breaks_off e c s XXxd cmd_xxd [n; name] [EvGet cb (f_name g)] t EOob.
Proof. exact C62_xxd_proof. Qed.
Print Assumptions C62_xxd.

(** C62: a shell that breaks off under one schedule does not get through under any other: it never polls again
    once it has read the byte. *)
Theorem C62_every_schedule : forall e c s evs x, breaks e c s evs x ->
  forall l q q' s', drive (always e) (c :: q) l s = Ok (q', s') -> polling s' -> q' = c :: q.
Proof. exact C62_never_proof. Qed.
Print Assumptions C62_every_schedule.

(** An output buffer of 24 bytes, where 25 are needed for help and for the file "time" with its description, and
    26 for xxd. *)
Example C62_example :
  asked demo_env demo_own demo_world [] (lit "help") [lit "help"] cmd_help (small_line "help") /\
  Forall (fun f => ~ In NUL (f_name f)) (flat_map snd (w_groups demo_world)) /\
  ~ Forall (fun f => ~ too_long (o_desc (small_line "help")) f) (flat_map snd (w_groups demo_world)) /\
  small_run "help" = Err EOob /\
  asked demo_env demo_own demo_world [] (lit "ls") [lit "ls"] cmd_ls (small_line "ls") /\
  Forall (fun f => ~ too_long (o_desc (small_line "ls")) f) [f_run] /\ (exists q s, small_run "ls" = Ok (q, s) /\ polling s) /\
  asked demo_env demo_own demo_world [] (lit "ls dev") [lit "ls"; lit "dev"] cmd_ls (small_line "ls dev") /\
  dir_named (show (resolve_text [] (lit "dev"))) (w_fs demo_world) = Some (mkDir [lit "dev"] 2 [f_time; f_log]) /\
  ls_stops (o_desc (small_line "ls dev")) [] f_time (lit "-rw-- ") /\ small_run "ls dev" = Err EOob /\
  asked demo_env demo_own demo_world [] (lit "xxd dev/time") [lit "xxd"; lit "dev/time"] cmd_xxd (small_line "xxd dev/time") /\
  denotes demo_world (lit "dev/time") = Some f_time /\ gives_or_none demo_env 0 f_time (lit "12:00") /\
  xxd_stops (o_desc (small_line "xxd dev/time")) (lit "00000000: ") /\ small_run "xxd dev/time" = Err EOob.
Proof.
  assert (D : forall l, l = "help"%string \/ l = "ls"%string \/ l = "ls dev"%string \/ l = "xxd dev/time"%string -> o_desc (small_line l) = small_desc) by (intros l [-> | [-> | [-> | ->]]]; vm_compute; reflexivity).
  split; [small_ask|]. split; [repeat constructor; cbn; intuition discriminate|]. split.
  { rewrite D by tauto. intros F. inversion F as [|? ? X _]; subst. apply X. apply Nat.leb_le. vm_compute. reflexivity. }
  split; [vm_compute; reflexivity|]. split; [small_ask|]. split.
  { rewrite D by tauto. constructor; [|constructor]. unfold too_long. apply Nat.lt_nge. apply Nat.ltb_lt. vm_compute. reflexivity. }
  split; [eexists _, _; split; vm_compute; reflexivity|]. split; [small_ask|]. split; [vm_compute; reflexivity|]. split.
  { rewrite D by tauto. right. split; [apply Nat.ltb_lt; reflexivity|]. split; [constructor|]. split; [apply Nat.leb_le; vm_compute; reflexivity|reflexivity]. }
  split; [vm_compute; reflexivity|]. split; [small_ask|]. split; [vm_compute; reflexivity|]. split; [exists (GData (lit "12:00")); split; [reflexivity|right; exists []; reflexivity]|].
  split; [|vm_compute; reflexivity]. rewrite D by tauto. right. split; [apply Nat.ltb_lt; reflexivity|]. split; [apply Nat.leb_le; vm_compute; reflexivity|reflexivity].
Qed.
