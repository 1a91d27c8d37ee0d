(** * DemoRoom: the demo shell with a small output buffer. *)
From Coq Require Import Arith.
From Verif Require Import Shell Words Sched SchedProofs Line Spec Tree TreeProofs Cmds CmdProofs Demo PropTree PropLine LineFacts DemoCmd.

(** The demo shell with an output buffer of 24 bytes, one less than its commands need. *)
Definition small_desc : desc := mkDesc 32 24 64 (lit "host") None cfg_posix.
Definition small : st := from (s <- ush_init small_desc (repeat NUL 32) (repeat NUL 24) (st_zero small_desc 0 (repeat NUL 32) (repeat NUL 24) (repeat node_zero 6) []) ;; run (demo_mounts ++ demo_ticks 60) s).
Definition small_line (l : string) : st := st_of (drive (always demo_env) (lit l) (repeat (true, true) 400) small).
Lemma small_asked : forall l ws f r, let s := small_line l in
  hp s = hp demo -> o_root s = o_root demo -> o_cmds s = o_cmds demo -> o_cur s = o_cur demo -> o_desc s = small_desc ->
  o_state s = S_READ_CHAR -> o_esc s = 0 -> o_inpos s = length (lit l) -> inb s = lit l ++ NUL :: r ->
  length (inb s) = 32 -> length (outb s) = 24 ->
  Nat.ltb (S (length (lit l))) 32 = true -> existsb (fun c => ceq c CR || ceq c LF || ceq c NUL) (lit l) = false ->
  words (lit l) = ws -> file_named (hd [] ws) (flat_map snd (w_groups demo_world)) = Some f ->
  asked demo_env demo_own demo_world [] (lit l) ws f s.
Proof.
  intros l ws f r s E1 E2 E3 E4 D H1 H2 H3 H4 H5 H6 H8 H9 H10 H11.
  split; [exact (knows_ext demo_own demo s demo_world E1 E2 E3 E4 demo_knows)|]. split; [reflexivity|].
  split; [|split; [rewrite D; split; [constructor|left; apply Nat.leb_le; reflexivity]|exact H11]].
  rewrite <- H10. apply typed_entered. unfold typed, editing, bufs_ok, eol_free. rewrite D.
  assert (G : forall c, In c (lit l) -> (ceq c CR || ceq c LF || ceq c NUL) = false).
  { intros c I. destruct (ceq c CR || ceq c LF || ceq c NUL) eqn:E; [|reflexivity].
    rewrite <- H9. symmetry. apply existsb_exists. exists c. auto. }
  split; [split; [exact H1|split; [exact H2|split; [exact H3|eauto]]]|].
  split; [split; [exact H5|split; [exact H6|split; repeat constructor]]|].
  split; [apply Nat.ltb_lt; exact H8|].
  split; [split|]; intros I; apply G in I; discriminate I.
Qed.
Ltac small_ask := eapply small_asked; vm_compute; reflexivity.
(** What the shell prints until it fails. *)
Definition small_run (l : string) : res (bytes * st) := drive (always demo_env) [CR] (repeat (true, true) 2000) (small_line l).
