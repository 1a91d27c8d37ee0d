(** * DemoCmd: command lines typed into the demo shell. *)
From Coq Require Import Arith.
From Verif Require Import Shell Words Sched SchedProofs Line Spec Tree Cmds CmdProofs Demo PropTree PropLine LineFacts.

(** The demo shell has no exec hook. *)
Lemma demo_no_hook : forall e ws, hook_prints e demo_desc ws.
Proof. intros e ws. split; [constructor|left; apply Nat.leb_le; reflexivity]. Qed.

(** The demo shell, asked. *)
Lemma demo_asked : forall e l ws f r, core (demo_typed l) = core demo ->
  o_state (demo_typed l) = S_READ_CHAR -> o_esc (demo_typed l) = 0 -> o_inpos (demo_typed l) = length l -> inb (demo_typed l) = l ++ NUL :: r ->
  length (inb (demo_typed l)) = 32 -> length (outb (demo_typed l)) = 64 ->
  Nat.ltb (S (length l)) 32 = true -> existsb (fun c => ceq c CR || ceq c LF || ceq c NUL) l = false ->
  words l = ws -> file_named (hd [] ws) (flat_map snd (w_groups demo_world)) = Some f ->
  asked e demo_own demo_world [] l ws f (demo_typed l).
Proof.
  intros e l ws f r K H1 H2 H3 H4 H5 H6 H8 H9 H10 H11.
  assert (D : o_desc (demo_typed l) = demo_desc) by (rewrite (core_desc _ _ K); reflexivity).
  split; [eapply knows_core; [exact K|exact demo_knows]|]. split; [reflexivity|].
  split; [rewrite <- H10; apply typed_entered; exact (demo_typed_ok l _ r eq_refl H1 H2 H3 H4 H5 H6 D H8 H9)|]. split; [rewrite D; apply demo_no_hook|exact H11].
Qed.
Ltac demo_ask := eapply demo_asked; vm_compute; reflexivity.
Definition demo_line (l : string) : st := demo_typed (lit l).
Definition demo_next (l : string) : st := st_of (drive (always demo_env) [CR] (repeat (true, true) 2000) (demo_line l)).
(** The output caused by a line's end. *)
Definition demo_said (l : string) : bytes :=
  flat_map (fun x => match x with EvOut c => [c] | _ => [] end) (skipn (length (lg (demo_line l))) (lg (demo_next l))).
Definition demo_events (l : string) : list event :=
  filter (fun x => match x with EvOut _ => false | _ => true end) (skipn (length (lg (demo_line l))) (lg (demo_next l))).
Definition demo_prompt : bytes := prompt demo_desc (lit "/").

Lemma demo_findable : forall l names, forallb (fun n => length (full_text [] n) <? 64) names = true -> core (demo_line l) = core demo -> findable (demo_line l) demo_world names.
Proof.
  intros l names H K. split.
  - replace (o_desc (demo_line l)) with demo_desc by (symmetry; rewrite (core_desc _ _ K); reflexivity). exact (proj1 C17_example).
  - rewrite forallb_forall in H. apply Forall_forall. intros n I. right. replace (o_desc (demo_line l)) with demo_desc by (symmetry; rewrite (core_desc _ _ K); reflexivity).
    apply Nat.ltb_lt. apply H. exact I.
Qed.
