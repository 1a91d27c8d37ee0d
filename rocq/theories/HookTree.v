(** * Proofs for C47: the exec hook changes the tree before the name is looked up. *)
From Coq Require Import Arith.
From Verif Require Import Shell Words Sched Macro Line Editor Spec Tree History LineFacts LineProofs Cmds CmdProofs HookFacts SchedProofs ReconfProofs NamesProofs.

Lemma C47_changes_proof : forall e own w cwd l ws s c f k cwd',
  knows own s w -> w_cwd w = Some cwd -> entered l ws s -> c = CR \/ c = LF -> ws <> [] -> hook_fine e own (o_desc s) w ws ->
  let hook := hook_calls e (o_desc s) ws in
  let w1 := after_hook e (o_desc s) ws w in
  w_cwd w1 <> None -> findable s w1 [hd [] ws] -> denotes w1 (hd [] ws) = Some f -> f_exec f = Some (XUser k) ->
  let calls := e_exec e k (Some (f_name f)) ws in
  let w2 := snd (spec_ops (tree_calls calls) w1) in
  Forall (proper_call ws) calls -> room_for (o_desc s) (hook ++ calls) ->
  all_allowed (d_pathmax (o_desc s)) own (tree_calls calls) w1 -> w_cwd w2 = Some cwd' ->
  exists s', does e c s (XUser k) f ws [] (said (o_desc s) c ws (hook ++ calls)) cwd' s' /\ knows own s' w2 /\ o_desc s' = o_desc s.
Proof.
  intros e own w cwd l ws s c f k cwd' K Wc En Hc Ne Hf hook w1 Wn Fi De Fx calls w2 Fp Rm Al Wc'.
  destruct (hook_poised e own w cwd l ws s c K Wc En Hc Ne Hf) as (s0 & D & L & K1 & X). fold w1 in K1.
  destruct (w_cwd w1) as [cw1|] eqn:W1; [|congruence].
  destruct (C48_at e own w1 cw1 (fed e [c] s) ws f s0 c k cwd') as (s' & Do & K' & D'); auto; try (rewrite D; auto).
  { split; [exact K1|]. split; [exact W1|]. split; [exact (entered_no_nul _ _ _ En)|]. split; [exact X|]. unfold findable in *. rewrite D. auto. }
  exists s'. rewrite D in *. split; [|auto]. unfold does, answered, does_at, answered_at in *. rewrite D, L in Do. exact Do.
Qed.

Lemma C47_lookup_proof : forall e own w cwd l ws s c st cwd1,
  knows own s w -> w_cwd w = Some cwd -> entered l ws s -> c = CR \/ c = LF -> ws <> [] -> hook_fine e own (o_desc s) w ws ->
  let w1 := after_hook e (o_desc s) ws w in
  w_cwd w1 = Some cwd1 -> findable s w1 [hd [] ws] ->
  match denotes w1 (hd [] ws) with None => st = ST_COMMAND_SYNTAX_ERROR | Some f => f_exec f = None /\ st = ST_FILE_NOT_EXECUTABLE end ->
  exists s', answered e c s (hook_events (o_desc s) ws ++ then_prompt s (show cwd1) (message s st)) s' /\ knows own s' w1 /\ o_desc s' = o_desc s.
Proof.
  intros e own w cwd l ws s c st cwd1 K Wc En Hc Ne Hf w1 W1 Fi M.
  destruct (hook_poised e own w cwd l ws s c K Wc En Hc Ne Hf) as (s0 & D & L & K1 & X). fold w1 in K1.
  destruct ws as [|name rest]; [congruence|]. pose proof (entered_no_nul _ _ _ En) as Nn. inversion Nn as [|? ? Nh _]; subst.
  destruct (C38_denotes_at own w1 cwd1 e (fed e [c] s) s0 c name rest st K1 W1 Nh) as (s' & A & C); auto.
  { unfold findable in *. rewrite D. exact Fi. }
  exists s'. split; [|split; [exact (knows_core _ _ _ _ C K1)|rewrite (core_desc _ _ C); exact D]].
  unfold answered, answered_at, then_prompt, message in *. rewrite D, L in A. exact A.
Qed.
