(** * HookProofs: proofs of C47 (output). *)
From Verif Require Import Shell Sched Line Spec Tree Cmds CmdProofs HookFacts PrintfProofs.

Lemma spoken_replaced : forall d ws a r l buf t, (forall x, a <> APrintf x) -> Forall (printing_call ws) (l ++ a :: r) ->
  spoken d ws buf t (l ++ a :: r) = spoken d ws None (print_text d ws a) r.
Proof.
  intros d ws a r. induction l as [|x l IH]; intros buf t N F; cbn [app].
  - inversion F as [|? ? Fa _]; subst. destruct a; try contradiction; try reflexivity. exfalso. eapply N. reflexivity.
  - inversion F as [|? ? Fx Fl]; subst. destruct x; try contradiction; cbn [spoken tree_call]; try (apply IH; auto).
    match goal with f : fmt |- _ => destruct f; try contradiction end. destruct buf as [[full p]|]; apply IH; auto.
Qed.

Lemma C47_kept_proof : forall e own w cwd l ws f s c k, called e own w cwd l ws f s -> c = CR \/ c = LF -> ws <> [] -> f_exec f = Some (XUser k) ->
  e_exec e k (Some (f_name f)) ws = [] ->
  exists s', does e c s (XUser k) f ws [] (said (o_desc s) c ws (hook_calls e (o_desc s) ws)) cwd s' /\ core s' = core s.
Proof.
  intros e own w cwd l ws f s c k C Hc N X E. pose proof C as (_ & _ & _ & (_ & R) & _).
  destruct (C46_proof e own w cwd l ws f s c k C Hc N X) as (s' & G); rewrite E, ?app_nil_r in *; [constructor|exact R|]. exists s'. exact G.
Qed.

Lemma C47_replaced_proof : forall e own w cwd l ws f s c k a r, called e own w cwd l ws f s -> c = CR \/ c = LF -> ws <> [] -> f_exec f = Some (XUser k) ->
  e_exec e k (Some (f_name f)) ws = a :: r -> Forall (printing_call ws) (a :: r) -> (forall x, a <> APrintf x) ->
  room_for (o_desc s) (hook_calls e (o_desc s) ws ++ a :: r) ->
  exists s', does e c s (XUser k) f ws [] (said (o_desc s) c ws (a :: r)) cwd s' /\ core s' = core s.
Proof.
  intros e own w cwd l ws f s c k a r C Hc N X E F Na R. pose proof C as (_ & _ & _ & (P & _) & _).
  destruct (C46_proof e own w cwd l ws f s c k C Hc N X) as (s' & G); rewrite E in *; [exact F|exact R|]. exists s'.
  unfold said in *. rewrite spoken_replaced in G by (auto; apply Forall_app; auto).
  rewrite (spoken_replaced (o_desc s) ws a r []) by auto. exact G.
Qed.
