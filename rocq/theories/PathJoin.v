(** * PathJoin: taking a path apart and joining it again (C12). *)
From Verif Require Import Node Spec BaseFacts PathFacts PathProofs.

Lemma C12_join_back_proof : forall p out, path_ok p -> p <> [] -> length (show p) < length out ->
  exists b u out', ush_utils_path_upper (show p ++ [NUL]) = Ok b /\ c_str b 0 = Ok u /\
    ush_utils_join_path u (ush_utils_path_last (show p)) out = Ok out' /\
    length out' = length out /\ c_str out' 0 = Ok (show p).
Proof.
  intros p out P N L. pose proof (app_removelast_last [] N) as E.
  assert (Pr : path_ok (removelast p) /\ comp_ok (last p [])).
  { unfold path_ok in *. rewrite E in P. apply Forall_app in P. destruct P as [A B]. split; [exact A|]. inversion B; assumption. }
  destruct Pr as [Pr Pl]. destruct (path_upper_show p P) as (b & Hb & Hu).
  rewrite path_last_show by exact P. destruct p as [|c t]; [congruence|].
  rewrite E in L. destruct (C12_join_proof (removelast (c :: t)) (last (c :: t) []) out Pr Pl L) as (out' & J & Ln & S).
  rewrite <- E in S. exists b, (show (removelast (c :: t))), out'. auto.
Qed.
