(** * AgainProofs: proofs of C86. *)
From Coq Require Import Arith Lia.
From Verif Require Import Shell BaseFacts Words Sched Line Editor Spec Tree Cmds Complete Session SessionProofs Forget ForgetProofs Again.

Lemma run_alike : forall x cs a b, memoryless x -> stand_alike a b -> stand_alike (snd (sess_run x a cs)) (snd (sess_run x b cs)).
Proof.
  intros x cs. induction cs as [|c r IH]; intros a b M S; [exact S|].
  destruct (step_forgets x a b c S (fun h => M _ _)) as (_ & S' & _ & _). cbn [sess_run]. destruct (sess_step x a c) as [e1 a1], (sess_step x b c) as [e2 b1]. cbn [snd] in S'.
  specialize (IH a1 b1 M S'). destruct (sess_run x a1 r), (sess_run x b1 r). exact IH.
Qed.

Lemma again : forall own x a cs, memoryless x -> stand_alike a (snd (sess_run x a cs)) -> run_limits own x a cs -> forall k b, stand_alike a b ->
  fst (sess_run x b (times k cs)) = times k (fst (sess_run x a cs)) /\ run_limits own x b (times k cs) /\ stand_alike a (snd (sess_run x b (times k cs))).
Proof.
  intros own x a cs M S L k. induction k as [|k IH]; intros b B; [repeat split; apply B|]. cbn [times].
  destruct (run_forgets x cs a b B (fun h => M _ _)) as (E & Li). pose proof (run_alike x cs a b M B) as R.
  assert (B' : stand_alike a (snd (sess_run x b cs))).
  { destruct S as (S1 & S2 & S3), R as (R1 & R2 & R3). split; [congruence|]. split; congruence. }
  destruct (IH _ B') as (F & Lk & Sk). rewrite run_cat. cbn [fst snd]. rewrite F, <- E. split; [reflexivity|]. split; [|exact Sk]. apply limits_cat. split; [exact (Li own L)|exact Lk].
Qed.

Lemma ends_fresh : forall x a q c, ends_line (snd (sess_run x a q)) c = true -> se_esc (snd (sess_run x a (q ++ [c]))) = 0 /\ se_line (snd (sess_run x a (q ++ [c]))) = [].
Proof.
  intros x a q c E. rewrite run_cat. cbn [snd sess_run]. unfold sess_step. rewrite E. destruct (react _ _ _ _ _) as [[evs t] w']. split; reflexivity.
Qed.

Lemma C86_proof : forall own x a s q c, memoryless x -> leaves_tree x -> shows own x a s -> se_esc a = 0 -> se_line a = [] ->
  ends_line (snd (sess_run x a q)) c = true -> never_cd x a (q ++ [c]) -> run_limits own x a (q ++ [c]) ->
  exists evs, forall k, exists n, forall l, n <= both_ready l ->
    exists s', drive (app_of x) (times k (q ++ [c])) l s = Ok ([], s') /\ polling s' /\ lg s' = lg s ++ times k evs.
Proof.
  intros own x a s q c M Lt Hs Ea La En Nc L. exists (fst (sess_run x a (q ++ [c]))). intros k.
  destruct (ends_fresh x a q c En) as (E1 & E2). pose proof (mild_run x (q ++ [c]) a Lt) as (_ & _ & _ & W). specialize (W Nc).
  assert (S : stand_alike a (snd (sess_run x a (q ++ [c])))) by (split; [symmetry; exact W|split; congruence]).
  destruct (again own x a (q ++ [c]) M S L k a) as (F & Lk & _); [repeat split|].
  destruct (schedule_done own x _ a s s (quiet_by_here _ _ (shows_polling _ _ _ _ Hs)) Hs Lk) as (_ & n & s' & B & Sh & Lg).
  exists n. intros l H. exists s'. split; [apply B; exact H|]. split; [apply (shows_polling _ _ _ _ Sh)|]. rewrite Lg, F. reflexivity.
Qed.

Lemma any_order : forall own x a, memoryless x -> leaves_tree x -> se_esc a = 0 -> se_line a = [] -> forall bs b, Forall (plain_lines own x a) bs -> stand_alike a b ->
  fst (sess_run x b (concat bs)) = concat (map (fun cs => fst (sess_run x a cs)) bs) /\ run_limits own x b (concat bs).
Proof.
  intros own x a M Lt Ea La bs. induction bs as [|cs bs IH]; intros b P B; [split; [reflexivity|exact I]|]. apply Forall_cons_iff in P as (((q & c & -> & En) & Nc & L) & P).
  destruct (ends_fresh x a q c En) as (E1 & E2). pose proof (mild_run x (q ++ [c]) a Lt) as (_ & _ & _ & W). specialize (W Nc).
  destruct (run_forgets x (q ++ [c]) a b B (fun h => M _ _)) as (E & Li). pose proof (run_alike x (q ++ [c]) a b M B) as (R1 & R2 & R3).
  assert (B' : stand_alike a (snd (sess_run x b (q ++ [c])))) by (split; [congruence|split; congruence]).
  destruct (IH _ P B') as (F & Lk). cbn [concat map]. rewrite run_cat. cbn [fst]. rewrite F, <- E. split; [reflexivity|]. apply limits_cat. split; [exact (Li own L)|exact Lk].
Qed.

Lemma C86_order_proof : forall own x a s, memoryless x -> leaves_tree x -> shows own x a s -> se_esc a = 0 -> se_line a = [] ->
  exists answer : bytes -> list event, forall bs, Forall (plain_lines own x a) bs -> exists n, forall l, n <= both_ready l ->
    exists s', drive (app_of x) (concat bs) l s = Ok ([], s') /\ polling s' /\ lg s' = lg s ++ concat (map answer bs).
Proof.
  intros own x a s M Lt Hs Ea La. exists (fun cs => fst (sess_run x a cs)). intros bs P.
  destruct (any_order own x a M Lt Ea La bs a P) as (F & Lk); [repeat split|].
  destruct (schedule_done own x _ a s s (quiet_by_here _ _ (shows_polling _ _ _ _ Hs)) Hs Lk) as (_ & n & s' & B & Sh & Lg).
  exists n. intros l H. exists s'. split; [apply B; exact H|]. split; [apply (shows_polling _ _ _ _ Sh)|]. rewrite Lg, F. reflexivity.
Qed.
