(** * MultiProofs: shells of one program do not influence each other (C50). *)
From Coq Require Import Lia.
From Verif Require Import Shell Multi MultiFacts BaseFacts.

Lemma set_hp_self : forall s, set_hp (hp s) s = s.
Proof. destruct s; reflexivity. Qed.

Lemma apart_ptrs : forall own s, apart own s <-> ptrs own s /\ nodes_in own (hp s).
Proof. intros own s. unfold apart, ptrs, nodes_in. tauto. Qed.

(** One deed with two states of the same shell. *)
Lemma perform_same : forall own x s s', apart own s -> same_shell own s s' -> deed_hands own x ->
  match perform x s with
  | Err e => perform x s' = Err e
  | Ok t => exists t', perform x s' = Ok t' /\ same_shell own t t' /\ apart own t /\
              keeps own (hp s) (hp t) /\ keeps own (hp s') (hp t')
  end.
Proof.
  intros own x s s' A (E & L & N) H. apply apart_ptrs in A as (P & NI).
  assert (T : tw own (hp s) (hp s') s (hp s')).
  { split; [exact P|]. split; [exact NI|]. split; [split; assumption|]. split; split; auto. }
  pose proof (perform_m own (hp s) (hp s') x s (hp s') T H) as S. rewrite <- E in S. unfold sim in S.
  destruct (perform x s) as [t|e]; [|exact S]. destruct S as (h' & Ep & (P' & NI' & (L' & N') & K & K')).
  exists (set_hp h' t). split; [exact Ep|]. split; [split; [reflexivity|split; assumption]|]. split; [apply apart_ptrs; auto|]. auto.
Qed.

Lemma same_refl : forall own s, same_shell own s s.
Proof. intros own s. split; [symmetry; apply set_hp_self|auto]. Qed.

Lemma shell_at_upd : forall p k s' j, k < length (p_shells p) ->
  shell_at (mkProg (hp s') (upd (p_shells p) k s')) j =
  if j =? k then Some s' else option_map (set_hp (hp s')) (nth_error (p_shells p) j).
Proof.
  intros p k s' j L. unfold shell_at. cbn [p_mem p_shells]. destruct (Nat.eqb_spec j k) as [->|D].
  - rewrite upd_nth_same by exact L. cbn [option_map]. rewrite set_hp_self. reflexivity.
  - rewrite upd_nth_other by auto. reflexivity.
Qed.

(** One turn: what shell [j] looks like afterwards. *)
Lemma turn_other : forall own own' s s' sj t, (forall i, In i own' -> ~ In i own) -> keeps own (hp s) (hp s') ->
  apart own' (set_hp (hp s) sj) -> same_shell own' t (set_hp (hp s) sj) ->
  apart own' (set_hp (hp s') sj) /\ same_shell own' t (set_hp (hp s') sj).
Proof.
  intros own own' s s' sj t D (L & K) (A1 & A2 & A3 & A4 & A5 & A6 & A7) (E & L' & N').
  assert (Same : forall i, In i own' -> nth_error (hp s') i = nth_error (hp s) i) by (intros i I; apply K; apply D; exact I).
  split.
  - split; [exact A1|]. split; [exact A2|]. split; [exact A3|]. split; [exact A4|]. split; [exact A5|]. split; [exact A6|].
    intros i nd I G. apply (A7 i nd I). cbn in *. rewrite <- Same by exact I. exact G.
  - rewrite get_hp in E, L', N'. split; [|rewrite get_hp; split].
    + rewrite get_hp. rewrite <- (push_hp (hp s') (hp s) sj). rewrite E. rewrite !push_hp. reflexivity.
    + transitivity (length (hp s)); assumption.
    + intros i I. rewrite (Same i I). rewrite <- (N' i I). reflexivity.
Qed.

Lemma turns_proof : forall owns l p (a : nat -> st),
  (forall j k i, j <> k -> In i (owns j) -> ~ In i (owns k)) ->
  (forall k s, shell_at p k = Some s -> apart (owns k) s /\ apart (owns k) (a k) /\ same_shell (owns k) (a k) s) ->
  (forall k x, In (k, x) l -> k < length (p_shells p) /\ deed_hands (owns k) x) ->
  match turns l p with
  | Ok p' => length (p_shells p') = length (p_shells p) /\
      forall k s', shell_at p' k = Some s' -> apart (owns k) s' /\ exists t, performs (share k l) (a k) = Ok t /\ same_shell (owns k) t s'
  | Err e => exists k, k < length (p_shells p) /\ performs (share k l) (a k) = Err e
  end.
Proof.
  intros owns l; induction l as [|[k x] l IH]; intros p a D A H; cbn [turns].
  - split; [reflexivity|]. intros k s' E. destruct (A k s' E) as (A1 & A2 & A3). split; [exact A1|]. exists (a k). auto.
  - destruct (H k x (or_introl eq_refl)) as (Lk & Hx).
    destruct (nth_error (p_shells p) k) as [sk|] eqn:Ek; [|apply nth_error_None in Ek; lia].
    assert (Sk : shell_at p k = Some (set_hp (p_mem p) sk)) by (unfold shell_at; rewrite Ek; reflexivity).
    destruct (A k _ Sk) as (A1 & A2 & A3). unfold turn. rewrite Sk.
    pose proof (perform_same (owns k) x (a k) _ A2 A3 Hx) as F.
    pose proof (perform_same (owns k) x _ _ A1 (same_refl _ _) Hx) as F1.
    destruct (perform x (a k)) as [t|e] eqn:Ea.
    + destruct F as (s' & Es & Sm & At & _ & Ks). rewrite Es in F1 |- *. cbn [bind].
      destruct F1 as (s'' & Es'' & _ & As & _ & _). injection Es'' as <-.
      specialize (IH (mkProg (hp s') (upd (p_shells p) k s')) (fun j => if j =? k then t else a j) D).
      cbn [p_shells] in IH. rewrite upd_length in IH.
      assert (G1 : forall j s, shell_at (mkProg (hp s') (upd (p_shells p) k s')) j = Some s ->
        apart (owns j) s /\ apart (owns j) (if j =? k then t else a j) /\ same_shell (owns j) (if j =? k then t else a j) s).
      { intros j s Ej. rewrite shell_at_upd in Ej by exact Lk. destruct (Nat.eqb_spec j k) as [->|Dj].
        - injection Ej as <-. auto.
        - destruct (nth_error (p_shells p) j) as [sj|] eqn:Enj; [|discriminate]. cbn [option_map] in Ej. injection Ej as <-.
          assert (Sj : shell_at p j = Some (set_hp (p_mem p) sj)) by (unfold shell_at; rewrite Enj; reflexivity).
          destruct (A j _ Sj) as (B1 & B2 & B3).
          destruct (turn_other (owns k) (owns j) (set_hp (p_mem p) sk) s' sj (a j)) as (C1 & C2); auto. intros i. apply D. exact Dj. }
      specialize (IH G1 (fun j y I => H j y (or_intror I))).
      destruct (turns l _) as [p'|e].
      * destruct IH as (Lp & IH). split; [exact Lp|]. intros j s Ej. destruct (IH j s Ej) as (B1 & u & B2 & B3). split; [exact B1|]. exists u. split; [|exact B3].
        cbn [share]. rewrite Nat.eqb_sym. destruct (Nat.eqb_spec j k) as [->|]; [cbn [performs]; rewrite Ea; exact B2|exact B2].
      * destruct IH as (j & Lj & Ej). exists j. split; [exact Lj|]. cbn [share]. rewrite Nat.eqb_sym.
        destruct (Nat.eqb_spec j k) as [->|]; [cbn [performs]; rewrite Ea; exact Ej|exact Ej].
    + rewrite F. cbn [bind]. exists k. split; [exact Lk|]. cbn [share]. rewrite Nat.eqb_refl. cbn [performs]. rewrite Ea. reflexivity.
Qed.

Lemma C50_proof : forall owns l p, separate owns p -> (forall k x, In (k, x) l -> k < length (p_shells p) /\ deed_hands (owns k) x) ->
  match turns l p with
  | Ok p' => separate owns p' /\
      forall k s, shell_at p k = Some s ->
      exists t t', performs (share k l) s = Ok t /\ shell_at p' k = Some t' /\ same_shell (owns k) t t'
  | Err e => exists k s, shell_at p k = Some s /\ performs (share k l) s = Err e
  end.
Proof.
  intros owns l p (A & D) H.
  pose proof (turns_proof owns l p (fun k => match shell_at p k with Some s => s | None => st_zero (mkDesc 0 0 0 [] None cfg_test) 0 [] [] [] [] end) D) as F.
  assert (G : forall k s, shell_at p k = Some s -> apart (owns k) s /\
    apart (owns k) (match shell_at p k with Some s => s | None => st_zero (mkDesc 0 0 0 [] None cfg_test) 0 [] [] [] [] end) /\
    same_shell (owns k) (match shell_at p k with Some s => s | None => st_zero (mkDesc 0 0 0 [] None cfg_test) 0 [] [] [] [] end) s).
  { intros k s E. rewrite E. split; [|split]; auto. apply same_refl. }
  specialize (F G H). destruct (turns l p) as [p'|e].
  - destruct F as (L & F). split.
    + split; [|exact D]. intros k s E. apply (F k s E).
    + intros k s E. destruct (shell_at p' k) as [t'|] eqn:E'.
      * destruct (F k t' E') as (_ & t & P & S). rewrite E in P. exists t, t'. auto.
      * exfalso. unfold shell_at in E, E'. destruct (nth_error (p_shells p) k) eqn:N; [|discriminate].
        destruct (nth_error (p_shells p') k) eqn:N'; [discriminate|]. apply nth_error_None in N'.
        assert (k < length (p_shells p)) by (apply nth_error_Some; congruence). lia.
  - destruct F as (k & L & F). destruct (nth_error (p_shells p) k) as [sk|] eqn:N; [|apply nth_error_None in N; lia].
    exists k, (set_hp (p_mem p) sk). assert (E : shell_at p k = Some (set_hp (p_mem p) sk)) by (unfold shell_at; rewrite N; reflexivity).
    split; [exact E|]. rewrite E in F. exact F.
Qed.

Lemma fresh_proof : forall owns mem ss,
  (forall k s, nth_error ss k = Some s -> exists d b ib ob l, s = st_zero d b ib ob mem l /\ In b (owns k)) ->
  (forall k i nd, In i (owns k) -> nth_error mem i = Some nd -> nd = node_zero) ->
  (forall j k i, j <> k -> In i (owns j) -> ~ In i (owns k)) ->
  separate owns (mkProg mem ss).
Proof.
  intros owns mem ss Z N D. split; [|exact D]. intros k s E. unfold shell_at in E. cbn [p_mem p_shells] in E.
  destruct (nth_error ss k) as [s0|] eqn:Ek; [|discriminate]. cbn [option_map] in E. injection E as <-.
  destruct (Z k s0 Ek) as (d & b & ib & ob & l & -> & I). cbn. split; [exact Logic.I|]. split; [exact Logic.I|]. split; [exact Logic.I|].
  split; [exact Logic.I|]. split; [exact Logic.I|]. split; [exact I|]. intros i nd J G. rewrite (N k i nd J G). cbn. auto.
Qed.
