(** * BusyFacts: how the node objects change under the API calls that help and ls may meet. *)
From Coq Require Import Arith.
From Verif Require Import Types Spec Shell BaseFacts LogFacts Cmds Tree TreeFacts TreeOps TreeProofs Session Interrupt Busy.

(** ** What a call leaves of the node objects *)

(** Every object but the one handed over keeps its files and path; its successor is the old one or
    the successor of the old one. *)
Definition evolves (x : option nat) (h h' : list node) : Prop :=
  forall i nd, x <> Some i -> nth_error h i = Some nd ->
  exists nd', nth_error h' i = Some nd' /\ n_files nd' = n_files nd /\ n_path nd' = n_path nd /\
    (n_next nd' = n_next nd \/ exists k ndk, n_next nd = Some k /\ nth_error h k = Some ndk /\ n_next nd' = n_next ndk).

Lemma evolves_refl : forall x h, evolves x h h.
Proof. intros x h i nd _ E. exists nd. auto. Qed.
Lemma evolves_handed : forall id h nd, evolves (Some id) h (upd h id nd).
Proof. intros id h nd i nd0 N E. exists nd0. rewrite upd_nth_other by congruence. auto. Qed.
Lemma evolves_children : forall x h p c nd, nth_error h p = Some nd -> evolves x h (upd h p (with_children c nd)).
Proof.
  intros x h p c nd E i nd0 _ E0. rewrite upd_nth by (apply nth_error_Some; congruence). destruct (Nat.eqb_spec i p) as [->|N]; [|exists nd0; auto].
  rewrite E in E0. injection E0 as <-. eexists. split; [reflexivity|]. cbn. auto.
Qed.
Lemma evolves_skip : forall x h q k nd ndk, nth_error h q = Some nd -> n_next nd = Some k -> nth_error h k = Some ndk -> evolves x h (upd h q (with_next (n_next ndk) nd)).
Proof.
  intros x h q k nd ndk E Nx Ek i nd0 _ E0. rewrite upd_nth by (apply nth_error_Some; congruence). destruct (Nat.eqb_spec i q) as [->|N]; [|exists nd0; auto].
  rewrite E in E0. injection E0 as <-. eexists. split; [reflexivity|]. cbn. eauto 10.
Qed.
(** Two changes of which one is to the object handed over. *)
Lemma evolves_trans_handed : forall id h nd h2, evolves (Some id) (upd h id nd) h2 -> (forall i nd0, i <> id -> nth_error h i = Some nd0 -> exists nd2, nth_error h2 i = Some nd2 /\ n_next nd2 = n_next nd0) -> evolves (Some id) h h2.
Proof.
  intros id h nd h2 H G i nd0 N E. assert (Ni : i <> id) by congruence. destruct (H i nd0 N) as (nd' & E' & F & P & _); [rewrite upd_nth_other by congruence; exact E|].
  exists nd'. destruct (G i nd0 Ni E) as (nd2 & E2 & X). rewrite E' in E2. injection E2 as <-. auto.
Qed.

Lemma getn_inv : forall h i nd, getn h i = Ok nd -> nth_error h i = Some nd.
Proof. intros h i nd H. unfold getn in H. destruct (nth_error h i); [congruence|discriminate]. Qed.
Lemma setn_inv : forall h i nd h', setn h i nd = Ok h' -> i < length h /\ h' = upd h i nd.
Proof. intros h i nd h' H. unfold setn in H. destruct (Nat.ltb_spec i (length h)); [split; congruence|discriminate]. Qed.

Lemma find_prev_next : forall fuel h id prev curr q, find_prev fuel h id prev curr = Ok (Some (Some q)) ->
  (prev = Some q /\ curr = Some id) \/ exists nd, nth_error h q = Some nd /\ n_next nd = Some id.
Proof.
  induction fuel as [|f IH]; intros h id prev curr q H; cbn [find_prev] in H; [discriminate|]. destruct curr as [c|]; [|discriminate].
  destruct (Nat.eqb_spec c id) as [->|N]; [injection H as ->; auto|]. ok1. apply getn_inv in E. apply IH in H as [(A & B)|H]; [injection A as ->; right; eauto|right; exact H].
Qed.

Lemma op_evolves : forall o s r s', do_op o s = Ok (r, s') -> evolves (handed o) (hp s) (hp s').
Proof.
  intros o s r s' H. destruct o as [p id fl|t|id fl|id|t]; cbn [do_op handed] in *.
  - unfold ush_node_mount in H. ok1. apply getn_inv in E. ok1. apply setn_inv in E0 as (L & ->). cbv zeta in H. ok1.
    assert (Other : forall i, i <> id -> nth_error (upd (hp s) id (with_mount fl (Some (show p)) a)) i = nth_error (hp s) i) by (intros i N; apply upd_nth_other; congruence).
    set (h1 := upd (hp s) id (with_mount fl (Some (show p)) a)) in *.
    assert (Ev1 : evolves (Some id) (hp s) h1) by apply evolves_handed.
    destruct a0 as [ex|]; [oks; exact Ev1|]. clear E0. ok1. clear E0. destruct a0 as [q|].
    + ok1. ok1. ok1. ok1. ok1. ok1. ok1. oks. apply getn_inv in E0, E1, E3, E5. apply setn_inv in E2 as (L2 & ->). apply setn_inv in E4 as (L4 & ->). apply setn_inv in E6 as (L6 & ->).
      cbn [hp set_hp]. intros i nd0 N E9. assert (Ni : i <> id) by congruence. rewrite upd_nth_other by congruence.
      rewrite upd_nth by exact L4. destruct (Nat.eqb_spec i q) as [->|Nq].
      * rewrite upd_nth_other in E3 by congruence. rewrite Other in E3 by exact Ni. rewrite E3 in E9. injection E9 as <-. eexists. split; [reflexivity|]. cbn. auto.
      * rewrite upd_nth_other by congruence. rewrite Other by exact Ni. exists nd0. auto.
    + destruct (beq (show p) (lit "/")); [|oks; exact Ev1]. ok1. ok1. oks. apply setn_inv in E1 as (L1 & ->). cbn [hp set_hp]. unfold h1. rewrite upd_upd_same. apply evolves_handed.
  - unfold ush_node_unmount in H. ok1. ok1. clear E E0. destruct a0 as [i|]; [|oks; apply evolves_refl].
    destruct (_ && _); [oks; apply evolves_refl|]. ok1. apply getn_inv in E. destruct (n_children a0); [oks; apply evolves_refl|].
    destruct a as [p|]; [|oks; apply evolves_refl]. ok1. apply getn_inv in E0. ok1. destruct a1 as [[q|]|]; [| |oks; apply evolves_refl].
    + ok1. ok1. oks. apply getn_inv in E2. apply setn_inv in E3 as (_ & ->). cbn [hp set_hp]. apply find_prev_next in E1 as [(X & _)|(nd & X & Y)]; [discriminate|].
      rewrite E2 in X. injection X as <-. eapply evolves_skip; eauto.
    + ok1. oks. apply setn_inv in E2 as (_ & ->). cbn [hp set_hp]. apply evolves_children. exact E0.
  - unfold ush_commands_add in H. ok1. ok1. ok1. oks. apply setn_inv in E1 as (_ & ->). cbn [hp set_hp set_cmds]. apply evolves_handed.
  - unfold ush_commands_remove in H. ok1. destruct a as [[q|]|]; [| |oks; apply evolves_refl].
    + ok1. ok1. ok1. oks. apply getn_inv in E0, E1. apply setn_inv in E2 as (_ & ->). cbn [hp set_hp]. apply find_prev_next in E as [(X & _)|(nd & X & Y)]; [discriminate|].
      rewrite E1 in X. injection X as <-. eapply evolves_skip; eauto.
    + ok1. oks. apply evolves_refl.
  - unfold ush_node_set_current_dir in H. destruct t; [oks; apply evolves_refl|]. ok1. ok1. match type of H with match ?v with _ => _ end = _ => destruct v end; oks; apply evolves_refl.
Qed.

(** ** Lists of node objects that can be walked *)

(** From each object of [G] the walk goes to a later one or ends; each satisfies [P]. *)
Fixpoint web (P : node -> Prop) (h : list node) (G : list nat) : Prop :=
  match G with
  | [] => True
  | i :: r => (exists nd, nth_error h i = Some nd /\ P nd /\ (n_next nd = None \/ exists k, n_next nd = Some k /\ In k r)) /\ web P h r
  end.

Lemma web_in : forall P h G1 i G2, web P h (G1 ++ i :: G2) ->
  exists nd, nth_error h i = Some nd /\ P nd /\ (n_next nd = None \/ exists k, n_next nd = Some k /\ In k G2).
Proof. intros P h G1. induction G1 as [|j G1 IH]; intros i G2 H; [apply H|]. destruct H as (_ & H). apply IH, H. Qed.
Lemma web_tail : forall P h G1 G2, web P h (G1 ++ G2) -> web P h G2.
Proof. intros P h G1. induction G1 as [|j G1 IH]; intros G2 H; [exact H|]. destruct H as (_ & H). apply IH, H. Qed.
Lemma web_evolves : forall (P : node -> Prop) x h h' G, (forall nd nd', n_files nd' = n_files nd -> n_path nd' = n_path nd -> P nd -> P nd') ->
  evolves x h h' -> (forall i, x = Some i -> ~ In i G) -> web P h G -> web P h' G.
Proof.
  intros P x h h' G Hp Ev N H. induction G as [|i G IH]; [exact I|]. destruct H as ((nd & E & Pn & Nx) & H). split.
  - destruct (Ev i nd) as (nd' & E' & F & Pt & X); [intros X; apply (N i X); left; reflexivity|exact E|]. exists nd'. split; [exact E'|]. split; [eapply Hp; eauto|].
    destruct X as [X|(k & ndk & A & B & X)]; rewrite X; [exact Nx|]. destruct Nx as [Nx|(k' & Nx & Ik)]; [congruence|]. rewrite Nx in A. injection A as <-.
    apply in_split in Ik as (G1 & G2 & Eg). rewrite Eg in H. destruct (web_in _ _ _ _ _ H) as (ndk' & B' & _ & Y). rewrite B in B'. injection B' as <-.
    destruct Y as [Y|(k2 & Y & Ik)]; [left; exact Y|right]. exists k2. split; [exact Y|]. rewrite Eg. apply in_or_app. right. right. exact Ik.
  - apply IH; [|exact H]. intros j Ej I. apply (N j Ej). right. exact I.
Qed.

(** ** The mounted directories and the command groups *)
Lemma chain_links : forall h a p i b, chain h p (a ++ i :: b) -> exists nd, nth_error h i = Some nd /\ n_next nd = hd_error b.
Proof.
  intros h a. induction a as [|j a IH]; intros p i b C.
  - destruct C as (_ & nd & E & C). exists nd. split; [exact E|]. destruct b as [|k b]; [exact C|]. destruct C as (C & _). exact C.
  - destruct C as (_ & nd & _ & C). eapply IH; eauto.
Qed.

Lemma fs_links : forall own s w A d B, knows own s w -> w_fs w = A ++ d :: B ->
  exists nd, nth_error (hp s) (de_node d) = Some nd /\ n_path nd = Some (show (de_path d)) /\ n_files nd = de_files d /\
    (n_next nd = None \/ exists k, n_next nd = Some k /\ In k (map de_node B)).
Proof.
  intros own s w A d B K E. destruct K as ((Ok & St & Ch) & _). pose proof Ok as (_ & Np & _ & Cl).
  assert (Id : In d (w_fs w)) by (rewrite E; apply in_elt). destruct (St d Id) as (nd & En & P & F & _). exists nd. split; [exact En|]. split; [exact P|]. split; [exact F|].
  destruct (de_path d) as [|c q] eqn:Ep.
  - left. pose proof (node_at_in _ _ Np Id) as Na. rewrite Ep in Na. rewrite Na in Ch. destruct Ch as (_ & nd' & E' & C). rewrite En in E'. injection E' as <-. exact C.
  - assert (Nz : de_path d <> []) by congruence. pose proof (Cl d Id Nz) as Ip. apply in_map_iff in Ip as (dp & Eq & Ip). destruct (St dp Ip) as (np & _ & _ & _ & _ & C).
    unfold children in C. rewrite E, filter_app in C. cbn [filter] in C.
    assert (Bl : below (de_path dp) (de_path d) = true) by (apply below_spec; auto). rewrite Bl in C. rewrite map_app in C. cbn [map] in C.
    apply chain_links in C as (nd' & E' & X). rewrite En in E'. injection E' as <-. rewrite X.
    destruct (map de_node (filter (fun d0 => below (de_path dp) (de_path d0)) B)) as [|k r] eqn:Ek; [left; reflexivity|right]. exists k. split; [reflexivity|].
    assert (Ik : In k (map de_node (filter (fun d0 => below (de_path dp) (de_path d0)) B))) by (rewrite Ek; left; reflexivity).
    apply in_map_iff in Ik as (y & <- & Iy). apply filter_In in Iy as (Iy & _). apply in_map, Iy.
Qed.
Lemma gs_links : forall own s w A i fl B, knows own s w -> w_groups w = A ++ (i, fl) :: B ->
  exists nd, nth_error (hp s) i = Some nd /\ n_files nd = fl /\ (n_next nd = None \/ exists k, n_next nd = Some k /\ In k (map fst B)).
Proof.
  intros own s w A i fl B (_ & (N & Ch & Fl) & _) E. destruct (Fl i fl) as (nd & En & F); [rewrite E; apply in_elt|]. exists nd. split; [exact En|]. split; [exact F|].
  rewrite E, map_app in Ch. cbn [map fst] in Ch. apply chain_links in Ch as (nd' & E' & X). rewrite En in E'. injection E' as <-. rewrite X.
  destruct (map fst B) as [|k r]; [left; reflexivity|right]. exists k. split; [reflexivity|left; reflexivity].
Qed.

(** What the commands need of the objects they meet. *)
Definition ls_node (d : desc) (nd : node) : Prop := n_path nd <> None /\ Forall (listable d) (n_files nd).
Definition help_node (d : desc) (nd : node) : Prop := Forall (listable d) (n_files nd).

(** A directory's node object and a command group's. *)
Definition dir_node (P : node -> Prop) (w : world) : Prop := forall dd nd, In dd (w_fs w) -> n_path nd = Some (show (de_path dd)) -> n_files nd = de_files dd -> P nd.
Definition group_node (P : node -> Prop) (w : world) : Prop := forall i fl nd, In (i, fl) (w_groups w) -> n_files nd = fl -> P nd.
(** What does not depend on the links. *)
Definition linkless (P : node -> Prop) : Prop := forall nd nd', n_files nd' = n_files nd -> n_path nd' = n_path nd -> P nd -> P nd'.
Lemma ls_linkless : forall d, linkless (ls_node d).
Proof. intros d nd nd' F P (A & B). unfold ls_node. rewrite F, P. auto. Qed.
Lemma help_linkless : forall d, linkless (help_node d).
Proof. intros d nd nd' F P A. unfold help_node. rewrite F. exact A. Qed.
Lemma ls_dir : forall d w, (forall f, file_of w f -> listable d f) -> dir_node (ls_node d) w.
Proof. intros d w Ls dd nd I P F. split; [congruence|]. rewrite F. apply Forall_forall. intros f If. apply Ls. right. eauto. Qed.
Lemma help_group : forall d w, (forall f, file_of w f -> listable d f) -> group_node (help_node d) w.
Proof. intros d w Ls i fl nd I F. unfold help_node. rewrite F. apply Forall_forall. intros f If. apply Ls. left. apply in_flat_map. exists (i, fl). auto. Qed.

Lemma fs_web_gen : forall P own s w, knows own s w -> dir_node P w -> web P (hp s) (map de_node (w_fs w)).
Proof.
  intros P own s w K Ls. assert (G : forall B A, w_fs w = A ++ B -> web P (hp s) (map de_node B)).
  { induction B as [|y B IH]; intros A E; [exact I|]. split; [|apply (IH (A ++ [y])); rewrite <- app_assoc; exact E].
    destruct (fs_links own s w A y B K E) as (nd & En & Pt & F & Nx). exists nd. split; [exact En|]. split; [|exact Nx]. apply (Ls y); auto. rewrite E. apply in_elt. }
  apply (G (w_fs w) []). reflexivity.
Qed.
Lemma gs_web_gen : forall P own s w, knows own s w -> group_node P w -> web P (hp s) (map fst (w_groups w)).
Proof.
  intros P own s w K Ls. assert (G : forall B A, w_groups w = A ++ B -> web P (hp s) (map fst B)).
  { induction B as [|(i, fl) B IH]; intros A E; [exact I|]. split; [|apply (IH (A ++ [(i, fl)])); rewrite <- app_assoc; exact E].
    destruct (gs_links own s w A i fl B K E) as (nd & En & F & Nx). exists nd. split; [exact En|]. split; [|exact Nx]. apply (Ls i fl); auto. rewrite E. apply in_elt. }
  apply (G (w_groups w) []). reflexivity.
Qed.
Lemma fs_web : forall own s w d, knows own s w -> (forall f, file_of w f -> listable d f) -> web (ls_node d) (hp s) (map de_node (w_fs w)).
Proof. intros own s w d K Ls. eapply fs_web_gen; [exact K|apply ls_dir; exact Ls]. Qed.
Lemma gs_web : forall own s w d, knows own s w -> (forall f, file_of w f -> listable d f) -> web (help_node d) (hp s) (map fst (w_groups w)).
Proof. intros own s w d K Ls. eapply gs_web_gen; [exact K|apply help_group; exact Ls]. Qed.

(** ** The web grows with the tree *)
Lemma op_fs : forall o w, incl (w_fs (snd (spec_op o w))) (w_fs w) \/
  exists p id fl, o = TMount p id fl /\ w_fs (snd (spec_op o w)) = mkDir p id fl :: w_fs w.
Proof.
  intros o w. destruct o as [p id fl|t|id fl|id|t]; cbn [spec_op].
  - assert (X : snd (fs_mount p id fl (w_fs w)) = w_fs w \/ snd (fs_mount p id fl (w_fs w)) = mkDir p id fl :: w_fs w).
    { unfold fs_mount. destruct (dir_at p (w_fs w)); [auto|]. destruct p; [auto|]. destruct (dir_at _ _); auto. }
    destruct (fs_mount p id fl (w_fs w)) as (r, fs). cbn [snd w_fs] in *. destruct X as [->| ->]; [left; apply incl_refl|right; eauto 10].
  - left. destruct (dir_named t (w_fs w)) as [d|]; [|apply incl_refl]. unfold fs_unmount. destruct (dir_at _ _); [|apply incl_refl].
    destruct (children _ _); [|apply incl_refl]. cbn [snd w_fs]. intros y I. apply filter_In in I. apply I.
  - left. apply incl_refl.
  - left. destruct (in_dec _ _ _); apply incl_refl.
  - left. destruct t; [apply incl_refl|]. destruct (dir_named _ _); apply incl_refl.
Qed.
Lemma op_groups : forall o w, incl (w_groups (snd (spec_op o w))) (w_groups w) \/
  exists id fl, o = TAdd id fl /\ w_groups (snd (spec_op o w)) = (id, fl) :: w_groups w.
Proof.
  intros o w. destruct o as [p id fl|t|id fl|id|t]; cbn [spec_op].
  - left. destruct (fs_mount p id fl (w_fs w)) as (r, fs). apply incl_refl.
  - left. destruct (dir_named t (w_fs w)) as [d|]; [|apply incl_refl]. destruct (fs_unmount _ _). apply incl_refl.
  - right. eauto.
  - left. destruct (in_dec _ _ _); [|apply incl_refl]. intros y I. apply filter_In in I. apply I.
  - left. destruct t; [apply incl_refl|]. destruct (dir_named _ _); apply incl_refl.
Qed.

Definition grown (o : treeop) (w' : world) (G G' : list nat) : Prop :=
  G' = G \/ exists id, handed o = Some id /\ In id (used_ids w') /\ G' = id :: G.

Lemma fs_grows : forall P own o s w r s' G, linkless P -> web P (hp s) G -> incl (map de_node (w_fs w)) G ->
  do_op o s = Ok (r, s') -> let w' := snd (spec_op o w) in knows own s' w' -> dir_node P w' -> (forall id, handed o = Some id -> ~ In id G) ->
  exists G', web P (hp s') G' /\ incl (map de_node (w_fs w')) G' /\ grown o w' G G'.
Proof.
  intros P own o s w r s' G Lp Wb Ic Do w' K Ls N. pose proof (op_evolves _ _ _ _ Do) as Ev.
  assert (W1 : web P (hp s') G) by (eapply web_evolves; [exact Lp|exact Ev|exact N|exact Wb]).
  destruct (op_fs o w) as [X|(p & id & fl & -> & X)]; fold w' in X.
  - exists G. split; [exact W1|]. split; [|left; reflexivity]. intros i I. apply Ic. apply in_map_iff in I as (y & <- & I). apply in_map, X, I.
  - exists (id :: G). destruct (fs_links own s' w' [] (mkDir p id fl) (w_fs w) K X) as (nd & En & Pt & F & Nx). split; [split; [|exact W1]|split].
    + exists nd. split; [exact En|]. split; [apply (Ls (mkDir p id fl)); auto; rewrite X; left; reflexivity|].
      destruct Nx as [Nx|(k & Nx & Ik)]; [left; exact Nx|right]. exists k. auto.
    + rewrite X. intros i [<-|I]; [left; reflexivity|right; apply Ic, I].
    + right. exists id. split; [reflexivity|]. split; [|reflexivity]. unfold used_ids. rewrite X. left. reflexivity.
Qed.
Lemma gs_grows : forall P own o s w r s' G, linkless P -> web P (hp s) G -> incl (map fst (w_groups w)) G ->
  do_op o s = Ok (r, s') -> let w' := snd (spec_op o w) in knows own s' w' -> group_node P w' -> (forall id, handed o = Some id -> ~ In id G) ->
  exists G', web P (hp s') G' /\ incl (map fst (w_groups w')) G' /\ grown o w' G G'.
Proof.
  intros P own o s w r s' G Lp Wb Ic Do w' K Ls N. pose proof (op_evolves _ _ _ _ Do) as Ev.
  assert (W1 : web P (hp s') G) by (eapply web_evolves; [exact Lp|exact Ev|exact N|exact Wb]).
  destruct (op_groups o w) as [X|(id & fl & -> & X)]; fold w' in X.
  - exists G. split; [exact W1|]. split; [|left; reflexivity]. intros i I. apply Ic. apply in_map_iff in I as (y & <- & I). apply in_map, X, I.
  - exists (id :: G). destruct (gs_links own s' w' [] id fl (w_groups w) K X) as (nd & En & F & Nx). split; [split; [|exact W1]|split].
    + exists nd. split; [exact En|]. split; [apply (Ls id fl); auto; rewrite X; left; reflexivity|].
      destruct Nx as [Nx|(k & Nx & Ik)]; [left; exact Nx|right]. exists k. auto.
    + rewrite X. intros i [<-|I]; [left; reflexivity|right; apply Ic, I].
    + right. exists id. split; [reflexivity|]. split; [|reflexivity]. unfold used_ids. rewrite X. apply in_or_app. right. left. reflexivity.
Qed.
Lemma ls_grows : forall own d o s w r s' G, web (ls_node d) (hp s) G -> incl (map de_node (w_fs w)) G ->
  do_op o s = Ok (r, s') -> let w' := snd (spec_op o w) in knows own s' w' -> (forall f, file_of w' f -> listable d f) -> (forall id, handed o = Some id -> ~ In id G) ->
  exists G', web (ls_node d) (hp s') G' /\ incl (map de_node (w_fs w')) G' /\ grown o w' G G'.
Proof. intros own d o s w r s' G Wb Ic Do w' K Ls N. eapply fs_grows; eauto; [apply ls_linkless|apply ls_dir; exact Ls]. Qed.
Lemma help_grows : forall own d o s w r s' G, web (help_node d) (hp s) G -> incl (map fst (w_groups w)) G ->
  do_op o s = Ok (r, s') -> let w' := snd (spec_op o w) in knows own s' w' -> (forall f, file_of w' f -> listable d f) -> (forall id, handed o = Some id -> ~ In id G) ->
  exists G', web (help_node d) (hp s') G' /\ incl (map fst (w_groups w')) G' /\ grown o w' G G'.
Proof. intros own d o s w r s' G Wb Ic Do w' K Ls N. eapply gs_grows; eauto; [apply help_linkless|apply help_group; exact Ls]. Qed.

(** A directory that ls is going to list has sub-directories only while it is mounted. *)
Lemma listed_children : forall own s w G i nd, knows own s w -> incl (map de_node (w_fs w)) G -> In i own -> nth_error (hp s) i = Some nd ->
  n_children nd = None \/ exists k, n_children nd = Some k /\ In k G.
Proof.
  intros own s w G i nd K Ic Io E. destruct (in_dec Nat.eq_dec i (map de_node (w_fs w))) as [I|N].
  - destruct K as ((_ & St & _) & _). apply in_map_iff in I as (y & <- & Iy). destruct (St y Iy) as (nd' & E' & _ & _ & _ & C). rewrite E in E'. injection E' as <-.
    destruct (map de_node (children (de_path y) (w_fs w))) as [|k r] eqn:Ek; [left; exact C|right]. destruct C as (C & _). exists k. split; [exact C|]. apply Ic.
    assert (Ik : In k (map de_node (children (de_path y) (w_fs w)))) by (rewrite Ek; left; reflexivity). apply in_map_iff in Ik as (z & <- & Iz). apply children_in in Iz. apply in_map, Iz.
  - left. destruct K as (_ & _ & _ & _ & F & _). destruct (F i Io) as (nd' & E' & X). rewrite E in E'. injection E' as <-. apply X, N.
Qed.
