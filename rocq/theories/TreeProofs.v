(** * TreeProofs: proofs of the properties about the directory tree. *)
From Coq Require Import Arith.
From Verif Require Import Shell Sched Spec BaseFacts PathFacts CollapseFacts Tree TreeFacts TreeOps TreeFind.

Lemma op_step : forall own o s w, knows own s w -> allowed (d_pathmax (o_desc s)) own w o ->
  exists s', do_op o s = Ok (fst (spec_op o w), s') /\ knows own s' (snd (spec_op o w)) /\ only_tree own s s'.
Proof.
  intros own o s w K A. destruct o as [p id fl|t|id fl|id|t].
  - destruct A as (A1 & A2 & A3 & A4). apply mount_step; auto.
  - destruct A as (A1 & A2). apply unmount_step; auto.
  - destruct A as (A1 & A2 & A3). apply add_step; auto.
  - apply remove_step; auto.
  - apply chdir_step; auto.
Qed.

Lemma only_tree_desc : forall own s s', only_tree own s s' -> o_desc s' = o_desc s.
Proof. intros own s s' (E & _). rewrite E. reflexivity. Qed.

Lemma only_tree_trans : forall own s1 s2 s3, only_tree own s1 s2 -> only_tree own s2 s3 -> only_tree own s1 s3.
Proof.
  intros own s1 s2 s3 (E1 & L1 & F1) (E2 & L2 & F2). split; [|split].
  - rewrite E2 at 1. rewrite E1. reflexivity.
  - congruence.
  - intros i N. rewrite F2, F1; auto.
Qed.

Lemma C15_history_proof : forall own os s w, knows own s w -> all_allowed (d_pathmax (o_desc s)) own os w ->
  exists s', do_ops os s = Ok (fst (spec_ops os w), s') /\ knows own s' (snd (spec_ops os w)) /\ only_tree own s s'.
Proof.
  intros own os. induction os as [|o os IH]; intros s w K A.
  - exists s. split; [reflexivity|]. split; [exact K|apply only_tree_refl].
  - destruct A as (A1 & A2). destruct (op_step own o s w K A1) as (s1 & E1 & K1 & O1). cbn [do_ops spec_ops]. rewrite E1. cbn [bind].
    destruct (spec_op o w) as (x & w1) eqn:Es. cbn [fst snd] in *. rewrite <- (only_tree_desc _ _ _ O1) in A2.
    destruct (IH s1 w1 K1 A2) as (s2 & E2 & K2 & O2). rewrite E2. cbn [bind]. destruct (spec_ops os w1) as (xs & w2). cbn [fst snd] in *.
    exists s2. split; [reflexivity|]. split; [exact K2|]. eapply only_tree_trans; eauto.
Qed.

Lemma C15_lookup_proof : forall own s w t, knows own s w -> ~ In NUL t -> length t < d_pathmax (o_desc s) ->
  ush_node_get_by_path (d_pathmax (o_desc s)) (hp s) (o_root s) t = Ok (option_map de_node (dir_named t (w_fs w))).
Proof. intros own s w t (R & _) N L. apply get_by_path_text; auto. Qed.

(** ** Fresh shells *)
Definition childless (own : list nat) (h : list node) : Prop := forall i, In i own -> exists nd, nth_error h i = Some nd /\ n_children nd = None.
Lemma blank_childless : forall own h, (forall i, In i own -> nth_error h i = Some node_zero) -> childless own h.
Proof. intros own h B i I. exists node_zero. split; [exact (B i I)|reflexivity]. Qed.

Lemma knows_blank : forall own s, o_root s = None -> o_cmds s = None -> childless own (hp s) -> knows own s (mkWorld [] [] None).
Proof.
  intros own s R C B. split; [|split; [|split; [|split; [|split]]]]; cbn [w_fs w_groups w_cwd].
  - rewrite R. repeat split; try constructor; cbn; tauto.
  - rewrite C. repeat split; try constructor. intros i fl [].
  - intros i [].
  - intros i [[]|[]].
  - intros i I. destruct (B i I) as (nd & E & C1). exists nd. split; [exact E|auto].
  - exact Logic.I.
Qed.

Lemma commands_free : forall s, ush_reset s = write_str greeting S_RESET_PROMPT (set_cur (o_root s) s).
Proof. reflexivity. Qed.

Lemma knows_ext : forall own s s' w, hp s' = hp s -> o_root s' = o_root s -> o_cmds s' = o_cmds s -> o_cur s' = o_cur s -> knows own s w -> knows own s' w.
Proof. intros own s s' w E1 E2 E3 E4 (R & G & D & O & F & W). unfold knows. rewrite E1, E2, E3, E4. repeat split; auto; try apply R; apply G. Qed.

Lemma knows_no_cwd : forall own s s' w, hp s' = hp s -> o_root s' = o_root s -> o_cmds s' = o_cmds s -> w_cwd w = None -> knows own s w -> knows own s' w.
Proof. intros own s s' w E1 E2 E3 E4 (R & G & D & O & F & W). unfold knows. rewrite E1, E2, E3, E4. repeat split; auto; try apply R; apply G. Qed.

Definition builtins (d : desc) (b : nat) : groups := if cfg_commands (d_cfg d) then [(b, buildin_commands (d_cfg d))] else [].

Lemma pending_str : forall t nx s, pending (write_str t nx s) t.
Proof.
  intros t nx s. split; [reflexivity|]. split; [reflexivity|]. intros j c E. unfold wbuf_rd.
  change (o_wpos (write_str t nx s)) with 0. change (o_wbuf (write_str t nx s)) with (Some (WStr t)). cbn [Nat.add]. unfold rd. rewrite E. reflexivity.
Qed.

Lemma service_no_dir : forall s i, o_cur s = None -> ush_service i s = Err EAssert.
Proof. intros s i E. unfold ush_service. rewrite E. reflexivity. Qed.

Lemma reset_fields : forall s, let s' := ush_reset s in
  hp s' = hp s /\ o_root s' = o_root s /\ o_cmds s' = o_cmds s /\ o_desc s' = o_desc s /\ inb s' = inb s /\ outb s' = outb s /\ lg s' = lg s /\
  o_cur s' = o_root s /\ pending s' greeting /\ o_wnext s' = S_RESET_PROMPT.
Proof. intros s. cbv zeta. rewrite commands_free. repeat (split; [reflexivity|]). split; [apply pending_str|reflexivity]. Qed.

Lemma add_fields : forall id fl s x s', ush_commands_add id fl s = Ok (x, s') ->
  o_root s' = o_root s /\ o_desc s' = o_desc s /\ inb s' = inb s /\ outb s' = outb s /\ lg s' = lg s.
Proof.
  intros id fl s x s' E. unfold ush_commands_add in E. destruct (assert_ _); cbn [bind] in E; [|discriminate].
  destruct (getn _ _); cbn [bind] in E; [|discriminate]. destruct (setn _ _ _); cbn [bind] in E; [|discriminate]. injection E as _ <-. repeat split.
Qed.

Lemma init_proof : forall d d0 b ib0 ob0 h l ib ob own, 1 <= d_insize d -> 4 <= d_outsize d ->
  (cfg_commands (d_cfg d) = true -> buildin_commands (d_cfg d) <> []) -> In b own -> childless own h ->
  exists s, ush_init d ib ob (st_zero d0 b ib0 ob0 h l) = Ok s /\
    knows own s (mkWorld [] (builtins d b) None) /\
    o_desc s = d /\ inb s = ib /\ outb s = ob /\ lg s = l /\ o_cur s = None /\
    pending s greeting /\ o_wnext s = S_RESET_PROMPT /\
    forall i, ush_service i s = Err EAssert.
Proof.
  intros d d0 b ib0 ob0 h l ib ob own L1 L2 Nb I B. unfold ush_init.
  destruct (Nat.ltb_spec 0 (d_insize d)); [|lia]. cbn [assert_ bind]. destruct (Nat.leb_spec 4 (d_outsize d)); [|lia]. cbn [assert_ bind].
  set (s0 := set_root None (set_outb ob (set_inb ib (set_desc d (st_zero d0 b ib0 ob0 h l))))).
  assert (K0 : knows own s0 (mkWorld [] [] None)) by (apply knows_blank; auto).
  assert (F0 : o_root s0 = None /\ o_desc s0 = d /\ inb s0 = ib /\ outb s0 = ob /\ lg s0 = l) by (repeat split).
  assert (HH : exists s1, (if cfg_commands (d_cfg d) then '(_, s) <- ush_commands_add (o_buildin s0) (buildin_commands (d_cfg d)) s0 ;; Ok s else Ok s0) = Ok s1 /\
     knows own s1 (mkWorld [] (builtins d b) None) /\ o_root s1 = None /\ o_desc s1 = d /\ inb s1 = ib /\ outb s1 = ob /\ lg s1 = l).
  { unfold builtins. destruct (cfg_commands (d_cfg d)) eqn:Ec.
    - change (o_buildin s0) with b. clearbody s0.
      destruct (add_step own s0 (mkWorld [] [] None) b (buildin_commands (d_cfg d)) K0 (Nb eq_refl) I) as (s1 & E1 & K1 & _).
      { intros [[]|[]]. }
      rewrite E1. cbn [bind]. exists s1. split; [reflexivity|]. split; [exact K1|]. apply add_fields in E1 as (-> & -> & -> & -> & ->). exact F0.
    - exists s0. split; [reflexivity|]. split; [exact K0|exact F0]. }
  destruct HH as (s1 & E1 & K1 & F1 & F2 & F3 & F4 & F5). clearbody s0. rewrite E1. cbn [bind]. exists (ush_reset s1). split; [reflexivity|].
  destruct (reset_fields s1) as (R1 & R2 & R3 & R4 & R5 & R6 & R7 & R8 & R9 & R10).
  split; [eapply knows_no_cwd; [exact R1|exact R2|exact R3|reflexivity|exact K1]|].
  rewrite R4, R5, R6, R7, R8, R10. repeat (split; [auto|]). intros i. apply service_no_dir. congruence.
Qed.
Lemma C36_init_proof : forall d d0 b ib0 ob0 h l ib ob own, 1 <= d_insize d -> 4 <= d_outsize d ->
  (cfg_commands (d_cfg d) = true -> buildin_commands (d_cfg d) <> []) -> In b own -> (forall i, In i own -> nth_error h i = Some node_zero) ->
  exists s, ush_init d ib ob (st_zero d0 b ib0 ob0 h l) = Ok s /\
    knows own s (mkWorld [] (builtins d b) None) /\
    o_desc s = d /\ inb s = ib /\ outb s = ob /\ lg s = l /\ o_cur s = None /\
    pending s greeting /\ o_wnext s = S_RESET_PROMPT /\
    forall i, ush_service i s = Err EAssert.
Proof. intros. apply init_proof; auto. apply blank_childless; auto. Qed.

(** Initialised twice: the list of groups is a circle. *)
Lemma circle : forall h i nd name, nth_error h i = Some nd -> n_next nd = Some i -> file_named name (n_files nd) = None ->
  forall fuel, find_cmds fuel h (Some i) name = Err EDiverge.
Proof.
  intros h i nd name E N F. induction fuel as [|n IH]; [reflexivity|]. cbn [find_cmds]. rewrite (getn_ok _ _ _ E). cbn [bind].
  rewrite find_cmd_named, F, N. exact IH.
Qed.

Lemma C36_twice_proof : forall d ib ob s own w b, knows own s w -> w_groups w = [(b, buildin_commands (d_cfg d))] -> o_buildin s = b ->
  1 <= d_insize d -> 4 <= d_outsize d -> cfg_commands (d_cfg d) = true -> buildin_commands (d_cfg d) <> [] ->
  exists s', ush_init d ib ob s = Ok s' /\
    forall name, file_named name (buildin_commands (d_cfg d)) = None ->
      (forall fuel, find_cmds fuel (hp s') (o_cmds s') name = Err EDiverge) /\
      ush_file_find_by_name name s' = Err EDiverge.
Proof.
  intros d ib ob s own w b K G Eb L1 L2 Ec Nb. unfold ush_init.
  destruct (Nat.ltb_spec 0 (d_insize d)); [|lia]. cbn [assert_ bind]. destruct (Nat.leb_spec 4 (d_outsize d)); [|lia]. cbn [assert_ bind].
  rewrite Ec. destruct K as (_ & (N & C & Fl) & _). rewrite G in *.
  destruct (Fl b _ (or_introl eq_refl)) as (nd & E & Fn). destruct C as (Cm & _).
  set (s0 := set_root None (set_outb ob (set_inb ib (set_desc d s)))). change (o_buildin s0) with (o_buildin s). rewrite Eb.
  unfold ush_commands_add. destruct (buildin_commands (d_cfg d)) as [|f0 fl0] eqn:Ef; [congruence|]. cbn [length Nat.eqb negb assert_ bind].
  change (hp s0) with (hp s). rewrite (getn_ok _ _ _ E). cbn [bind]. rewrite (setn_ok _ _ _ _ E). cbn [bind].
  change (o_cmds s0) with (o_cmds s). cbn [fst] in Cm. rewrite Cm. eexists. split; [reflexivity|]. intros name Nn.
  set (nd1 := with_next (Some b) (with_mount (f0 :: fl0) None nd)).
  rewrite commands_free. 
  match goal with |- (forall fuel, find_cmds fuel (hp ?x) _ _ = _) /\ _ => set (s' := x) end.
  change (hp s') with (upd (hp s) b nd1). change (o_cmds s') with (Some b).
  assert (E1 : nth_error (upd (hp s) b nd1) b = Some nd1) by (apply upd_nth_same; eapply nth_lt; eauto).
  pose proof (circle (upd (hp s) b nd1) b nd1 name E1 eq_refl Nn) as Cc. split; [exact Cc|].
  unfold ush_file_find_by_name. change (hp s') with (upd (hp s) b nd1). change (o_cmds s') with (Some b). rewrite Cc. reflexivity.
Qed.

(** ** Deinitialisation *)
Inductive forest (h : list node) : option nat -> list nat -> Prop :=
| forest_nil : forest h None []
| forest_cons : forall i nd a b, nth_error h i = Some nd -> forest h (n_children nd) a -> forest h (n_next nd) b ->
    forest h (Some i) (i :: a ++ b).

Lemma forest_frame : forall h h' p ids, forest h p ids -> (forall i, In i ids -> nth_error h' i = nth_error h i) -> forest h' p ids.
Proof.
  intros h h' p ids F. induction F as [|i nd a b E Fa IHa Fb IHb]; intros H; [constructor|].
  econstructor.
  - rewrite H by (left; reflexivity). exact E.
  - apply IHa. intros j J. apply H. right. apply in_or_app. auto.
  - apply IHb. intros j J. apply H. right. apply in_or_app. auto.
Qed.

Lemma NoDup_parts : forall (a b : list nat), NoDup (a ++ b) -> NoDup a /\ NoDup b /\ forall x, In x a -> ~ In x b.
Proof.
  induction a as [|y a IH]; intros b N; [split; [constructor|split; [exact N|intros x []]]|]. cbn [app] in N. inversion N as [|? ? N1 N2]; subst.
  destruct (IH b N2) as (A & B & C). split; [constructor; auto; intros X; apply N1, in_or_app; auto|]. split; [exact B|].
  intros x [<-|X] Y; [apply N1, in_or_app; auto|exact (C x X Y)].
Qed.

Lemma deinit_forest : forall fuel h p ids, forest h p ids -> NoDup ids -> length ids < fuel ->
  exists h', ush_node_deinit_recursive fuel h p = Ok h' /\ length h' = length h /\
    (forall i, In i ids -> nth_error h' i = Some node_zero) /\ (forall i, ~ In i ids -> nth_error h' i = nth_error h i).
Proof.
  induction fuel as [|f IH]; intros h p ids F N L; [lia|]. inversion F as [|i nd a b E Fa Fb]; subst.
  { exists h. repeat split; auto. intros i []. }
  cbn [length] in L. rewrite app_length in L. inversion N as [|? ? N1 N2]; subst.
  destruct (NoDup_parts a b N2) as (Na & Nb & Dj).
  cbn [ush_node_deinit_recursive]. rewrite (getn_ok _ _ _ E). cbn [bind].
  assert (exists h1, (match n_children nd with Some c => ush_node_deinit_recursive f h (Some c) | None => Ok h end) = Ok h1 /\ length h1 = length h /\
     (forall i, In i a -> nth_error h1 i = Some node_zero) /\ (forall i, ~ In i a -> nth_error h1 i = nth_error h i)) as (h1 & E1 & L1 & Z1 & F1).
  { destruct (n_children nd) as [c|] eqn:Ec.
    - apply IH; auto. lia.
    - inversion Fa; subst. exists h. repeat split; auto. intros x []. }
  rewrite E1. cbn [bind].
  assert (Ei : nth_error h1 i = Some nd) by (rewrite F1; [exact E|]; intros X; apply N1, in_or_app; auto).
  rewrite (getn_ok _ _ _ Ei). cbn [bind]. rewrite (setn_ok _ _ _ _ Ei). cbn [bind].
  pose proof (nth_lt _ _ _ Ei) as Li.
  assert (Fb' : forest (upd h1 i node_zero) (n_next nd) b).
  { eapply forest_frame; [exact Fb|]. intros x X. rewrite upd_nth_other by (intros ->; apply N1, in_or_app; auto). apply F1. intros Y. exact (Dj x Y X). }
  destruct (IH _ _ _ Fb' Nb ltac:(lia)) as (h2 & E2 & L2 & Z2 & F2). exists h2. split; [exact E2|]. split; [rewrite L2, upd_len; exact L1|]. split.
  - intros x [<-|X].
    + rewrite F2 by (intros Y; apply N1, in_or_app; auto). apply upd_nth_same. exact Li.
    + apply in_app_or in X as [X|X]; [|apply Z2; exact X]. rewrite F2 by (apply Dj; exact X).
      rewrite upd_nth_other by (intros ->; apply N1, in_or_app; auto). apply Z1. exact X.
  - intros x X. assert (X1 : x <> i /\ ~ In x a /\ ~ In x b) by (repeat split; intros Y; apply X; [left; congruence|right; apply in_or_app; auto|right; apply in_or_app; auto]).
    destruct X1 as (Xi & Xa & Xb). rewrite F2 by exact Xb. rewrite upd_nth_other by auto. apply F1. exact Xa.
Qed.

(** [q] is [p] or below it. *)
Definition under (p q : dirpath) : Prop := exists r, q = p ++ r.

Lemma under_cases : forall p q, under p q <-> q = p \/ exists c, under (p ++ [c]) q.
Proof.
  intros p q. split.
  - intros ([|c r] & ->); [left; rewrite app_nil_r; reflexivity|]. right. exists c, r. rewrite <- app_assoc. reflexivity.
  - intros [->|(c & r & ->)]; [exists []; rewrite app_nil_r; reflexivity|]. exists (c :: r). rewrite <- app_assoc. reflexivity.
Qed.

Lemma under_disjoint : forall p q x, length p = length q -> under p x -> under q x -> p = q.
Proof.
  intros p q x L (r & ->) (r' & E). apply (f_equal (firstn (length p))) in E. rewrite firstn_app, firstn_all, Nat.sub_diag in E. cbn [firstn] in E. rewrite app_nil_r in E.
  rewrite L in E at 1. rewrite firstn_app, firstn_all, Nat.sub_diag in E. cbn [firstn] in E. rewrite app_nil_r in E. exact E.
Qed.

Lemma mounted_prefix : forall fs x p r, fs_ok fs -> In x fs -> de_path x = p ++ r -> exists d, In d fs /\ de_path d = p.
Proof.
  intros fs x p r O I E. pose proof O as (_ & Np & _).
  assert (M : node_at (firstn (length p) (de_path x)) fs <> None) by (apply firstn_mounted; auto; rewrite (node_at_in fs x); [discriminate|auto|auto]).
  rewrite E, firstn_app, firstn_all, Nat.sub_diag in M. cbn [firstn] in M. rewrite app_nil_r in M.
  destruct (node_at p fs) as [i|] eqn:En; [|congruence]. apply node_at_some in En as (d & Id & Q & _). eauto.
Qed.

Lemma forest_of : forall n h root fs, rep h root fs -> (forall x, In x fs -> length (de_path x) < n) ->
  forall k (ds : fsys) p (q : dirpath), n <= k + length q -> chain h p (map de_node ds) -> NoDup (map de_path ds) ->
  (forall d, In d ds -> In d fs /\ length (de_path d) = length q) ->
  exists ids, forest h p ids /\ NoDup ids /\ forall i, In i ids <-> exists x d, In x fs /\ de_node x = i /\ In d ds /\ under (de_path d) (de_path x).
Proof.
  intros n h root fs R B. pose proof R as (O & St & _). pose proof O as (Pk & Np & Nn & Cl).
  induction k as [|k IHk]; intros ds p q Hk.
  - intros C N D. destruct ds as [|d ds].
    + cbn in C. subst. exists []. split; [constructor|]. split; [constructor|]. intros i. split; [intros []|intros (x & d & _ & _ & [] & _)].
    + exfalso. destruct (D d (or_introl eq_refl)) as (Id & Ld). specialize (B d Id). lia.
  - revert p. induction ds as [|d ds IHd]; intros p C N D.
    + cbn in C. subst. exists []. split; [constructor|]. split; [constructor|]. intros i. split; [intros []|intros (x & d & _ & _ & [] & _)].
    + cbn [map] in C, N. destruct C as (-> & nd & E & C). inversion N as [|? ? N1 N2]; subst.
      destruct (D d (or_introl eq_refl)) as (Id & Ld). destruct (St d Id) as (nd' & E' & _ & _ & _ & Ch). assert (nd' = nd) by congruence. subst nd'.
      destruct (IHk (children (de_path d) fs) (n_children nd) (de_path d ++ [[]])) as (a & Fa & Na & Ma); auto.
      { rewrite app_length. cbn [length]. lia. }
      { apply children_nodup; auto. }
      { intros x Ix. apply children_in in Ix as (Ix & Nx & Rx). split; [exact Ix|]. rewrite (snoc_form _ Nx), Rx, !app_length. reflexivity. }
      destruct (IHd (n_next nd) C N2) as (b & Fb & Nb & Mb); [intros; apply D; right; auto|].
      exists (de_node d :: a ++ b). 
      assert (Ma' : forall i, In i a <-> exists x, In x fs /\ de_node x = i /\ under (de_path d) (de_path x) /\ x <> d).
      { intros i. rewrite Ma. split.
        - intros (x & c & Ix & Ex & Ic & U). apply children_in in Ic as (Ic & Nc & Rc). exists x. split; [exact Ix|]. split; [exact Ex|]. 
          destruct U as (r & U). rewrite (snoc_form _ Nc), Rc, <- app_assoc in U. split; [eexists; exact U|]. intros ->. apply (f_equal (@length _)) in U. rewrite app_length in U. cbn [app length] in U. lia.
        - intros (x & Ix & Ex & U & Nx). apply under_cases in U as [U|(c & r & U)].
          + exfalso. apply Nx. assert (dir_at (de_path x) fs = Some x) by (apply dir_at_in; auto). assert (dir_at (de_path d) fs = Some d) by (apply dir_at_in; auto). congruence.
          + destruct (mounted_prefix fs x _ _ O Ix U) as (c' & Ic & Qc). exists x, c'. split; [exact Ix|]. split; [exact Ex|]. split.
            * apply children_in. split; [exact Ic|]. rewrite Qc, removelast_last. split; [destruct (de_path d); discriminate|reflexivity].
            * rewrite Qc. exists r. exact U. }
      split; [econstructor; eauto|]. split.
      * constructor.
        -- intros X. apply in_app_or in X as [X|X].
           ++ apply Ma' in X as (x & Ix & Ex & _ & Nx). apply Nx. eapply node_inj; eauto.
           ++ apply Mb in X as (x & c & Ix & Ex & Ic & U). assert (x = d) by (eapply node_inj; eauto). subst x.
              apply N1. replace (de_path d) with (de_path c); [apply in_map; exact Ic|]. destruct (D c (or_intror Ic)) as (_ & Lc).
              apply (under_disjoint _ _ (de_path d)); [congruence|exact U|exists []; rewrite app_nil_r; reflexivity].
        -- assert (Dj : forall i, In i a -> ~ In i b).
           { intros i Xa Xb. apply Ma' in Xa as (x & Ix & Ex & U & _). apply Mb in Xb as (y & c & Iy & Ey & Ic & V).
             assert (x = y) by (eapply node_inj; eauto; congruence). subst y. destruct (D c (or_intror Ic)) as (_ & Lc).
             apply N1. replace (de_path d) with (de_path c); [apply in_map; exact Ic|]. symmetry. apply (under_disjoint _ _ (de_path x)); [congruence|exact U|exact V]. }
           clear - Na Nb Dj. induction a as [|x a IH]; [exact Nb|]. inversion Na; subst. cbn [app]. constructor.
           ++ intros X. apply in_app_or in X as [X|X]; [auto|]. apply (Dj x); [left; reflexivity|exact X].
           ++ apply IH; auto. intros i Xi. apply Dj. right; exact Xi.
      * intros i. split.
        -- intros [<-|X].
           ++ exists d, d. repeat split; auto; [left; reflexivity|]. exists []. rewrite app_nil_r. reflexivity.
           ++ apply in_app_or in X as [X|X].
              ** apply Ma' in X as (x & Ix & Ex & U & _). exists x, d. repeat split; auto. left; reflexivity.
              ** apply Mb in X as (x & c & Ix & Ex & Ic & U). exists x, c. repeat split; auto. right; exact Ic.
        -- intros (x & c & Ix & Ex & [<-|Ic] & U).
           ++ destruct (path_dec (de_path x) (de_path d)) as [Q|Q].
              ** left. rewrite <- Ex. f_equal. assert (dir_at (de_path x) fs = Some x) by (apply dir_at_in; auto). assert (dir_at (de_path d) fs = Some d) by (apply dir_at_in; auto). congruence.
              ** right. apply in_or_app. left. apply Ma'. exists x. repeat split; auto. congruence.
           ++ right. apply in_or_app. right. apply Mb. exists x, c. auto.
Qed.

Lemma forest_root : forall h root fs, rep h root fs -> exists ids, forest h root ids /\ NoDup ids /\ forall i, In i ids <-> In i (map de_node fs).
Proof.
  intros h root fs R. pose proof R as (O & St & C). pose proof O as (Pk & Np & Nn & Cl).
  assert (exists n, forall x, In x fs -> length (de_path x) < n) as (n & B).
  { clear. induction fs as [|x fs (n & IH)]; [exists 0; intros y []|]. exists (n + S (length (de_path x))). intros y [<-|I]; [lia|]. specialize (IH y I). lia. }
  destruct (dir_at [] fs) as [d|] eqn:D0.
  - apply dir_at_some in D0 as (Id & Qd). unfold node_at in C. replace (dir_at [] fs) with (Some d) in C by (symmetry; rewrite <- Qd; apply dir_at_in; auto). cbn [option_map] in C.
    destruct (forest_of n h root fs R B n [d] root []) as (ids & F & N & M).
    + cbn [length]. lia.
    + exact C.
    + constructor; [intros []|constructor].
    + intros x [<-|[]]. split; [exact Id|]. rewrite Qd. reflexivity.
    + exists ids. split; [exact F|]. split; [exact N|]. intros i. rewrite M. split.
      * intros (x & _ & Ix & <- & _). apply in_map, Ix.
      * intros X. apply in_map_iff in X as (x & <- & Ix). exists x, d. repeat split; auto; [left; reflexivity|]. rewrite Qd. exists (de_path x). reflexivity.
  - pose proof (no_root_empty fs O D0) as ->. cbn in C. subst root. exists []. split; [constructor|]. split; [constructor|]. intros i. tauto.
Qed.

Lemma C35_proof : forall own s w, knows own s w -> nth_error (hp s) (o_buildin s) <> None ->
  exists h', ush_deinit s = Ok (st_zero (o_desc s) (o_buildin s) (inb s) (outb s) h' (lg s)) /\
    length h' = length (hp s) /\
    (forall i, In i (map de_node (w_fs w)) \/ i = o_buildin s -> nth_error h' i = Some node_zero) /\
    (forall i, ~ In i (map de_node (w_fs w)) -> i <> o_buildin s -> nth_error h' i = nth_error (hp s) i).
Proof.
  intros own s w (R & _) B. destruct (forest_root _ _ _ R) as (ids & F & N & M). unfold ush_deinit.
  assert (L : length ids <= length (hp s)).
  { apply nodup_bound; auto. intros i I. apply M in I. apply in_map_iff in I as (x & <- & Ix). destruct R as (_ & St & _). destruct (St x Ix) as (nd & E & _). eapply nth_lt; eauto. }
  destruct (deinit_forest (S (2 * length (hp s))) (hp s) (o_root s) ids F N ltac:(lia)) as (h1 & E1 & L1 & Z1 & F1). rewrite E1. cbn [bind].
  apply nth_error_Some in B. destruct (nth_error h1 (o_buildin s)) as [nb|] eqn:Eb.
  2:{ apply nth_error_None in Eb. lia. }
  rewrite (setn_ok _ _ _ _ Eb). cbn [bind]. exists (upd h1 (o_buildin s) node_zero). split; [reflexivity|]. split; [rewrite upd_len; exact L1|]. split.
  - intros i [I| ->]; [|apply upd_nth_same; lia]. rewrite upd_nth by lia. destruct (i =? o_buildin s); [reflexivity|]. apply Z1, M, I.
  - intros i Ni Nb. rewrite upd_nth_other by auto. apply F1. intros X. apply Ni, M, X.
Qed.

(** ** Independent shells *)
Lemma knows_other : forall own s w h', knows own s w -> (forall i, In i own -> nth_error h' i = nth_error (hp s) i) -> knows own (set_hp h' s) w.
Proof.
  intros own s w h' (R & G & D & O & F & W) H. split; [|split; [|split; [|split; [|split]]]]; auto.
  - change (rep h' (o_root s) (w_fs w)). eapply rep_frame; [|exact R]. intros i I. apply H, O. left; exact I.
  - change (rep_groups h' (o_cmds s) (w_groups w)). eapply rep_groups_frame; [|exact G]. intros i I. apply H, O. right; exact I.
  - intros i I. change (hp (set_hp h' s)) with h'. rewrite H by exact I. apply F; exact I.
Qed.

Lemma C40_ops_proof : forall own1 own2 os s1 w1 s2 w2, knows own1 s1 w1 -> knows own2 s2 w2 -> hp s2 = hp s1 ->
  (forall i, In i own1 -> ~ In i own2) -> all_allowed (d_pathmax (o_desc s1)) own1 os w1 ->
  exists xs s1', do_ops os s1 = Ok (xs, s1') /\ knows own2 (set_hp (hp s1') s2) w2.
Proof.
  intros own1 own2 os s1 w1 s2 w2 K1 K2 H D A. destruct (C15_history_proof own1 os s1 w1 K1 A) as (s1' & E & _ & (_ & _ & F)).
  eexists. exists s1'. split; [exact E|]. apply knows_other; [exact K2|]. intros i I. rewrite H. apply F. intros X. exact (D i X I).
Qed.

Lemma C40_deinit_proof : forall own1 own2 s1 w1 s2 w2, knows own1 s1 w1 -> knows own2 s2 w2 -> hp s2 = hp s1 ->
  (forall i, In i own1 -> ~ In i own2) -> In (o_buildin s1) own1 ->
  exists s1', ush_deinit s1 = Ok s1' /\ knows own2 (set_hp (hp s1') s2) w2.
Proof.
  intros own1 own2 s1 w1 s2 w2 K1 K2 H D B. destruct (C35_proof own1 s1 w1 K1) as (h' & E & _ & _ & F).
  { pose proof K1 as (_ & _ & _ & _ & X & _). destruct (X _ B) as (nd & En & _). congruence. }
  eexists. split; [exact E|]. apply knows_other; [exact K2|]. intros i I. rewrite H. apply F.
  - intros X. apply (D i); [|exact I]. pose proof K1 as (_ & _ & _ & O & _). apply O. left; exact X.
  - intros ->. exact (D _ B I).
Qed.

(** ** Sizes *)
Lemma C39_lookup_proof : forall own s w cs, knows own s w -> Forall (fun c => ~ In SL c /\ ~ In NUL c) cs -> cs <> [] -> cs <> [[]] ->
  let pm := d_pathmax (o_desc s) in
  let fits := forall k, k < length cs -> node_at (firstn k cs) (w_fs w) <> None -> length (slashed (firstn (S k) cs)) < pm in
  (fits -> ush_node_get_by_path pm (hp s) (o_root s) (slashed cs) = Ok (node_at cs (w_fs w))) /\
  (~ fits -> ush_node_get_by_path pm (hp s) (o_root s) (slashed cs) = Err EOob).
Proof.
  intros own s w cs (R & _) F N1 N2 pm fits.
  assert (F1 : Forall slash_free cs) by (eapply Forall_impl; [|exact F]; intros c (A & _); exact A).
  assert (F2 : no_nul (slashed cs)) by (apply no_nul_slashed; eapply Forall_impl; [|exact F]; intros c (_ & A); exact A).
  split; intros H.
  - apply get_by_path_eq; auto. intros k Hk. apply H. lia.
  - assert (exists k, k < length cs /\ node_at (firstn k cs) (w_fs w) <> None /\ pm <= length (slashed (firstn (S k) cs))) as (k & K1 & K2 & K3).
    { assert (Dec : forall m, m <= length cs -> (exists k, k < m /\ node_at (firstn k cs) (w_fs w) <> None /\ pm <= length (slashed (firstn (S k) cs))) \/
                   (forall k, k < m -> node_at (firstn k cs) (w_fs w) <> None -> length (slashed (firstn (S k) cs)) < pm)).
      { induction m as [|m IH]; intros Hm; [right; intros; lia|]. destruct (IH ltac:(lia)) as [(k & A & B)|A]; [left; exists k; split; [lia|exact B]|].
        destruct (node_at (firstn m cs) (w_fs w)) as [i|] eqn:E.
        - destruct (Nat.le_gt_cases pm (length (slashed (firstn (S m) cs)))) as [Z|Z].
          + left. exists m. split; [lia|]. split; [congruence|exact Z].
          + right. intros k Hk X. destruct (Nat.eq_dec k m) as [->|]; [exact Z|]. apply A; [lia|exact X].
        - right. intros k Hk X. destruct (Nat.eq_dec k m) as [->|]; [congruence|]. apply A; [lia|exact X]. }
      destruct (Dec (length cs) (Nat.le_refl _)) as [Z|Z]; [exact Z|]. exfalso. apply H. exact Z. }
    eapply get_by_path_err; eauto.
Qed.

Lemma C39_abs_proof : forall own s w t, knows own s w -> ~ In NUL t -> (w_cwd w = None -> exists r, t = SL :: r) ->
  let pm := d_pathmax (o_desc s) in
  abs_path_str pm (hp s) (o_cur s) t =
    if length (full_text (here w) t) <? pm then Ok (show (resolve_text (here w) t)) else Err EOob.
Proof.
  intros own s w t K N H pm. destruct (abs_path_world own s w t K N H) as (A & B & _).
  destruct (Nat.ltb_spec (length (full_text (here w) t)) pm); auto.
Qed.

Lemma C39_find_proof : forall own s w name, knows own s w -> ~ In NUL name -> (w_cwd w = None -> exists r, name = SL :: r) ->
  (forall d f, In d (w_fs w) -> In f (de_files d) -> ~ In NUL (f_name f)) ->
  file_named name (flat_map snd (w_groups w)) = None ->
  let pm := d_pathmax (o_desc s) in
  (pm <= length (full_text (here w) name) -> ush_file_find_by_name name s = Err EOob) /\
  (length (full_text (here w) name) < pm ->
   forall p c, resolve_text (here w) name = p ++ [c] -> ~ In SL c ->
   ush_file_find_by_name name s =
     match dir_at p (w_fs w) with
     | None => Ok None
     | Some d => scan pm (slashed (p ++ [c])) (d :: siblings_after d (w_fs w))
     end).
Proof.
  intros own s w name K N H Nm Ec pm. rewrite (find_by_name_eq own s w name K N H Nm). rewrite Ec. cbv zeta. fold pm. split.
  - intros L. destruct (Nat.leb_spec pm (length (full_text (here w) name))); [reflexivity|lia].
  - intros L p c E Sc. destruct (Nat.leb_spec pm (length (full_text (here w) name))); [lia|].
    pose proof K as (R & _). pose proof R as (O & _). pose proof O as (Pk & _).
    destruct (abs_path_world own s w name K N H) as (_ & _ & Kh).
    pose proof (resolve_text_no_nul (here w) name Kh N) as Na. pose proof (resolve_text_length (here w) name) as La.
    pose proof (resolve_text_shape (here w) name) as Sh. rewrite E in *. rewrite show_slashed in * by (destruct p; discriminate).
    apply shape_snoc in Sh as (M & _).
    assert (RF : p ++ [c] <> [[]]). { rewrite <- E. unfold resolve_text. destruct (resolve [] _) as [|[|? ?] [|? ?]]; discriminate. }
    rewrite (parent_snoc (hp s) (o_root s) (w_fs w)); auto.
    + cbn [bind]. rewrite dir_named_most by (auto; eapply most_nul; eauto).
      destruct (dir_at p (w_fs w)) as [d|] eqn:Dp; cbn [option_map]; [|reflexivity]. apply dir_at_some in Dp as (Id & _).
      apply (find_from (hp s) (o_root s)); auto.
    + intros X. apply slashed_root in X. congruence.
    + rewrite slashed_snoc, app_length in La. cbn [length] in La. destruct p as [|y p]; cbn [show]; [|lia].
      destruct c; [exfalso; apply RF; reflexivity|]. cbn [length] in *. lia.
Qed.

(** ** The statements with the cases spelled out *)
Lemma C13_proof : forall own s w p id fl, knows own s w -> path_ok p -> length (show p) < d_pathmax (o_desc s) -> In id own -> ~ used w id ->
  exists x s', ush_node_mount (show p) id fl s = Ok (x, s') /\ only_tree own s s' /\
  ((x = ST_NODE_ALREADY_MOUNTED /\ dir_at p (w_fs w) <> None /\ knows own s' w) \/
   (x = ST_NODE_WITHOUT_PARENT /\ dir_at p (w_fs w) = None /\ p <> [] /\ dir_at (removelast p) (w_fs w) = None /\ knows own s' w) \/
   (x = ST_OK /\ dir_at p (w_fs w) = None /\ (p = [] \/ dir_at (removelast p) (w_fs w) <> None) /\
    knows own s' (mkWorld (mkDir p id fl :: w_fs w) (w_groups w) (match p with [] => Some [] | _ => w_cwd w end)))).
Proof.
  intros own s w p id fl K P L I U. destruct (op_step own (TMount p id fl) s w K) as (s' & E & K' & O).
  { repeat split; auto. }
  cbn [do_op] in E. eexists. exists s'. split; [exact E|]. split; [exact O|]. revert K'. cbn [spec_op].
  assert (W : w = mkWorld (w_fs w) (w_groups w) (w_cwd w)) by (destruct w; reflexivity).
  destruct (dir_at p (w_fs w)) as [d|] eqn:Dp.
  - unfold fs_mount. rewrite Dp. cbn [fst snd]. intros K'. left. split; [reflexivity|]. split; [congruence|].
    destruct p; cbn [is_status_ok] in K'; rewrite <- W in K'; exact K'.
  - destruct (path_dec p []) as [->|Np].
    + unfold fs_mount. rewrite Dp. cbn [fst snd is_status_ok]. intros K'. right; right. repeat split; auto; apply K'.
    + rewrite fs_mount_below by auto. destruct (dir_at (removelast p) (w_fs w)) as [d|] eqn:Dr; cbn [fst snd is_status_ok]; intros K'.
      * right; right. split; [reflexivity|]. split; [reflexivity|]. split; [right; congruence|]. destruct p; [congruence|exact K'].
      * right; left. split; [reflexivity|]. split; [reflexivity|]. split; [exact Np|]. split; [reflexivity|]. rewrite W. destruct p; [congruence|exact K'].
Qed.

Lemma unmount_same : forall t s x s', ush_node_unmount t s = Ok (x, s') -> x <> ST_OK -> s' = s.
Proof.
  intros t s x s' E N. unfold ush_node_unmount in E. destruct (ush_node_get_parent_by_path _ _ _ _) as [par|]; cbn [bind] in E; [|discriminate].
  destruct (ush_node_get_by_path _ _ _ _) as [[i|]|]; cbn [bind] in E; [| |discriminate].
  2:{ congruence. }
  destruct (negb _ && _); [congruence|]. destruct (getn _ _) as [nd|]; cbn [bind] in E; [|discriminate].
  destruct (n_children nd); [congruence|]. destruct par as [q|]; [|congruence]. destruct (getn (hp s) q); cbn [bind] in E; [|discriminate].
  destruct (find_prev _ _ _ _ _) as [[[z|]|]|]; cbn [bind] in E; try discriminate; try congruence.
  - destruct (getn (hp s) z); cbn [bind] in E; [|discriminate]. destruct (setn _ _ _); cbn [bind] in E; congruence.
  - destruct (setn _ _ _); cbn [bind] in E; congruence.
Qed.

Lemma C14_proof : forall own s w t, knows own s w -> ~ In NUL t -> length t < d_pathmax (o_desc s) ->
  exists x s', ush_node_unmount t s = Ok (x, s') /\ only_tree own s s' /\ (x <> ST_OK -> s' = s) /\
  match dir_named t (w_fs w) with
  | None => x = ST_NODE_NOT_FOUND
  | Some d =>
      (x = ST_NODE_WITH_CHILDS /\ children (de_path d) (w_fs w) <> []) \/
      (x = ST_OK /\ children (de_path d) (w_fs w) = [] /\
       knows own s' (mkWorld (fs_remove (de_path d) (w_fs w)) (w_groups w)
                       (match w_cwd w with Some p => if path_eqb p (de_path d) then None else Some p | None => None end)))
  end.
Proof.
  intros own s w t K N L. destruct (op_step own (TUnmount t) s w K) as (s' & E & K' & O); [split; auto|].
  cbn [do_op] in E. eexists. exists s'. split; [exact E|]. split; [exact O|]. split; [apply (unmount_same _ _ _ _ E)|].
  revert K'. cbn [spec_op]. destruct (dir_named t (w_fs w)) as [d|] eqn:Dt; [|reflexivity]. unfold fs_unmount.
  destruct K as (R & _). destruct R as (Ok_ & _). destruct (dir_named_some _ _ _ Ok_ Dt) as (_ & Dd & _). rewrite Dd.
  destruct (children (de_path d) (w_fs w)) as [|c cs] eqn:Ec; cbn [fst snd is_status_ok andb]; intros K'.
  - right. split; [reflexivity|]. split; [reflexivity|exact K'].
  - left. split; [reflexivity|discriminate].
Qed.

Lemma chdir_same : forall t s x s', ush_node_set_current_dir t s = Ok (x, s') -> x <> ST_OK -> s' = s.
Proof.
  intros t s x s' E N. unfold ush_node_set_current_dir in E. destruct t; [congruence|]. destruct (abs_path_str _ _ _ _); cbn [bind] in E; [|discriminate].
  destruct (ush_node_get_by_path _ _ _ _) as [[i|]|]; cbn [bind] in E; congruence.
Qed.

Lemma C16_proof : forall own s w t, knows own s w -> ~ In NUL t -> length (full_text (here w) t) < d_pathmax (o_desc s) ->
  (w_cwd w = None -> exists r, t = SL :: r) ->
  exists x s', ush_node_set_current_dir t s = Ok (x, s') /\
  match (match t with [] => None | _ => dir_named (show (resolve_text (here w) t)) (w_fs w) end) with
  | Some d => x = ST_OK /\ s' = set_cur (Some (de_node d)) s /\ knows own s' (mkWorld (w_fs w) (w_groups w) (Some (de_path d)))
  | None => x = ST_NODE_NOT_FOUND /\ s' = s
  end.
Proof.
  intros own s w t K N L H. destruct (op_step own (TChdir t) s w K) as (s' & E & K' & O); [repeat split; auto|].
  cbn [do_op] in E. eexists. exists s'. split; [exact E|]. revert K' E. cbn [spec_op]. destruct t as [|c t]; cbn [fst snd].
  { intros _ E. split; [reflexivity|]. apply (chdir_same _ _ _ _ E). discriminate. }
  set (v := c :: t) in *. destruct (dir_named _ (w_fs w)) as [d|] eqn:Dt; cbn [fst snd]; intros K' E.
  - split; [reflexivity|]. split; [|exact K']. unfold ush_node_set_current_dir in E. unfold v in E at 1. cbn iota in E.
    destruct (abs_path_str _ _ _ _) as [a|]; cbn [bind] in E; [|discriminate]. destruct (ush_node_get_by_path _ _ _ _) as [[i|]|]; cbn [bind] in E; try discriminate.
    injection E as E. destruct K' as (_ & _ & _ & _ & _ & (d' & D1 & D2)). cbn [w_fs] in D1.
    destruct K as ((Ok_ & _) & _). destruct (dir_named_some _ _ _ Ok_ Dt) as (_ & Dd & _). assert (d' = d) by congruence. subst d'.
    rewrite <- E in D2 |- *. change (o_cur (set_cur (Some i) s)) with (Some i) in D2. rewrite D2. reflexivity.
  - split; [reflexivity|]. apply (chdir_same _ _ _ _ E). discriminate.
Qed.

Lemma commands_same : forall id s x s', ush_commands_remove id s = Ok (x, s') -> x <> ST_OK -> s' = s.
Proof.
  intros id s x s' E N. unfold ush_commands_remove in E. destruct (find_prev _ _ _ _ _) as [[[z|]|]|]; cbn [bind] in E; try discriminate; try congruence.
  - destruct (getn (hp s) id); cbn [bind] in E; [|discriminate]. destruct (getn (hp s) z); cbn [bind] in E; [|discriminate].
    destruct (setn _ _ _); cbn [bind] in E; congruence.
  - destruct (getn (hp s) id); cbn [bind] in E; congruence.
Qed.

Lemma C18_add_proof : forall own s w id fl, knows own s w -> fl <> [] -> In id own -> ~ used w id ->
  exists s', ush_commands_add id fl s = Ok (ST_OK, s') /\ only_tree own s s' /\
    knows own s' (mkWorld (w_fs w) ((id, fl) :: w_groups w) (w_cwd w)).
Proof.
  intros own s w id fl K N I U. destruct (op_step own (TAdd id fl) s w K) as (s' & E & K' & O); [repeat split; auto|]. exists s'. auto.
Qed.

Lemma C18_remove_proof : forall own s w id, knows own s w ->
  exists x s', ush_commands_remove id s = Ok (x, s') /\ only_tree own s s' /\
    ((x = ST_NODE_NOT_FOUND /\ ~ In id (map fst (w_groups w)) /\ s' = s) \/
     (x = ST_OK /\ In id (map fst (w_groups w)) /\ knows own s' (mkWorld (w_fs w) (group_remove id (w_groups w)) (w_cwd w)))).
Proof.
  intros own s w id K. destruct (op_step own (TRemove id) s w K) as (s' & E & K' & O); [exact I|]. cbn [do_op] in E.
  eexists. exists s'. split; [exact E|]. split; [exact O|]. revert K' E. cbn [spec_op]. destruct (in_dec _ _ _) as [Z|Z]; cbn [fst snd]; intros K' E.
  - right. auto.
  - left. split; [reflexivity|]. split; [exact Z|]. apply (commands_same _ _ _ _ E). discriminate.
Qed.

Lemma C18_lookup_proof : forall own s w name, knows own s w ->
  find_cmds (S (length (hp s))) (hp s) (o_cmds s) name = Ok (file_named name (flat_map snd (w_groups w))).
Proof. intros own s w name (_ & G & _). apply find_cmds_eq. exact G. Qed.

(** ** The current directory *)
Lemma C43_stays_proof : forall own o s w, knows own s w -> allowed (d_pathmax (o_desc s)) own w o -> 
  forall p, w_cwd w = Some p ->
  match o with TMount _ _ _ | TAdd _ _ | TRemove _ => True | TUnmount t => dir_named t (w_fs w) <> dir_at p (w_fs w) | TChdir _ => False end ->
  exists x s', do_op o s = Ok (x, s') /\ o_cur s' = o_cur s /\ exists d, In d (w_fs (snd (spec_op o w))) /\ de_path d = p /\ o_cur s' = Some (de_node d).
Proof.
  intros own o s w K A p Wp C. destruct (op_step own o s w K A) as (s' & E & K' & _). eexists. exists s'. split; [exact E|].
  pose proof K as ((Ok_ & _) & _ & _ & _ & _ & W). rewrite Wp in W. destruct W as (d & Dd & Cu).
  assert (Wp' : w_cwd (snd (spec_op o w)) = Some p /\ dir_at p (w_fs (snd (spec_op o w))) = Some d).
  { destruct o as [q id fl|t|id fl|id|t]; cbn [spec_op].
    - unfold fs_mount. destruct (dir_at q (w_fs w)) as [z|] eqn:Dq.
      + cbn [fst snd w_cwd w_fs is_status_ok]. destruct q; auto.
      + assert (Nq : q <> p) by (intros ->; congruence). destruct q as [|c q].
        * exfalso. rewrite (no_root_empty _ Ok_ Dq) in Dd. discriminate.
        * destruct (dir_at (removelast (c :: q)) (w_fs w)) as [z|]; cbn [fst snd w_cwd w_fs]; [|auto]. split; [exact Wp|]. rewrite dir_at_cons by exact Nq. exact Dd.
    - destruct (dir_named t (w_fs w)) as [z|] eqn:Dt; [|cbn; auto]. destruct (dir_named_some _ _ _ Ok_ Dt) as (Iz & Dz & _).
      assert (Nz : de_path z <> p) by (intros X; rewrite X in Dz; cbn in C; congruence).
      unfold fs_unmount. rewrite Dz. destruct (children _ _); cbn [fst snd w_cwd w_fs is_status_ok andb]; rewrite Wp.
      + destruct (path_eqb p (de_path z)) eqn:Q; [apply path_eqb_true in Q; congruence|]. split; [reflexivity|]. rewrite dir_at_remove by exact Nz. exact Dd.
      + auto.
    - cbn. auto.
    - destruct (in_dec _ _ _); cbn; auto.
    - destruct C. }
  destruct Wp' as (W1 & W2). destruct K' as (_ & _ & _ & _ & _ & W'). rewrite W1 in W'. destruct W' as (d' & D1 & D2).
  assert (d' = d) by congruence. subst d'. split; [congruence|]. apply dir_at_some in W2 as (I2 & Q2). exists d. auto.
Qed.

Lemma C43_lost_proof : forall own s w d, knows own s w -> w_cwd w = Some (de_path d) -> In d (w_fs w) -> children (de_path d) (w_fs w) = [] ->
  length (show (de_path d)) < d_pathmax (o_desc s) ->
  exists s', ush_node_unmount (show (de_path d)) s = Ok (ST_OK, s') /\
    o_cur s' = Some (de_node d) /\ cwd_is s' (show (de_path d)) /\
    ush_node_get_by_path (d_pathmax (o_desc s)) (hp s') (o_root s') (show (de_path d)) = Ok None /\
    knows own s' (mkWorld (fs_remove (de_path d) (w_fs w)) (w_groups w) None).
Proof.
  intros own s w d K Wp Id Ch L. pose proof K as ((Ok_ & St & _) & _ & _ & _ & _ & W). pose proof Ok_ as (Pk & Np & _).
  assert (Pd : path_ok (de_path d)) by (rewrite Forall_forall in Pk; auto).
  assert (Dd : dir_at (de_path d) (w_fs w) = Some d) by (apply dir_at_in; auto).
  assert (Nn : ~ In NUL (show (de_path d))) by (apply show_no_nul; exact Pd).
  destruct (C14_proof own s w (show (de_path d)) K Nn L) as (x & s' & E & O & _ & H). rewrite dir_named_show in H by auto. rewrite Dd in H.
  destruct H as [(_ & X)|(-> & _ & K')]; [congruence|]. rewrite Wp, path_eqb_refl in K'. exists s'. split; [exact E|].
  rewrite Wp in W. destruct W as (d0 & D0 & Cu). assert (d0 = d) by congruence. subst d0.
  assert (Cu' : o_cur s' = o_cur s /\ option_map n_path (nth_error (hp s') (de_node d)) = option_map n_path (nth_error (hp s) (de_node d))).
  { clear - E. unfold ush_node_unmount in E. destruct (ush_node_get_parent_by_path _ _ _ _) as [par|]; cbn [bind] in E; [|discriminate].
    destruct (ush_node_get_by_path _ _ _ _) as [[i|]|]; cbn [bind] in E; [| |discriminate].
    2:{ discriminate. }
    destruct (negb _ && _); [congruence|]. destruct (getn _ _) as [nd|]; cbn [bind] in E; [|discriminate].
    destruct (n_children nd); [congruence|]. destruct par as [q|]; [|injection E as <-; auto].
    destruct (getn (hp s) q) as [qn|] eqn:Eq; cbn [bind] in E; [|discriminate].
    assert (Z : forall z zn p' c' n', getn (hp s) z = Ok zn -> option_map n_path (nth_error (upd (hp s) z (mkNode (n_files zn) (n_path zn) p' c' n')) (de_node d)) = option_map n_path (nth_error (hp s) (de_node d))).
    { intros z zn p' c' n' G. unfold getn in G. destruct (nth_error (hp s) z) as [zz|] eqn:Ez; [|discriminate]. injection G as ->.
      rewrite upd_nth by (eapply nth_lt; eauto). destruct (Nat.eqb_spec (de_node d) z) as [->|]; [rewrite Ez; reflexivity|reflexivity]. }
    destruct (find_prev _ _ _ _ _) as [[[z|]|]|]; cbn [bind] in E; try discriminate; try congruence.
    - destruct (getn (hp s) z) as [zn|] eqn:Ez; cbn [bind] in E; [|discriminate]. unfold setn in E. destruct (_ <? _); cbn [bind] in E; [|discriminate].
      injection E as <-. split; [reflexivity|]. apply Z. exact Ez.
    - unfold setn in E. destruct (_ <? _); cbn [bind] in E; [|discriminate]. injection E as <-. split; [reflexivity|]. apply Z. exact Eq. }
  destruct Cu' as (Cu1 & Cu2). split; [congruence|].
  destruct (St d Id) as (nd & En & Pn & _). rewrite En in Cu2. cbn [option_map] in Cu2. destruct (nth_error (hp s') (de_node d)) as [nd'|] eqn:En'; [|discriminate].
  split; [|split; [|exact K']].
  - exists nd'. rewrite Cu1, Cu. cbn [getp]. rewrite (getn_ok _ _ _ En'). split; [reflexivity|]. injection Cu2 as ->. exact Pn.
  - destruct K' as (R' & _). rewrite <- (only_tree_desc _ _ _ O). pose proof R' as ((Pk' & _) & _). cbn [w_fs] in *.
    rewrite (get_by_path_text _ _ (fs_remove (de_path d) (w_fs w))); auto.
    + rewrite dir_named_show by auto. rewrite dir_at_removed. reflexivity.
    + rewrite (only_tree_desc _ _ _ O). exact L.
Qed.

Lemma C15_map_proof : forall own os s, o_root s = None -> o_cmds s = None -> (forall i, In i own -> nth_error (hp s) i = Some node_zero) ->
  let pm := d_pathmax (o_desc s) in let w0 := mkWorld [] [] None in let w := snd (spec_ops os w0) in
  all_allowed pm own os w0 ->
  exists s', do_ops os s = Ok (fst (spec_ops os w0), s') /\ knows own s' w /\
    forall t, ~ In NUL t -> length t < pm ->
      ush_node_get_by_path pm (hp s') (o_root s') t = Ok (option_map de_node (dir_named t (w_fs w))).
Proof.
  intros own os s R C B pm w0 w A. pose proof (knows_blank own s R C (blank_childless _ _ B)) as K. destruct (C15_history_proof own os s w0 K A) as (s' & E & K' & O).
  exists s'. split; [exact E|]. split; [exact K'|]. intros t N L. unfold pm in *. rewrite <- (only_tree_desc _ _ _ O) in L |- *. eapply C15_lookup_proof; eauto.
Qed.
