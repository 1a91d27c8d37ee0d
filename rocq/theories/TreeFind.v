(** * TreeFind: finding a file by its name. *)
From Coq Require Import Arith.
From Verif Require Import Node Spec BaseFacts PathFacts CollapseFacts Tree TreeFacts TreeOps.

Lemma find_cmd_named : forall fl name, find_cmd fl name = file_named name fl.
Proof. induction fl as [|f fl IH]; intros name; [reflexivity|]. cbn [find_cmd]. unfold file_named. cbn [find]. destruct (beq _ _); [reflexivity|apply IH]. Qed.

Lemma file_named_app : forall name a b, file_named name (a ++ b) = match file_named name a with Some f => Some f | None => file_named name b end.
Proof. intros name a b. unfold file_named. induction a as [|x a IH]; [reflexivity|]. cbn [app find]. destruct (beq _ _); [reflexivity|exact IH]. Qed.

Lemma find_cmds_chain : forall gs h p fuel name, chain h p (map fst gs) -> length gs < fuel ->
  (forall i fl, In (i, fl) gs -> exists nd, nth_error h i = Some nd /\ n_files nd = fl) ->
  find_cmds fuel h p name = Ok (file_named name (flat_map snd gs)).
Proof.
  induction gs as [|(i & fl) gs IH]; intros h p fuel name C L F.
  - cbn in C. subst. destruct fuel; [lia|reflexivity].
  - cbn [map fst] in C. destruct C as (-> & nd & E & C). destruct fuel as [|fuel]; [cbn [length] in L; lia|]. cbn [length] in L.
    cbn [find_cmds]. rewrite (getn_ok _ _ _ E). cbn [bind]. destruct (F i fl (or_introl eq_refl)) as (nd' & E' & Fn).
    assert (nd' = nd) by congruence. subst nd'. rewrite Fn, find_cmd_named. cbn [flat_map snd]. rewrite file_named_app.
    destruct (file_named name fl); [reflexivity|]. apply IH; auto; [lia|]. intros; apply F; right; auto.
Qed.

Lemma find_cmds_eq : forall h p gs name, rep_groups h p gs -> find_cmds (S (length h)) h p name = Ok (file_named name (flat_map snd gs)).
Proof.
  intros h p gs name (N & C & F). apply find_cmds_chain; auto. pose proof (chain_length _ _ _ C N) as L. rewrite map_length in L. lia.
Qed.

Lemma find_app_l : forall (A : Type) (f : A -> bool) a b, find f (a ++ b) = match find f a with Some x => Some x | None => find f b end.
Proof. intros A f a b. induction a as [|x a IH]; [reflexivity|]. cbn [app find]. destruct (f x); [reflexivity|exact IH]. Qed.

Definition hit (pm : nat) (abs : bytes) (j : bytes * file) : bool := (pm <=? length (fst j)) || beq (fst j) abs.
Definition outcome (pm : nat) (r : option (bytes * file)) : res (option file) :=
  match r with None => Ok None | Some (u, f) => if pm <=? length u then Err EOob else Ok (Some f) end.

Lemma find_in_dir_eq : forall fl nd p abs fp pm, n_path nd = Some (show p) -> path_ok p -> length fp = pm ->
  (forall f, In f fl -> ~ In NUL (f_name f)) ->
  let r := find (hit pm abs) (map (fun f => (slashed (p ++ [f_name f]), f)) fl) in
  match r with
  | None => exists fp', find_in_dir nd fl abs fp = Ok (None, fp') /\ length fp' = pm
  | Some (u, f) => if pm <=? length u then find_in_dir nd fl abs fp = Err EOob
                   else exists fp', find_in_dir nd fl abs fp = Ok (Some f, fp')
  end.
Proof.
  induction fl as [|f fl IH]; intros nd p abs fp pm P K L N r.
  - exists fp. auto.
  - unfold r. cbn [map find find_in_dir]. unfold path_of. rewrite P. cbn [bind].
    destruct (join_path_eq (show p) (f_name f) fp) as (J1 & J2); [apply show_no_nul; auto|apply N; left; auto|].
    rewrite join_text_show in J1, J2 by auto. unfold hit at 1. cbn [fst].
    destruct (Nat.leb_spec pm (length (slashed (p ++ [f_name f])))) as [B|B]; cbn [orb].
    { rewrite J2 by lia. destruct (Nat.leb_spec pm (length (slashed (p ++ [f_name f])))); [reflexivity|lia]. }
    rewrite J1 by lia. cbn [bind]. rewrite c_str_0.
    2:{ apply no_nul_slashed. apply Forall_app. split; [apply path_ok_nul; auto|constructor; auto]. apply N; left; auto. }
    cbn [bind]. destruct (beq (slashed (p ++ [f_name f])) abs).
    { destruct (Nat.leb_spec pm (length (slashed (p ++ [f_name f])))); [lia|]. eexists. reflexivity. }
    apply IH; auto.
    + rewrite app_length. cbn [length]. rewrite skipn_length. lia.
    + intros; apply N; right; auto.
Qed.

Lemma find_dirs_eq : forall ds h p fuel abs fp pm, chain h p (map de_node ds) -> length ds < fuel -> length fp = pm ->
  (forall d, In d ds -> path_ok (de_path d) /\ (forall f, In f (de_files d) -> ~ In NUL (f_name f)) /\
     exists nd, nth_error h (de_node d) = Some nd /\ n_path nd = Some (show (de_path d)) /\ n_files nd = de_files d) ->
  find_dirs fuel h p abs fp = scan pm abs ds.
Proof.
  induction ds as [|d ds IH]; intros h p fuel abs fp pm C L Lf F.
  - cbn in C. subst. destruct fuel; [lia|reflexivity].
  - cbn [map] in C. destruct C as (-> & nd & E & C). destruct fuel as [|fuel]; [cbn [length] in L; lia|]. cbn [length] in L.
    cbn [find_dirs]. rewrite (getn_ok _ _ _ E). cbn [bind]. destruct (F d (or_introl eq_refl)) as (K & N & nd' & E' & P & Fn).
    assert (nd' = nd) by congruence. subst nd'. rewrite Fn.
    pose proof (find_in_dir_eq (de_files d) nd (de_path d) abs fp pm P K Lf N) as X. cbv zeta in X.
    unfold scan. unfold joins. cbn [flat_map]. rewrite find_app_l. fold (hit pm abs).
    change (fun j : bytes * file => (pm <=? length (fst j)) || beq (fst j) abs) with (hit pm abs).
    destruct (find (hit pm abs) (map (fun f => (slashed (de_path d ++ [f_name f]), f)) (de_files d))) as [(u & f)|].
    + destruct (pm <=? length u); [rewrite X; reflexivity|]. destruct X as (fp' & ->). reflexivity.
    + destruct X as (fp' & -> & Lfp). cbn [bind]. apply IH; auto; [lia|]. intros; apply F; right; auto.
Qed.

Lemma chain_after : forall h ds p d nd, chain h p (map de_node ds) -> In d ds -> NoDup (map de_node ds) ->
  nth_error h (de_node d) = Some nd -> chain h (n_next nd) (map de_node (after (de_node d) ds)).
Proof.
  induction ds as [|x ds IH]; intros p d nd C I N E; [contradiction|]. cbn [map] in *. destruct C as (-> & ndx & Ex & C).
  inversion N as [|? ? N1 N2]; subst. cbn [after]. destruct (Nat.eqb_spec (de_node x) (de_node d)) as [X|X].
  - rewrite <- X in E. assert (nd = ndx) by congruence. subst. exact C.
  - destruct I as [->|I]; [congruence|]. eapply IH; eauto.
Qed.

Lemma after_in : forall i ds d, In d (after i ds) -> In d ds.
Proof. induction ds as [|x ds IH]; intros d I; [contradiction|]. cbn [after] in I. destruct (_ =? _); [right; exact I|right; auto]. Qed.
Lemma after_length : forall i ds, length (after i ds) <= length ds.
Proof. induction ds as [|x ds IH]; [auto|]. cbn [after]. destruct (_ =? _); cbn [length]; lia. Qed.

Lemma siblings_after_in : forall d fs x, In x (siblings_after d fs) -> In x fs /\ de_path d <> [] /\ de_path x <> [] /\ removelast (de_path x) = removelast (de_path d).
Proof.
  intros d fs x I. unfold siblings_after in I. destruct (de_path d) as [|c p] eqn:E; [contradiction|]. apply after_in in I.
  apply children_in in I as (I1 & I2 & I3). repeat split; auto. discriminate.
Qed.

Lemma siblings_chain : forall h root fs d nd, rep h root fs -> In d fs -> nth_error h (de_node d) = Some nd ->
  chain h (n_next nd) (map de_node (siblings_after d fs)).
Proof.
  intros h root fs d nd R I E. pose proof R as (O & St & Cr). pose proof O as (Pk & Np & Nn & Cl). unfold siblings_after.
  destruct (de_path d) as [|c p] eqn:Q.
  - assert (X : node_at [] fs = Some (de_node d)) by (rewrite <- Q; apply node_at_in; auto). rewrite X in Cr.
    destruct Cr as (_ & nd' & E' & C). assert (nd' = nd) by congruence. subst. exact C.
  - rewrite <- Q. assert (Qn : de_path d <> []) by congruence. pose proof (Cl d I Qn) as Ip. apply in_map_iff in Ip as (dp & Qp & Ip).
    destruct (St dp Ip) as (pn & _ & _ & _ & _ & Ch). rewrite Qp in Ch. eapply chain_after; eauto.
    + apply children_in. auto.
    + apply children_nodup; auto.
Qed.

Lemma self_after_disjoint : forall d fs, fs_ok fs -> In d fs -> ~ In (de_node d) (map de_node (siblings_after d fs)).
Proof.
  intros d fs O I X. pose proof O as (Pk & Np & Nn & Cl). unfold siblings_after in X. destruct (de_path d) as [|c p] eqn:Q; [contradiction|]. rewrite <- Q in X.
  destruct (children_nodup (removelast (de_path d)) fs O) as (N & _).
  assert (Ic : In d (children (removelast (de_path d)) fs)) by (apply children_in; repeat split; auto; congruence).
  revert X N Ic. generalize (children (removelast (de_path d)) fs). intros l. induction l as [|x l IH]; intros X N Ic; [contradiction|].
  cbn [map] in N. inversion N as [|? ? N1 N2]; subst. cbn [after] in X. destruct (Nat.eqb_spec (de_node x) (de_node d)) as [Y|Y].
  - apply N1. rewrite Y. exact X.
  - destruct Ic as [->|Ic]; [congruence|]. auto.
Qed.

Lemma find_from : forall h root fs d abs pm, rep h root fs -> In d fs -> (forall x f, In x fs -> In f (de_files x) -> ~ In NUL (f_name f)) ->
  find_dirs (S (length h)) h (Some (de_node d)) abs (local_array pm) = scan pm abs (d :: siblings_after d fs).
Proof.
  intros h root fs d abs pm R I N. pose proof R as (O & St & Cr). pose proof O as (Pk & Np & Nn & Cl).
  destruct (St d I) as (nd & E & _).
  assert (C : chain h (Some (de_node d)) (map de_node (d :: siblings_after d fs))).
  { cbn [map chain]. split; [reflexivity|]. exists nd. split; [exact E|]. eapply siblings_chain; eauto. }
  apply find_dirs_eq.
  - exact C.
  - apply chain_length in C; [rewrite map_length in C; lia|]. cbn [map]. constructor; [apply self_after_disjoint; auto|].
    unfold siblings_after. destruct (de_path d) as [|l l0]; [constructor|].
    destruct (children_nodup (removelast (l :: l0)) fs O) as (M & _). revert M. generalize (children (removelast (l :: l0)) fs). intros f.
    induction f as [|x f IH]; intros M; [constructor|]. cbn [map] in M. inversion M; subst. cbn [after]. destruct (_ =? _); auto.
  - apply local_array_length.
  - intros x Ix. assert (Ix' : In x fs) by (destruct Ix as [<-|Ix]; [exact I|apply siblings_after_in in Ix as (Ix & _); exact Ix]).
    split; [rewrite Forall_forall in Pk; auto|]. split; [eauto|]. destruct (St x Ix') as (nx & Ex & X1 & X2 & _). eauto.
Qed.

(** ** Shape of resolved texts: a slash can only be the first character of a
    component, and only the last component can be empty. *)
Definition slash_first (c : bytes) : Prop := exists x r, c = x :: r /\ slash_free r.
Fixpoint shape (p : list bytes) : Prop :=
  match p with
  | [] => True
  | [c] => slash_first c \/ c = []
  | c :: r => slash_first c /\ shape r
  end.

Lemma text_comps_shape : forall n s, length s <= n -> slash_free (fst (text_comps s)) /\ shape (snd (text_comps s)).
Proof.
  induction n as [|n IH]; intros s L.
  - destruct s; [split; [intros []|exact Logic.I]|cbn in L; lia].
  - destruct s as [|c s]; [split; [intros []|exact Logic.I]|]. cbn [length] in L. cbn [text_comps].
    destruct (ceq_spec c SL) as [->|Nc].
    + destruct s as [|c' r']; [split; [intros []|right; reflexivity]|]. cbn [length] in L.
      destruct (IH r' ltac:(lia)) as (H1 & H2). destruct (text_comps r') as (a & b). cbn [fst snd] in *. split; [intros []|].
      assert (SF : slash_first (c' :: a)) by (exists c', a; auto). destruct b as [|y b]; [left; exact SF|]. split; auto.
    + destruct (IH s ltac:(lia)) as (H1 & H2). destruct (text_comps s) as (a & b). cbn [fst snd] in *. split; [|exact H2].
      intros [X|X]; [congruence|exact (H1 X)].
Qed.

Definition most (p : list bytes) : Prop := Forall slash_first p.
Lemma most_shape : forall p, most p -> shape p.
Proof. induction p as [|c p IH]; intros H; [exact Logic.I|]. inversion H; subst. destruct p; [left; auto|]. split; auto. Qed.
Lemma shape_snoc : forall p c, shape (p ++ [c]) <-> most p /\ (slash_first c \/ c = []).
Proof.
  induction p as [|x p IH]; intros c; cbn [app].
  - cbn [shape]. split; [intros; split; [constructor|auto]|tauto].
  - destruct p as [|y p]; cbn [app] in *.
    + cbn [shape]. split; [intros (A & B); split; [repeat constructor; auto|auto]|intros (A & B); inversion A; auto].
    + change (slash_first x /\ shape (y :: p ++ [c]) <-> most (x :: y :: p) /\ (slash_first c \/ c = [])).
      rewrite (IH c). split; [intros (A & B & C); split; [constructor; auto|auto]|intros (A & B); inversion A; subst; auto].
Qed.
Lemma shape_inv : forall p, shape p -> p = [] \/ exists q c, p = q ++ [c] /\ most q /\ (slash_first c \/ c = []).
Proof.
  intros p H. destruct p as [|c q _] using rev_ind; [auto|]. right. exists q, c. apply shape_snoc in H as (A & B). auto.
Qed.

Lemma walk_last : forall d c, most d -> slash_first c \/ c = [] -> shape (walk d c).
Proof.
  intros d c M H. unfold walk. destruct (beq c (lit "..")).
  - apply most_shape. destruct d as [|x d _] using rev_ind; [constructor|]. rewrite removelast_last. apply Forall_app in M as (M & _). exact M.
  - destruct (beq c (lit ".")); [apply most_shape; exact M|]. apply shape_snoc. auto.
Qed.
Lemma walk_most : forall d c, most d -> slash_first c -> most (walk d c).
Proof.
  intros d c M H. unfold walk. destruct (beq c (lit "..")).
  - destruct d as [|x d _] using rev_ind; [constructor|]. rewrite removelast_last. apply Forall_app in M as (M & _). exact M.
  - destruct (beq c (lit ".")); [exact M|]. apply Forall_app. split; [exact M|constructor; auto].
Qed.

Lemma resolve_shape : forall p d, most d -> shape p -> shape (resolve d p).
Proof.
  induction p as [|c p IH]; intros d M H; [apply most_shape; exact M|]. unfold resolve. cbn [fold_left]. fold (resolve (walk d c) p).
  destruct p as [|y p].
  - cbn [resolve fold_left]. apply walk_last; auto.
  - destruct H as (H1 & H2). apply IH; auto. apply walk_most; auto.
Qed.

Lemma resolve_text_shape : forall cwd t, shape (resolve_text cwd t).
Proof.
  intros cwd t. unfold resolve_text. set (s := drop_trailing_slash _).
  assert (H : shape (resolve [] (snd (text_comps s)))).
  { apply resolve_shape; [constructor|]. apply (text_comps_shape (length s) s). lia. }
  destruct (resolve [] _) as [|[|x c] [|y q]]; auto; exact Logic.I.
Qed.

(** Splitting at every slash. *)
Lemma most_split : forall q, most q -> exists q2, Forall slash_free q2 /\ slashed q = slashed q2 /\ (Forall slash_free q \/ In [] q2).
Proof.
  induction q as [|c q IH]; intros M; [exists []; repeat split; auto|]. inversion M as [|? ? (x & r & -> & Sr) M']; subst.
  destruct (IH M') as (q2 & F & E & D). destruct (ceq_spec x SL) as [->|Nx].
  - exists ([] :: r :: q2). repeat split.
    + constructor; [intros []|]. constructor; auto.
    + rewrite !slashed_cons, E. reflexivity.
    + right. left. reflexivity.
  - exists ((x :: r) :: q2). repeat split.
    + constructor; auto. intros [X|X]; [congruence|exact (Sr X)].
    + rewrite !slashed_cons, E. reflexivity.
    + destruct D as [D|D]; [left|right; right; exact D]. constructor; auto. intros [X|X]; [congruence|exact (Sr X)].
Qed.

(** The directory a proper parent text names. *)
Lemma dir_named_most : forall fs q, Forall (fun d => path_ok (de_path d)) fs -> most q -> Forall (fun c => ~ In NUL c) q ->
  dir_named (show q) fs = dir_at q fs.
Proof.
  intros fs q Pk M Nq. destruct q as [|c q]; [apply dir_named_show; auto; constructor|].
  destruct (most_split _ M) as (q2 & F2 & E2 & D).
  assert (path_ok (c :: q) \/ In [] q2) as [K|K].
  { destruct D as [D|D]; [left|right; exact D]. rewrite Forall_forall in *. unfold path_ok. rewrite Forall_forall. intros x Ix.
    unfold comp_ok, plain_comp. destruct (proj1 (Forall_forall _ _) M x Ix) as (y & r & -> & _). split; [discriminate|]. split; [apply D; exact Ix|apply Nq; exact Ix]. }
  - apply dir_named_show; auto.
  - assert (X : forall d, In d fs -> show (de_path d) <> show (c :: q) /\ de_path d <> c :: q).
    { intros d Id. assert (Kd : path_ok (de_path d)) by (rewrite Forall_forall in Pk; auto).
      assert (Y : show (de_path d) <> show (c :: q)).
      { cbn [show]. rewrite E2. intros Z. destruct (de_path d) as [|y p] eqn:Q.
        - symmetry in Z. cbn [show] in Z. apply slashed_root in Z. rewrite Z in E2. apply slashed_root in E2. injection E2 as -> ->. inversion M as [|? ? (x & r & Y & _) _]; discriminate.
        - cbn [show] in Z. apply slashed_inj in Z; auto; [|apply path_ok_slash; auto]. subst q2. unfold path_ok in Kd. rewrite Forall_forall in Kd. destruct (Kd _ K) as (Y & _). congruence. }
      split; [exact Y|]. intros Z. apply Y. rewrite Z. reflexivity. }
    replace (dir_at (c :: q) fs) with (@None dirent).
    2:{ symmetry. apply dir_at_none. intros Z. apply in_map_iff in Z as (d & Q & Id). apply (proj2 (X d Id)). exact Q. }
    destruct (dir_named (show (c :: q)) fs) as [d|] eqn:Ed; [|reflexivity]. exfalso. cbn [show] in Ed. rewrite slashed_cons in Ed. unfold dir_named in Ed.
    apply find_some in Ed as (Id & B). apply beq_true in B. apply (proj1 (X d Id)). cbn [show]. rewrite slashed_cons. exact B.
Qed.

(** No file path equals a text whose last slash follows a slash. *)
Lemma scan_none : forall pm abs ds, (forall j, In j (joins ds) -> length (fst j) < pm /\ fst j <> abs) -> scan pm abs ds = Ok None.
Proof.
  intros pm abs ds H. unfold scan. destruct (find _ (joins ds)) as [(u & f)|] eqn:E; [|reflexivity]. apply find_some in E as (I & B).
  destruct (H _ I) as (L & N). cbn [fst] in *. apply orb_prop in B as [B|B]; [apply Nat.leb_le in B; lia|apply beq_true in B; contradiction].
Qed.

Lemma joins_in : forall ds u f, In (u, f) (joins ds) <-> exists d, In d ds /\ In f (de_files d) /\ u = slashed (de_path d ++ [f_name f]).
Proof.
  intros ds u f. unfold joins. rewrite in_flat_map. split.
  - intros (d & Id & I). apply in_map_iff in I as (g & E & I). injection E as <- <-. eauto.
  - intros (d & Id & If & ->). exists d. split; [exact Id|]. apply in_map_iff. eauto.
Qed.

Lemma scan_dir : forall pm fs d c, names_ok pm fs -> fs_ok fs -> In d fs -> slash_free c ->
  scan pm (slashed (de_path d ++ [c])) (d :: siblings_after d fs) = Ok (file_named c (de_files d)).
Proof.
  intros pm fs d c N O I Sc. pose proof O as (Pk & Np & Nn & Cl). unfold scan, joins. cbn [flat_map]. rewrite find_app_l.
  assert (Kd : path_ok (de_path d)) by (rewrite Forall_forall in Pk; auto).
  assert (A : forall fl, (forall f, In f fl -> In f (de_files d)) ->
    find (fun j : bytes * file => (pm <=? length (fst j)) || beq (fst j) (slashed (de_path d ++ [c]))) (map (fun f => (slashed (de_path d ++ [f_name f]), f)) fl)
    = option_map (fun f => (slashed (de_path d ++ [f_name f]), f)) (file_named c fl)).
  { induction fl as [|f fl IH]; intros H; [reflexivity|]. cbn [map find fst]. destruct (N d f I (H f (or_introl eq_refl))) as ((S1 & _) & Lf).
    destruct (Nat.leb_spec pm (length (slashed (de_path d ++ [f_name f])))); [lia|]. cbn [orb]. unfold file_named. cbn [find].
    replace (beq (slashed (de_path d ++ [f_name f])) (slashed (de_path d ++ [c]))) with (beq (f_name f) c).
    - destruct (beq (f_name f) c); [reflexivity|]. apply IH. intros; apply H; right; auto.
    - destruct (beq (f_name f) c) eqn:B; symmetry.
      + apply beq_true in B. rewrite B. apply beq_refl.
      + apply beq_neq. intros X. apply slashed_inj in X; try (apply Forall_app; split; [apply path_ok_slash; auto|constructor; auto]).
        apply app_inj_tail in X as (_ & X). rewrite X, beq_refl in B. discriminate. }
  rewrite A by auto. destruct (file_named c (de_files d)) as [f|] eqn:Ef; cbn [option_map].
  - unfold file_named in Ef. apply find_some in Ef as (If & _). destruct (N d f I If) as (_ & Lf).
    destruct (Nat.leb_spec pm (length (slashed (de_path d ++ [f_name f])))); [lia|reflexivity].
  - apply scan_none. intros (u & f) J. apply joins_in in J as (x & Ix & If & ->). pose proof (siblings_after_in _ _ _ Ix) as (Ix' & _).
    destruct (N x f Ix' If) as ((S1 & _) & Lf). cbn [fst]. split; [exact Lf|]. intros X.
    assert (Kx : path_ok (de_path x)) by (rewrite Forall_forall in Pk; auto).
    apply slashed_inj in X; try (apply Forall_app; split; [apply path_ok_slash; auto|constructor; auto]).
    apply app_inj_tail in X as (X & _). apply (self_after_disjoint d fs O I).
    replace d with x at 1; [apply in_map; exact Ix|].
    assert (dir_at (de_path x) fs = Some x) by (apply dir_at_in; auto). assert (dir_at (de_path d) fs = Some d) by (apply dir_at_in; auto). congruence.
Qed.

(** ** The whole search, exactly *)
Lemma find_by_name_eq : forall own s w name, knows own s w -> ~ In NUL name -> (w_cwd w = None -> exists r, name = SL :: r) ->
  (forall x f, In x (w_fs w) -> In f (de_files x) -> ~ In NUL (f_name f)) ->
  let pm := d_pathmax (o_desc s) in
  ush_file_find_by_name name s =
    match file_named name (flat_map snd (w_groups w)) with
    | Some f => Ok (Some f)
    | None =>
        if pm <=? length (full_text (here w) name) then Err EOob
        else d <- ush_node_get_parent_by_path pm (hp s) (o_root s) (show (resolve_text (here w) name)) ;;
             find_dirs (S (length (hp s))) (hp s) d (show (resolve_text (here w) name)) (local_array pm)
    end.
Proof.
  intros own s w name K N H Nn pm. unfold ush_file_find_by_name. fold pm. pose proof K as (R & G & _).
  rewrite (find_cmds_eq _ _ _ _ G). cbn [bind]. destruct (file_named name _); [reflexivity|].
  destruct (abs_path_world own s w name K N H) as (A & B & _). fold pm in A, B.
  destruct (Nat.leb_spec pm (length (full_text (here w) name))) as [L|L]; [rewrite (B L); reflexivity|]. rewrite (A L). reflexivity.
Qed.

Lemma most_nul : forall q c, no_nul (slashed (q ++ [c])) -> Forall (fun c => ~ In NUL c) q.
Proof. intros q c N. rewrite slashed_app in N. apply no_nul_app in N as [N _]. apply no_nul_slashed_inv. exact N. Qed.

Lemma find_file_ok : forall own s w name, knows own s w -> ~ In NUL name -> (w_cwd w = None -> exists r, name = SL :: r) ->
  names_ok (d_pathmax (o_desc s)) (w_fs w) ->
  file_named name (flat_map snd (w_groups w)) <> None \/ length (full_text (here w) name) < d_pathmax (o_desc s) ->
  ush_file_find_by_name name s = Ok (find_file (w_groups w) (w_fs w) (here w) name).
Proof.
  intros own s w name K N H Nm Room. rewrite (find_by_name_eq own s w name K N H).
  2:{ intros x f Ix If. apply (Nm x f Ix If). }
  unfold find_file. destruct (file_named name (flat_map snd (w_groups w))) as [f0|] eqn:Ec; [reflexivity|].
  destruct Room as [Z|L]; [congruence|]. cbv zeta. set (pm := d_pathmax (o_desc s)) in *.
  destruct (Nat.leb_spec pm (length (full_text (here w) name))); [lia|].
  pose proof K as (R & _). pose proof R as (O & St & _). pose proof O as (Pk & Np & Nn & Cl).
  destruct (abs_path_world own s w name K N H) as (_ & _ & Kh).
  pose proof (resolve_text_no_nul (here w) name Kh N) as Na. pose proof (resolve_text_length (here w) name) as La.
  pose proof (resolve_text_shape (here w) name) as Sh.
  assert (RF : resolve_text (here w) name <> [[]]).
  { unfold resolve_text. destruct (resolve [] _) as [|[|? ?] [|? ?]]; discriminate. }
  destruct (shape_inv _ Sh) as [E|(q & c & E & M & Sc)]; rewrite E in *.
  { reflexivity. }
  rewrite show_slashed in * by (destruct q; discriminate).
  assert (NS : slashed (q ++ [c]) <> [SL]) by (intros X; apply slashed_root in X; congruence).
  assert (FE : match q ++ [c] with [] => None | p => match dir_at (removelast p) (w_fs w) with Some d => file_named (last p []) (de_files d) | None => None end end
     = match dir_at q (w_fs w) with Some d => file_named c (de_files d) | None => None end).
  { destruct (q ++ [c]) as [|z zs] eqn:Z; [destruct q; discriminate|]. cbv zeta. rewrite <- Z, removelast_last, last_last. reflexivity. }
  transitivity (Ok (match dir_at q (w_fs w) with Some d => file_named c (de_files d) | None => None end)); [clear FE|f_equal; symmetry; exact FE].
  assert (Lq : length (show q) < pm).
  { rewrite slashed_snoc, app_length in La. cbn [length] in La. destruct q as [|y q]; cbn [show].
    - destruct c; [exfalso; apply RF; reflexivity|]. cbn [length] in *. lia.
    - lia. }
  assert (slash_free c \/ exists r, c = SL :: r /\ slash_free r) as [Fc|(r & -> & Fr)].
  { destruct Sc as [(x & r & -> & Sr)| ->]; [|left; intros []]. destruct (ceq_spec x SL) as [->|Nx]; [right; eauto|].
    left. intros [X|X]; [congruence|exact (Sr X)]. }
  - rewrite (parent_snoc (hp s) (o_root s) (w_fs w)) by auto. cbn [bind]. rewrite dir_named_most by (auto; eapply most_nul; eauto).
    destruct (dir_at q (w_fs w)) as [d|] eqn:Dq; cbn [option_map]; [|reflexivity]. apply dir_at_some in Dq as (Id & Qd). subst q.
    rewrite (find_from (hp s) (o_root s) (w_fs w)); auto.
    + apply scan_dir; auto.
    + intros x f Ix If. apply (Nm x f Ix If).
  - assert (Es : slashed (q ++ [SL :: r]) = slashed ((q ++ [[]]) ++ [r])).
    { rewrite !slashed_app. cbn [slashed flat_map app]. rewrite <- app_assoc. cbn [app]. rewrite app_nil_r. reflexivity. }
    rewrite Es in *. rewrite (parent_snoc (hp s) (o_root s) (w_fs w)); auto.
    2:{ rewrite show_slashed by (destruct q; discriminate). rewrite slashed_snoc in La. rewrite app_length in La. cbn [length] in La. lia. }
    cbn [bind].
    assert (Sp : match dir_at q (w_fs w) with Some d => file_named (SL :: r) (de_files d) | None => None end = None).
    { destruct (dir_at q (w_fs w)) as [d|] eqn:Dq; [|reflexivity]. apply dir_at_some in Dq as (Id & _).
      destruct (file_named (SL :: r) (de_files d)) as [f|] eqn:Ef; [|reflexivity]. unfold file_named in Ef. apply find_some in Ef as (If & B). apply beq_true in B.
      destruct (Nm d f Id If) as ((S1 & _) & _). exfalso. apply S1. rewrite B. left; reflexivity. }
    rewrite Sp. destruct (dir_named (show (q ++ [[]])) (w_fs w)) as [d|] eqn:Dn; cbn [option_map]; [|reflexivity].
    pose proof (dir_named_some _ _ _ O Dn) as (Id & _ & _).
    rewrite (find_from (hp s) (o_root s) (w_fs w)); auto; [|intros x f Ix If; apply (Nm x f Ix If)].
    apply scan_none. intros (u & f) J. apply joins_in in J as (x & Ix & If & ->). cbn [fst].
    assert (Ix' : In x (w_fs w)) by (destruct Ix as [<-|Ix]; [exact Id|apply siblings_after_in in Ix as (Ix & _); exact Ix]).
    destruct (Nm x f Ix' If) as ((S1 & _) & Lf). split; [exact Lf|]. intros X.
    assert (Kx : path_ok (de_path x)) by (rewrite Forall_forall in Pk; auto).
    destruct (most_split q M) as (q2 & F2 & E2 & _).
    replace (slashed ((q ++ [[]]) ++ [r])) with (slashed ((q2 ++ [[]]) ++ [r])) in X by (rewrite !slashed_app, E2; reflexivity).
    apply slashed_inj in X.
    + apply app_inj_tail in X as (X & _). rewrite X in Kx. apply Forall_app in Kx as (_ & Kx). inversion Kx as [|? ? [Y _] _]. congruence.
    + apply Forall_app. split; [apply path_ok_slash; auto|constructor; auto].
    + rewrite <- app_assoc. apply Forall_app. split; [exact F2|]. constructor; [intros []|]. constructor; auto.
Qed.
