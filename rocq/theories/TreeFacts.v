(** * TreeFacts: the node objects represent the abstract tree. *)
From Coq Require Import Arith.
From Verif Require Import Node Spec BaseFacts PathFacts CollapseFacts Tree.

(** ** The abstract side *)
Lemma path_eqb_true : forall p q, path_eqb p q = true <-> p = q.
Proof. intros p q. unfold path_eqb. destruct (path_dec p q); split; congruence. Qed.
Lemma path_eqb_refl : forall p, path_eqb p p = true.
Proof. intros. apply path_eqb_true. reflexivity. Qed.
Lemma path_eqb_false : forall p q, path_eqb p q = false <-> p <> q.
Proof. intros p q. unfold path_eqb. destruct (path_dec p q); split; congruence. Qed.
Lemma path_eqb_sym : forall p q, path_eqb p q = path_eqb q p.
Proof. intros p q. unfold path_eqb. destruct (path_dec p q), (path_dec q p); congruence. Qed.

Lemma dir_at_some : forall p fs d, dir_at p fs = Some d -> In d fs /\ de_path d = p.
Proof. intros p fs d H. apply find_some in H as (H1 & H2). apply path_eqb_true in H2. auto. Qed.
Lemma dir_at_none : forall p fs, dir_at p fs = None <-> ~ In p (map de_path fs).
Proof.
  intros p fs. split.
  - intros H I. apply in_map_iff in I as (d & <- & I). eapply find_none in H; eauto. cbn in H. rewrite path_eqb_refl in H. discriminate.
  - intros H. destruct (dir_at p fs) eqn:E; [|reflexivity]. apply dir_at_some in E as (E1 & <-). exfalso. apply H, in_map, E1.
Qed.
Lemma dir_at_in : forall fs d, NoDup (map de_path fs) -> In d fs -> dir_at (de_path d) fs = Some d.
Proof.
  induction fs as [|x fs IH]; intros d N I; [contradiction|]. cbn [map] in N. inversion N as [|? ? N1 N2]; subst.
  unfold dir_at. cbn [find]. destruct (path_eqb (de_path x) (de_path d)) eqn:E.
  - apply path_eqb_true in E. destruct I as [->|I]; [reflexivity|]. exfalso. apply N1. rewrite E. apply in_map, I.
  - destruct I as [->|I]; [rewrite path_eqb_refl in E; discriminate|]. apply IH; auto.
Qed.
Lemma node_at_in : forall fs d, NoDup (map de_path fs) -> In d fs -> node_at (de_path d) fs = Some (de_node d).
Proof. intros. unfold node_at. rewrite dir_at_in; auto. Qed.
Lemma node_at_some : forall p fs i, node_at p fs = Some i -> exists d, In d fs /\ de_path d = p /\ de_node d = i.
Proof.
  intros p fs i H. unfold node_at in H. destruct (dir_at p fs) as [d|] eqn:E; [|discriminate]. apply dir_at_some in E as (E1 & E2).
  injection H as <-. eauto.
Qed.
Lemma node_at_none : forall p fs, node_at p fs = None <-> ~ In p (map de_path fs).
Proof. intros. rewrite <- dir_at_none. unfold node_at. destruct (dir_at p fs); cbn [option_map]; split; congruence. Qed.
Lemma node_at_bad : forall p fs, Forall (fun d => path_ok (de_path d)) fs -> ~ path_ok p -> node_at p fs = None.
Proof.
  intros p fs F H. apply node_at_none. intros I. apply in_map_iff in I as (d & <- & I). apply H.
  rewrite Forall_forall in F. auto.
Qed.
Lemma node_inj : forall fs d d', NoDup (map de_node fs) -> In d fs -> In d' fs -> de_node d = de_node d' -> d = d'.
Proof.
  induction fs as [|x fs IH]; intros d d' N I I' E; [contradiction|]. cbn [map] in N. inversion N as [|? ? N1 N2]; subst.
  destruct I as [->|I], I' as [->|I']; auto; exfalso; apply N1.
  - rewrite E. apply in_map, I'.
  - rewrite <- E. apply in_map, I.
Qed.

Lemma below_spec : forall p q, below p q = true <-> q <> [] /\ removelast q = p.
Proof. intros p [|x q]; cbn [below]; [split; [discriminate|intros [H _]; congruence]|]. rewrite path_eqb_true. split; [split; congruence|tauto]. Qed.
Lemma below_snoc : forall p c, below p (p ++ [c]) = true.
Proof. intros. apply below_spec. rewrite removelast_last. split; [destruct p; discriminate|reflexivity]. Qed.
Lemma children_in : forall p fs d, In d (children p fs) <-> In d fs /\ de_path d <> [] /\ removelast (de_path d) = p.
Proof. intros. unfold children. rewrite filter_In, below_spec. tauto. Qed.

Lemma snoc_form : forall (q : dirpath), q <> [] -> q = removelast q ++ [last q []].
Proof. intros. apply app_removelast_last. auto. Qed.

Lemma NoDup_map_filter : forall (A B : Type) (f : A -> B) g l, NoDup (map f l) -> NoDup (map f (filter g l)).
Proof.
  induction l as [|x l IH]; intros N; [constructor|]. cbn [map] in N. inversion N as [|? ? N1 N2]; subst. cbn [filter].
  destruct (g x); [|auto]. cbn [map]. constructor; auto. intros I. apply N1. apply in_map_iff in I as (y & E & I).
  apply filter_In in I as (I & _). rewrite <- E. apply in_map, I.
Qed.

(** ** Chains *)
Lemma chain_in : forall h ids p i, chain h p ids -> In i ids -> exists nd, nth_error h i = Some nd.
Proof.
  induction ids as [|j ids IH]; intros p i C I; [contradiction|]. destruct C as (_ & nd & E & C). destruct I as [->|I]; eauto.
Qed.

Lemma chain_frame : forall h h' ids p, (forall i, In i ids -> option_map n_next (nth_error h' i) = option_map n_next (nth_error h i)) ->
  chain h p ids -> chain h' p ids.
Proof.
  induction ids as [|j ids IH]; intros p F C; [exact C|]. destruct C as (-> & nd & E & C). split; [reflexivity|].
  pose proof (F j (or_introl eq_refl)) as Fj. rewrite E in Fj. destruct (nth_error h' j) as [nd'|]; [|discriminate].
  cbn in Fj. injection Fj as Fj. exists nd'. split; [reflexivity|]. rewrite Fj. apply IH; auto. intros; apply F; right; auto.
Qed.

Lemma nodup_bound : forall (ids : list nat) n, NoDup ids -> (forall i, In i ids -> i < n) -> length ids <= n.
Proof.
  intros ids n N B. rewrite <- (seq_length n 0). apply NoDup_incl_length; [exact N|]. intros i I. apply in_seq. specialize (B i I). lia.
Qed.

Lemma chain_length : forall h p ids, chain h p ids -> NoDup ids -> length ids <= length h.
Proof.
  intros h p ids C N. apply nodup_bound; auto. intros i I. destruct (chain_in _ _ _ _ C I) as (nd & E).
  apply nth_error_Some. congruence.
Qed.

Lemma chain_det : forall h ids ids' p, chain h p ids -> chain h p ids' -> ids = ids'.
Proof.
  induction ids as [|i ids IH]; intros [|j ids'] p C C'; auto.
  - destruct C' as (E & _). cbn in C. congruence.
  - destruct C as (E & _). cbn in C'. congruence.
  - destruct C as (E & nd & En & C), C' as (E' & nd' & En' & C'). assert (i = j) by congruence. subst j.
    assert (nd' = nd) by congruence. subst. f_equal. eauto.
Qed.


(** Removal of an element from a chain. *)
Lemma chain_remove_first : forall h p i b nd, chain h p (i :: b) -> nth_error h i = Some nd -> chain h (n_next nd) b.
Proof. intros h p i b nd (_ & nd' & E & C) E'. congruence. Qed.

Lemma chain_remove : forall h a p q i b ndq ndi, chain h p (a ++ q :: i :: b) -> NoDup (a ++ q :: i :: b) ->
  nth_error h q = Some ndq -> nth_error h i = Some ndi ->
  chain (upd h q (with_next (n_next ndi) ndq)) p (a ++ q :: b).
Proof.
  intros h a. induction a as [|x a IH]; intros p q i b ndq ndi C N Eq Ei.
  - cbn [app] in *. destruct C as (-> & nd & E & C). destruct C as (E2 & nd2 & E3 & C). split; [reflexivity|].
    assert (nd2 = ndi) by congruence. subst nd2.
    exists (with_next (n_next ndi) ndq). split; [apply upd_nth_same; apply nth_error_Some; congruence|].
    cbn [with_next n_next]. eapply chain_frame; [|exact C]. intros j I. rewrite upd_nth_other; auto.
    inversion N as [|? ? N1 _]; subst. intros ->. apply N1. right. exact I.
  - cbn [app] in *. destruct C as (-> & nd & E & C). inversion N as [|? ? N1 N2]; subst. split; [reflexivity|].
    exists nd. split; [rewrite upd_nth_other; auto; intros ->; apply N1; apply in_or_app; right; left; reflexivity|].
    eapply IH; eauto.
Qed.

(** ** Searches *)
Lemma getn_ok : forall h i nd, nth_error h i = Some nd -> getn h i = Ok nd.
Proof. intros h i nd E. unfold getn. rewrite E. reflexivity. Qed.

Lemma setn_ok : forall h i nd n, nth_error h i = Some nd -> setn h i n = Ok (upd h i n).
Proof.
  intros h i nd n E. unfold setn. destruct (Nat.ltb_spec i (length h)); [reflexivity|].
  assert (nth_error h i <> None) by congruence. apply nth_error_Some in H0. lia.
Qed.

Lemma beq_sym : forall a b, beq a b = beq b a.
Proof.
  intros a b. destruct (beq a b) eqn:E, (beq b a) eqn:E'; auto.
  - apply beq_true in E. subst. rewrite beq_refl in E'. discriminate.
  - apply beq_true in E'. subst. rewrite beq_refl in E. discriminate.
Qed.

(** Searching a chain of directories for a path text. *)
Lemma sib_search_eq : forall ds h p fuel lp, chain h p (map de_node ds) -> length ds < fuel ->
  (forall d, In d ds -> exists nd, nth_error h (de_node d) = Some nd /\ n_path nd = Some (show (de_path d))) ->
  sib_search fuel h p lp = Ok (option_map de_node (find (fun d => beq (show (de_path d)) lp) ds)).
Proof.
  induction ds as [|d ds IH]; intros h p fuel lp C L P.
  - cbn in C. subst p. destruct fuel; [lia|]. reflexivity.
  - cbn [map] in C. destruct C as (-> & nd & E & C). destruct fuel as [|fuel]; [cbn [length] in L; lia|]. cbn [length] in L.
    cbn [sib_search]. rewrite (getn_ok _ _ _ E). cbn [bind].
    destruct (P d (or_introl eq_refl)) as (nd' & E' & Pd). assert (nd' = nd) by congruence. subst nd'.
    unfold path_of. rewrite Pd. cbn [bind find]. destruct (beq (show (de_path d)) lp); [reflexivity|].
    apply IH; auto; [lia|]. intros; apply P; right; auto.
Qed.

(** The children of a mounted directory. *)
Lemma rep_dir : forall h root fs d, rep h root fs -> In d fs -> stands h fs d.
Proof. intros h root fs d (_ & S & _) I. auto. Qed.

Lemma children_nodup : forall p fs, fs_ok fs -> NoDup (map de_node (children p fs)) /\ NoDup (map de_path (children p fs)).
Proof. intros p fs (_ & N1 & N2 & _). split; apply NoDup_map_filter; auto. Qed.

Definition slash_free (c : bytes) : Prop := ~ In SL c.

(** Path texts determine proper paths. *)
Lemma show_slashed_inj : forall k q, path_ok k -> Forall slash_free q -> q <> [] -> q <> [[]] -> show k = slashed q -> k = q.
Proof.
  intros k q K Q N1 N2 E. destruct k as [|x k].
  - cbn [show] in E. symmetry in E. apply slashed_root in E. contradiction.
  - cbn [show] in E. apply slashed_inj in E; auto. apply path_ok_slash; auto.
Qed.

Lemma find_ext_in : forall (A : Type) (f g : A -> bool) l, (forall x, In x l -> f x = g x) -> find f l = find g l.
Proof.
  induction l as [|x l IH]; intros H; [reflexivity|]. cbn [find]. rewrite (H x) by (left; auto).
  destruct (g x); [reflexivity|]. apply IH. intros; apply H; right; auto.
Qed.

Lemma find_filter : forall (A : Type) (f g : A -> bool) l, (forall x, In x l -> f x = true -> g x = true) ->
  find f (filter g l) = find f l.
Proof.
  induction l as [|x l IH]; intros H; [reflexivity|]. cbn [filter find]. destruct (g x) eqn:G.
  - cbn [find]. destruct (f x); [reflexivity|]. apply IH. intros; apply H; auto; right; auto.
  - destruct (f x) eqn:F; [rewrite (H x) in G by (auto; left; auto); discriminate|]. apply IH. intros; apply H; auto; right; auto.
Qed.

(** Searching the children of [q] for the text of [q ++ [c]]. *)
Lemma child_search : forall h root fs q d nd c, rep h root fs -> In d fs -> de_path d = q ->
  nth_error h (de_node d) = Some nd -> slash_free c ->
  sib_search (S (length h)) h (n_children nd) (slashed (q ++ [c])) = Ok (node_at (q ++ [c]) fs).
Proof.
  intros h root fs q d nd c R I Q E C. pose proof R as (Ok1 & St & _). pose proof Ok1 as (Pk & Np & Nn & _).
  destruct (St d I) as (nd' & E' & _ & _ & _ & Ch). assert (nd' = nd) by congruence. subst nd'. rewrite Q in Ch.
  assert (Kq : path_ok q). { rewrite Forall_forall in Pk. rewrite <- Q. auto. }
  rewrite (sib_search_eq (children q fs) h).
  - f_equal. unfold node_at, dir_at. f_equal.
    rewrite (find_ext_in _ _ (fun x => path_eqb (de_path x) (q ++ [c]))).
    + apply find_filter. intros x _ X. apply path_eqb_true in X. rewrite X. apply below_snoc.
    + intros x Ix. apply children_in in Ix as (Ix & Nx & Rx).
      assert (Kx : path_ok (de_path x)) by (rewrite Forall_forall in Pk; auto).
      destruct (beq (show (de_path x)) (slashed (q ++ [c]))) eqn:B; symmetry.
      * apply beq_true in B. apply path_eqb_true. rewrite show_slashed in B by auto.
        apply slashed_inj in B; auto; [apply path_ok_slash; auto|]. apply Forall_app. split; [apply path_ok_slash; auto|]. constructor; auto.
      * apply path_eqb_false. intros X. rewrite X, show_slashed, beq_refl in B by (destruct q; discriminate). discriminate.
  - exact Ch.
  - destruct (children_nodup q fs Ok1) as (N & _). apply chain_length in Ch; auto. rewrite map_length in Ch. lia.
  - intros x Ix. apply children_in in Ix as (Ix & _). destruct (St x Ix) as (ndx & Ex & Px & _). eauto.
Qed.

(** Prefixes of mounted paths are mounted. *)
Lemma parent_mounted : forall fs p c, fs_ok fs -> node_at (p ++ [c]) fs <> None -> node_at p fs <> None.
Proof.
  intros fs p c (_ & Np & _ & Cl) H. destruct (node_at (p ++ [c]) fs) as [i|] eqn:E; [|congruence].
  apply node_at_some in E as (d & I & Q & _). rewrite node_at_none. intros NI. apply NI.
  replace p with (removelast (de_path d)); [|rewrite Q; apply removelast_last]. apply Cl; auto.
  rewrite Q. destruct p; discriminate.
Qed.

Lemma firstn_mounted : forall fs p k, fs_ok fs -> node_at p fs <> None -> node_at (firstn k p) fs <> None.
Proof.
  intros fs p. induction p as [|c p IH] using rev_ind; intros k O H; [rewrite firstn_nil; exact H|].
  destruct (Nat.le_gt_cases (length (p ++ [c])) k); [rewrite firstn_all2; auto|].
  rewrite app_length in H0; cbn [length] in H0. rewrite firstn_app. replace (k - length p) with 0 by lia.
  cbn [firstn]. rewrite app_nil_r. apply IH; auto. eapply parent_mounted; eauto.
Qed.

(** The buffer has room for every prefix that is looked for. *)
Definition room (pm : nat) (fs : fsys) (cs : list bytes) (from : nat) : Prop :=
  forall k, from <= k < length cs -> node_at (firstn k cs) fs <> None -> length (slashed (firstn (S k) cs)) < pm.

Lemma firstn_S_snoc : forall (cs : list bytes) k, k < length cs -> firstn (S k) cs = firstn k cs ++ [nth k cs []].
Proof.
  induction cs as [|c cs IH]; intros k H; [cbn in H; lia|]. destruct k; [reflexivity|].
  cbn [length] in H. change (c :: firstn (S k) cs = c :: firstn k cs ++ [nth k cs []]). f_equal. apply IH. lia.
Qed.

Lemma no_nul_firstn : forall k cs, no_nul (slashed cs) -> no_nul (slashed (firstn k cs)).
Proof.
  intros k cs N. rewrite <- (firstn_skipn k cs), slashed_app in N. apply no_nul_app in N as [N _]. exact N.
Qed.

Lemma get_level_ok : forall cs k buf pm, Forall slash_free cs -> 1 <= k -> no_nul (slashed cs) -> length buf = pm ->
  length (slashed (firstn k cs)) < pm ->
  exists buf', ush_utils_get_path_level k (slashed cs) buf = Ok buf' /\ length buf' = pm /\
    c_str buf' 0 = Ok (slashed (firstn k cs)).
Proof.
  intros cs k buf pm F K N L R. rewrite get_path_level_eq by auto. cbv zeta.
  destruct (Nat.ltb_spec (length (slashed (firstn k cs))) (length buf)); [|lia].
  eexists. split; [reflexivity|]. split.
  - rewrite app_length. cbn [length]. rewrite skipn_length. lia.
  - apply c_str_0. apply no_nul_firstn; auto.
Qed.

Lemma get_loop_eq : forall n h root fs cs i d nd pm buf, rep h root fs -> Forall slash_free cs -> no_nul (slashed cs) ->
  n + i = S (length cs) -> 1 <= i -> 1 <= n -> In d fs -> de_path d = firstn (i - 1) cs ->
  nth_error h (de_node d) = Some nd -> length buf = pm -> room pm fs cs (i - 1) ->
  get_loop n i (length cs) h (slashed cs) buf (n_children nd) = Ok (node_at cs fs).
Proof.
  induction n as [|n IH]; intros h root fs cs i d nd pm buf R F N En Hi Hn I Q E L Rm; [lia|].
  cbn [get_loop]. pose proof R as (O & St & _). pose proof O as (_ & Np & _ & _).
  assert (M : node_at (firstn (i - 1) cs) fs <> None).
  { rewrite <- Q, (node_at_in fs d) by auto. discriminate. }
  assert (Ri : length (slashed (firstn i cs)) < pm).
  { replace i with (S (i - 1)) by lia. apply Rm; auto. lia. }
  destruct (get_level_ok cs i buf pm F Hi N L Ri) as (buf' & -> & L' & Cs). cbn [bind]. rewrite Cs. cbn [bind].
  assert (Fi : firstn i cs = firstn (i - 1) cs ++ [nth (i - 1) cs []]).
  { replace i with (S (i - 1)) at 1 by lia. apply firstn_S_snoc. lia. }
  rewrite Fi, (child_search h root fs (firstn (i - 1) cs) d nd); auto.
  2:{ unfold slash_free in *. rewrite Forall_forall in F. apply F, nth_In. lia. }
  cbn [bind]. rewrite <- Fi. destruct (node_at (firstn i cs) fs) as [c|] eqn:Ec.
  - destruct (Nat.eqb_spec i (length cs)) as [->|Ni]; [rewrite firstn_all in Ec; rewrite Ec; reflexivity|].
    apply node_at_some in Ec as (d' & I' & Q' & <-). destruct (St d' I') as (nd' & E' & _).
    rewrite (getn_ok _ _ _ E'). cbn [bind].
    apply (IH h root fs cs (S i) d' nd' pm); auto; try lia.
    + replace (S i - 1) with i by lia. exact Q'.
    + intros k Hk. apply Rm. lia.
  - destruct (node_at cs fs) eqn:Ecs; [|reflexivity]. exfalso.
    apply (firstn_mounted fs cs i O); [congruence|exact Ec].
Qed.

Lemma get_loop_err : forall n h root fs cs i d nd pm buf k, rep h root fs -> Forall slash_free cs -> no_nul (slashed cs) ->
  n + i = S (length cs) -> 1 <= i -> In d fs -> de_path d = firstn (i - 1) cs ->
  nth_error h (de_node d) = Some nd -> length buf = pm -> 
  i - 1 <= k < length cs -> node_at (firstn k cs) fs <> None -> pm <= length (slashed (firstn (S k) cs)) ->
  get_loop n i (length cs) h (slashed cs) buf (n_children nd) = Err EOob.
Proof.
  induction n as [|n IH]; intros h root fs cs i d nd pm buf k R F N En Hi I Q E L Hk Mk Lk; [lia|].
  cbn [get_loop]. pose proof R as (O & St & _). 
  destruct (Nat.le_gt_cases pm (length (slashed (firstn i cs)))) as [Bad|Ri].
  { rewrite get_path_level_eq by auto. cbv zeta. destruct (Nat.ltb_spec (length (slashed (firstn i cs))) (length buf)); [lia|reflexivity]. }
  destruct (get_level_ok cs i buf pm F Hi N L Ri) as (buf' & -> & L' & Cs). cbn [bind]. rewrite Cs. cbn [bind].
  assert (Fi : firstn i cs = firstn (i - 1) cs ++ [nth (i - 1) cs []]).
  { replace i with (S (i - 1)) at 1 by lia. apply firstn_S_snoc. lia. }
  rewrite Fi, (child_search h root fs (firstn (i - 1) cs) d nd); auto.
  2:{ unfold slash_free in *. rewrite Forall_forall in F. apply F, nth_In. lia. }
  cbn [bind]. rewrite <- Fi.
  assert (Hk2 : i <= k). { destruct (Nat.eq_dec k (i - 1)) as [->|]; [|lia]. replace (S (i - 1)) with i in Lk by lia. lia. }
  pose proof (firstn_mounted fs (firstn k cs) i O Mk) as Mi. rewrite firstn_firstn, Nat.min_l in Mi by lia.
  destruct (node_at (firstn i cs) fs) as [c|] eqn:Ec; [|congruence].
  destruct (Nat.eqb_spec i (length cs)) as [->|Ni]; [lia|].
  apply node_at_some in Ec as (d' & I' & Q' & <-). destruct (St d' I') as (nd' & E' & _).
  rewrite (getn_ok _ _ _ E'). cbn [bind].
  eapply (IH h root fs cs (S i) d' nd' pm); eauto; try lia.
  replace (S i - 1) with i by lia. exact Q'.
Qed.

(** The root pointer. *)
Lemma rep_root : forall h root fs, rep h root fs -> root = node_at [] fs.
Proof. intros h root fs (_ & _ & C). destruct (node_at [] fs); cbn in C; [destruct C; auto|auto]. Qed.

Lemma slashed_not_root : forall cs, cs <> [] -> cs <> [[]] -> slashed cs <> [SL].
Proof. intros cs N1 N2 E. apply slashed_root in E. congruence. Qed.

Lemma get_by_path_eq : forall h root fs cs pm, rep h root fs -> Forall slash_free cs -> no_nul (slashed cs) ->
  cs <> [] -> cs <> [[]] -> room pm fs cs 0 ->
  ush_node_get_by_path pm h root (slashed cs) = Ok (node_at cs fs).
Proof.
  intros h root fs cs pm R F N N1 N2 Rm. unfold ush_node_get_by_path.
  destruct cs as [|c p]; [congruence|]. rewrite levels_count_slashed by (auto; apply slashed_not_root; auto).
  cbn [Nat.eqb]. pose proof R as (O & St & _). pose proof O as (_ & Np & _ & _).
  rewrite (rep_root h root fs R). destruct (node_at [] fs) as [r|] eqn:E.
  - apply node_at_some in E as (d & I & Q & <-). destruct (St d I) as (nd & E & _). rewrite (getn_ok _ _ _ E). cbn [bind].
    change (S (length p)) with (length (c :: p)).
    apply (get_loop_eq (length (c :: p)) h root fs (c :: p) 1 d nd pm); auto; try (cbn [length]; lia).
    apply local_array_length.
  - destruct (node_at (c :: p) fs) eqn:E2; [|reflexivity]. exfalso. apply (firstn_mounted fs (c :: p) 0 O); [congruence|exact E].
Qed.

Lemma get_by_path_err : forall h root fs cs pm k, rep h root fs -> Forall slash_free cs -> no_nul (slashed cs) ->
  cs <> [] -> cs <> [[]] -> k < length cs -> node_at (firstn k cs) fs <> None -> pm <= length (slashed (firstn (S k) cs)) ->
  ush_node_get_by_path pm h root (slashed cs) = Err EOob.
Proof.
  intros h root fs cs pm k R F N N1 N2 K Mk Lk. unfold ush_node_get_by_path.
  destruct cs as [|c p]; [congruence|]. rewrite levels_count_slashed by (auto; apply slashed_not_root; auto).
  cbn [Nat.eqb]. pose proof R as (O & St & _).
  rewrite (rep_root h root fs R). destruct (node_at [] fs) as [r|] eqn:E.
  - apply node_at_some in E as (d & I & Q & <-). destruct (St d I) as (nd & E & _). rewrite (getn_ok _ _ _ E). cbn [bind].
    change (S (length p)) with (length (c :: p)).
    eapply (get_loop_err (length (c :: p)) h root fs (c :: p) 1 d nd pm _ k); eauto; try (cbn [length] in *; lia).
    apply local_array_length.
  - exfalso. apply (firstn_mounted fs _ 0 O Mk). exact E.
Qed.

Lemma slashed_firstn_length : forall k cs, length (slashed (firstn k cs)) <= length (slashed cs).
Proof. intros. rewrite <- (firstn_skipn k cs) at 2. rewrite slashed_app, app_length. lia. Qed.

Lemma room_short : forall pm fs cs, length (slashed cs) < pm -> room pm fs cs 0.
Proof. intros pm fs cs L k _ _. pose proof (slashed_firstn_length (S k) cs). lia. Qed.

(** Directories by their text. *)
Lemma dir_named_show : forall fs p, Forall (fun d => path_ok (de_path d)) fs -> path_ok p -> dir_named (show p) fs = dir_at p fs.
Proof.
  intros fs p F K. unfold dir_named, dir_at. destruct (show_head p) as (r & E). rewrite E. rewrite <- E.
  apply find_ext_in. intros d I. rewrite Forall_forall in F. specialize (F d I).
  destruct (path_eqb (de_path d) p) eqn:P.
  - apply path_eqb_true in P. rewrite P. apply beq_refl.
  - apply path_eqb_false in P. apply beq_neq. intros X. apply P. apply show_inj; auto.
Qed.

Lemma dir_named_slashed : forall fs cs, Forall (fun d => path_ok (de_path d)) fs -> Forall slash_free cs -> cs <> [] -> cs <> [[]] ->
  dir_named (slashed cs) fs = dir_at cs fs.
Proof.
  intros fs cs F S N1 N2. unfold dir_named, dir_at. destruct cs as [|c cs]; [congruence|]. rewrite slashed_cons.
  rewrite <- slashed_cons. apply find_ext_in. intros d I. rewrite Forall_forall in F. specialize (F d I).
  destruct (path_eqb (de_path d) (c :: cs)) eqn:P.
  - apply path_eqb_true in P. rewrite P. apply beq_refl.
  - apply path_eqb_false in P. apply beq_neq. intros X. apply P. apply show_slashed_inj; auto.
Qed.

Lemma dir_named_other : forall fs c t, c <> SL -> dir_named (c :: t) fs = None.
Proof.
  intros fs c t N. unfold dir_named. destruct (find _ fs) as [d|] eqn:E; [|reflexivity]. apply find_some in E as (_ & E).
  apply beq_true in E. destruct (show_head (de_path d)) as (r & H). congruence.
Qed.

Lemma child_none : forall h root fs r nd lp, rep h root fs -> root = Some r -> nth_error h r = Some nd ->
  (forall x, lp <> SL :: x) -> sib_search (S (length h)) h (n_children nd) lp = Ok None.
Proof.
  intros h root fs r nd lp R Er E Nl. pose proof R as (O & St & _). rewrite (rep_root h root fs R) in Er.
  apply node_at_some in Er as (d & I & Q & <-). destruct (St d I) as (nd' & E' & _ & _ & _ & C).
  assert (nd' = nd) by congruence. subst. rewrite Q in C.
  rewrite (sib_search_eq (children [] fs) h).
  - destruct (find _ _) as [x|] eqn:Ef; [|reflexivity]. apply find_some in Ef as (_ & B). apply beq_true in B.
    destruct (show_head (de_path x)) as (y & H). exfalso. apply (Nl y). congruence.
  - exact C.
  - destruct (children_nodup [] fs O) as (N & _). apply chain_length in C; auto. rewrite map_length in C. lia.
  - intros x Ix. apply children_in in Ix as (Ix & _). destruct (St x Ix) as (ndx & Ex & Px & _). eauto.
Qed.

(** Lookup of any text that fits. *)
Lemma get_by_path_text : forall h root fs t pm, rep h root fs -> no_nul t -> length t < pm ->
  ush_node_get_by_path pm h root t = Ok (option_map de_node (dir_named t fs)).
Proof.
  intros h root fs t pm R N L. pose proof R as (O & St & _). pose proof O as (Pk & Np & _).
  destruct t as [|x t].
  { unfold ush_node_get_by_path. cbn [ush_utils_get_path_levels_count beq]. rewrite (rep_root h root fs R). reflexivity. }
  destruct (ceq_spec x SL) as [->|Nx].
  - destruct (slashed_decomp t) as (c & p & E & F). rewrite E in *.
    destruct (list_eq_dec (list_eq_dec Ascii.ascii_dec) (c :: p) [[]]) as [E2|N2].
    + rewrite E2. change (slashed [[]]) with (show []). rewrite dir_named_show by (auto; constructor).
      unfold ush_node_get_by_path. cbn [show]. rewrite (rep_root h root fs R). reflexivity.
    + rewrite (get_by_path_eq h root fs); auto; [|discriminate|apply room_short; auto].
      rewrite dir_named_slashed by (auto; discriminate). reflexivity.
  - rewrite dir_named_other by auto. cbn [option_map]. unfold ush_node_get_by_path.
    assert (Lv : ush_utils_get_path_levels_count (x :: t) = S (count_slash t)).
    { unfold ush_utils_get_path_levels_count. change (lit "/") with [SL]. rewrite beq_neq by congruence.
      rewrite levels_loop_count. reflexivity. }
    rewrite Lv. cbn [Nat.eqb]. destruct root as [r|] eqn:Er; [|reflexivity].
    assert (exists nd, nth_error h r = Some nd) as (nd & E).
    { pose proof (rep_root h _ fs R) as X. symmetry in X. apply node_at_some in X as (d & I & Q & <-). destruct (St d I) as (nd & E & _). eauto. }
    rewrite (getn_ok _ _ _ E). cbn [bind get_loop].
    assert (exists b y, ush_utils_get_path_level 1 (x :: t) (local_array pm) = Ok b /\ c_str b 0 = Ok (x :: y)) as (b & y & -> & Cs).
    { unfold ush_utils_get_path_level. cbn [Nat.eqb]. rewrite path_level_loop_eq by lia. cbv zeta.
      assert (LP : forall l s i, exists s', s = level_prefix l i s ++ s').
      { intros l s. induction s as [|z s IH]; intros i; [exists []; reflexivity|]. cbn [level_prefix].
        destruct (i <=? l); [|eexists; reflexivity]. destruct (IH (match s with [] => i | c' :: _ => if ceq c' SL then S i else i end)) as (s' & Es).
        exists s'. cbn [app]. f_equal. exact Es. }
      destruct (LP 1 (x :: t) 1) as (s' & Es).
      assert (Lp : length (level_prefix 1 1 (x :: t)) <= length (x :: t)) by (rewrite Es at 2; rewrite app_length; lia).
      rewrite local_array_length. destruct (Nat.ltb_spec (0 + length (level_prefix 1 1 (x :: t))) pm); [|lia].
      eexists. eexists. split; [reflexivity|]. cbn [firstn app]. rewrite c_str_0.
      - cbn [level_prefix Nat.leb]. reflexivity.
      - rewrite Es in N. apply no_nul_app in N as [N _]. exact N. }
    cbn [bind]. rewrite Cs. cbn [bind]. rewrite (child_none h (Some r) fs r nd); auto. congruence.
Qed.

(** ** Parent lookup *)
Lemma path_upper_any : forall t, no_nul t ->
  exists b u, ush_utils_path_upper (t ++ [NUL]) = Ok b /\ c_str b 0 = Ok u /\ length u <= length t /\ no_nul u.
Proof.
  intros t N. destruct t as [|x t].
  { exists [NUL], []. split; [reflexivity|]. split; [reflexivity|]. split; [cbn; lia|intros []]. }
  destruct (Nat.eq_dec (length (x :: t)) 1) as [L1|L1].
  { destruct t; [|discriminate]. unfold ush_utils_path_upper. rewrite c_strlen_0 by auto. cbn [bind length Nat.eqb app].
    exists [NUL; NUL], []. split; [reflexivity|]. split; [reflexivity|]. split; [cbn; lia|intros []]. }
  unfold ush_utils_path_upper. rewrite c_strlen_0 by auto. cbn [bind].
  destruct (Nat.eqb_spec (length (x :: t)) 1); [lia|]. clear n.
  assert (G : forall n, n <= length (x :: t) -> exists b u, path_upper_loop ((x :: t) ++ [NUL]) n = Ok b /\ c_str b 0 = Ok u /\ length u <= length (x :: t) /\ no_nul u).
  { induction n as [|n IH]; intros Hn.
    - cbn [path_upper_loop]. exists ((x :: t) ++ [NUL]), (x :: t). repeat split; auto. apply c_str_0; auto.
    - cbn [path_upper_loop]. destruct (nth_error (x :: t) n) as [c|] eqn:E; [|apply nth_error_None in E; lia].
      destruct (nth_error_split _ _ E) as (a & r & Ea & La). rewrite Ea in *. rewrite <- app_assoc. cbn [app].
      rewrite rd_app by auto. cbn [bind]. destruct (negb (ceq c SL)).
      + destruct IH as (b & u & H); [lia|]. exists b, u. rewrite <- app_assoc in H. exact H.
      + assert (Na : no_nul a) by (apply no_nul_app in N as [N _]; exact N).
        destruct (Nat.eqb_spec n 0) as [->|Nz].
        * destruct a; [|discriminate]. cbn [app] in *. destruct r as [|y r].
          { exfalso. apply L1. reflexivity. }
          cbn [Nat.add]. change (c :: (y :: r) ++ [NUL]) with ([c] ++ y :: r ++ [NUL]). rewrite wr_app by reflexivity. cbn [app]. exists (c :: NUL :: r ++ [NUL]), [c].
          split; [reflexivity|]. split; [apply (c_str_0 [c]); intros [Z|[]]; apply N; left; auto|].
          split; [cbn [length]; lia|]. intros [Z|[]]; apply N; left; auto.
        * rewrite wr_app by auto. eexists. exists a. split; [reflexivity|]. split; [apply c_str_0; auto|]. split; [|auto].
          rewrite app_length. lia. }
  apply (G (length (x :: t))). lia.
Qed.

Lemma parent_by_text : forall h root fs t pm, rep h root fs -> no_nul t -> length t <= pm ->
  forall b u, ush_utils_path_upper (t ++ [NUL]) = Ok b -> c_str b 0 = Ok u -> no_nul u -> length u < pm ->
  ush_node_get_parent_by_path pm h root t = Ok (match u with [] => None | _ => option_map de_node (dir_named u fs) end).
Proof.
  intros h root fs t pm R N L b u E1 E2 Nu Lu. unfold ush_node_get_parent_by_path. rewrite E1. cbn [bind]. rewrite E2. cbn [bind].
  destruct u as [|x u]; [reflexivity|]. apply get_by_path_text; auto.
Qed.

Lemma parent_any : forall h root fs t pm, rep h root fs -> no_nul t -> length t < pm ->
  exists r, ush_node_get_parent_by_path pm h root t = Ok r.
Proof.
  intros h root fs t pm R N L. destruct (path_upper_any t N) as (b & u & E1 & E2 & Lu & Nu).
  erewrite parent_by_text; eauto; lia.
Qed.

Lemma parent_snoc : forall h root fs p c pm, rep h root fs -> ~ In SL c -> no_nul (slashed (p ++ [c])) ->
  slashed (p ++ [c]) <> [SL] -> length (show p) < pm ->
  ush_node_get_parent_by_path pm h root (slashed (p ++ [c])) = Ok (option_map de_node (dir_named (show p) fs)).
Proof.
  intros h root fs p c pm R Hc N E L. destruct (path_upper_slashed p c Hc N E) as (b & E1 & E2).
  unfold ush_node_get_parent_by_path. rewrite E1. cbn [bind]. rewrite E2. cbn [bind].
  destruct (show_head p) as (r & Er). rewrite Er. rewrite <- Er. apply get_by_path_text; auto.
  destruct p as [|x p]; [intros [Z|[]]; discriminate|]. rewrite slashed_app in N. apply no_nul_app in N as [N _]. exact N.
Qed.

Lemma parent_proper : forall h root fs p pm, rep h root fs -> path_ok p -> length (show p) < pm ->
  ush_node_get_parent_by_path pm h root (show p) =
    Ok (match p with [] => None | _ => node_at (removelast p) fs end).
Proof.
  intros h root fs p pm R K L. destruct p as [|c q] using rev_ind; [reflexivity|]. clear IHq.
  rewrite removelast_last. replace (match q ++ [c] with [] => None | _ => node_at q fs end) with (node_at q fs) by (destruct q; reflexivity).
  pose proof R as ((Pk & _) & _). apply Forall_app in K as (Kq & Kc). inversion Kc as [|? ? [N1 [N2 N3]] _]; subst.
  rewrite show_slashed in * by (destruct q; discriminate). rewrite (parent_snoc h root fs); auto.
  - rewrite dir_named_show by auto. reflexivity.
  - apply no_nul_slashed. apply Forall_app. split; [apply path_ok_nul; auto|constructor; auto].
  - intros E. apply slashed_root in E. destruct q as [|? [|? ?]]; try discriminate. injection E as ->. congruence.
  - rewrite slashed_snoc, app_length in L. cbn [length] in L. destruct c as [|x c]; [congruence|]. cbn [length] in L.
    destruct q; cbn [show]; [cbn [length]; lia|]. lia.
Qed.

(** ** Frames *)
Lemma stands_frame : forall h h' fs d,
  nth_error h' (de_node d) = nth_error h (de_node d) ->
  (forall x, In x (children (de_path d) fs) -> option_map n_next (nth_error h' (de_node x)) = option_map n_next (nth_error h (de_node x))) ->
  stands h fs d -> stands h' fs d.
Proof.
  intros h h' fs d E F (nd & E1 & P & Fl & Pa & C). exists nd. rewrite E. repeat split; auto.
  eapply chain_frame; [|exact C]. intros i I. apply in_map_iff in I as (x & <- & I). auto.
Qed.

Lemma rep_frame : forall h h' root fs, (forall i, In i (map de_node fs) -> nth_error h' i = nth_error h i) -> rep h root fs -> rep h' root fs.
Proof.
  intros h h' root fs F (O & St & C). split; [exact O|]. split.
  - intros d I. eapply stands_frame; [apply F, in_map, I| |apply St, I].
    intros x Ix. apply children_in in Ix as (Ix & _). rewrite F by (apply in_map, Ix). reflexivity.
  - eapply chain_frame; [|exact C]. intros i I. destruct (node_at [] fs) as [r|] eqn:E; [|contradiction].
    destruct I as [<-|[]]. apply node_at_some in E as (d & I & _ & <-). rewrite F by (apply in_map, I). reflexivity.
Qed.

Lemma rep_groups_frame : forall h h' p gs, (forall i, In i (map fst gs) -> nth_error h' i = nth_error h i) -> rep_groups h p gs -> rep_groups h' p gs.
Proof.
  intros h h' p gs F (N & C & Fl). split; [exact N|]. split.
  - eapply chain_frame; [|exact C]. intros i I. rewrite F; auto.
  - intros i fl I. rewrite F; [auto|]. apply (in_map fst) in I. exact I.
Qed.

Lemma upd_nth : forall (h : list node) i x j, i < length h -> nth_error (upd h i x) j = if j =? i then Some x else nth_error h j.
Proof.
  intros h i x j L. destruct (Nat.eqb_spec j i) as [->|N]; [apply upd_nth_same; auto|apply upd_nth_other; auto].
Qed.

(** ** Adding a directory *)
Lemma no_child_of_unmounted : forall fs p, fs_ok fs -> dir_at p fs = None -> children p fs = [].
Proof.
  intros fs p (_ & _ & _ & Cl) H. destruct (children p fs) as [|d ds] eqn:E; [reflexivity|].
  assert (I : In d (children p fs)) by (rewrite E; left; auto). apply children_in in I as (I & N & <-).
  exfalso. apply dir_at_none in H. apply H. auto.
Qed.

Lemma dir_at_cons : forall x fs p, de_path x <> p -> dir_at p (x :: fs) = dir_at p fs.
Proof. intros x fs p N. unfold dir_at. cbn [find]. apply path_eqb_false in N. rewrite N. reflexivity. Qed.
Lemma node_at_cons : forall x fs p, de_path x <> p -> node_at p (x :: fs) = node_at p fs.
Proof. intros. unfold node_at. rewrite dir_at_cons; auto. Qed.

Lemma removelast_neq : forall p : dirpath, p <> [] -> removelast p <> p.
Proof. intros p N E. rewrite (snoc_form p N) in E at 2. apply (f_equal (@length _)) in E. rewrite app_length in E. cbn in E. lia. Qed.

Lemma fs_ok_cons : forall fs p id fl, fs_ok fs -> path_ok p -> dir_at p fs = None -> ~ In id (map de_node fs) ->
  (p <> [] -> dir_at (removelast p) fs <> None) -> fs_ok (mkDir p id fl :: fs).
Proof.
  intros fs p id fl (Pk & Np & Nn & Cl) K D N Pr. repeat split.
  - constructor; auto.
  - cbn [map]. constructor; auto. apply dir_at_none. exact D.
  - cbn [map]. constructor; auto.
  - intros d [<-|I] Nd; cbn [de_path map] in *; right; [|auto].
    specialize (Pr Nd). destruct (dir_at (removelast p) fs) as [x|] eqn:E; [|congruence]. apply dir_at_some in E as (E1 & <-). apply in_map, E1.
Qed.

Lemma rep_add : forall h h' root fs p id fl d pn nd, rep h root fs -> path_ok p -> p <> [] -> dir_at p fs = None ->
  In d fs -> de_path d = removelast p -> ~ In id (map de_node fs) ->
  nth_error h (de_node d) = Some pn ->
  nth_error h' id = Some nd -> n_path nd = Some (show p) -> n_files nd = fl -> n_parent nd = Some (de_node d) ->
  n_children nd = None -> n_next nd = n_children pn ->
  nth_error h' (de_node d) = Some (with_children (Some id) pn) ->
  (forall i, i <> id -> i <> de_node d -> nth_error h' i = nth_error h i) ->
  rep h' root (mkDir p id fl :: fs).
Proof.
  intros h h' root fs p id fl d pn nd R K Np Dp I Q Nid Ed Eid P1 P2 P3 P4 P5 Ed' F.
  pose proof R as (O & St & C). pose proof O as (Pk & N1 & N2 & Cl).
  assert (Dq : dir_at (removelast p) fs = Some d) by (rewrite <- Q; apply dir_at_in; auto).
  assert (F1 : forall i, In i (map de_node fs) -> option_map n_next (nth_error h' i) = option_map n_next (nth_error h i)).
  { intros i Ii. destruct (Nat.eq_dec i (de_node d)) as [->|Ni]; [rewrite Ed, Ed'; reflexivity|]. rewrite F; auto. congruence. }
  split; [|split].
  - apply fs_ok_cons; auto. congruence.
  - intros x [<-|Ix].
    + exists nd. cbn [de_node de_path de_files]. repeat split; auto.
      * destruct p as [|y p]; [congruence|]. rewrite node_at_cons.
        -- unfold node_at. rewrite Dq. exact P3.
        -- cbn [de_path]. intros X. symmetry in X. apply removelast_neq in X; auto.
      * unfold children. cbn [filter]. replace (below p (de_path (mkDir p id fl))) with false.
        -- fold (children p fs). rewrite no_child_of_unmounted by auto. exact P4.
        -- symmetry. destruct (below p _) eqn:B; [|reflexivity]. apply below_spec in B as (B1 & B2). cbn [de_path] in *. apply removelast_neq in B2; auto. contradiction.
    + destruct (St x Ix) as (ndx & Ex & X1 & X2 & X3 & X4).
      assert (Nx : de_node x <> id) by (intros X; apply Nid; rewrite <- X; apply in_map, Ix).
      assert (Par : match de_path x with [] => None | q => node_at (removelast q) (mkDir p id fl :: fs) end = n_parent ndx).
      { rewrite X3. destruct (de_path x) as [|y q] eqn:Y; [reflexivity|]. rewrite node_at_cons; [reflexivity|]. cbn [de_path].
        intros X. apply dir_at_none in Dp. apply Dp. rewrite X, <- Y. apply Cl; auto. congruence. }
      destruct (Nat.eq_dec (de_node x) (de_node d)) as [Xd|Xd].
      * assert (x = d) by (eapply node_inj; eauto). subst x. assert (ndx = pn) by congruence. subst ndx.
        exists (with_children (Some id) pn). cbn [with_children n_path n_files n_parent n_children]. rewrite Par. repeat split; auto.
        unfold children. cbn [filter]. replace (below (de_path d) (de_path (mkDir p id fl))) with true.
        2:{ symmetry. apply below_spec. cbn [de_path]. auto. }
        fold (children (de_path d) fs). cbn [map chain]. split; [reflexivity|]. exists nd. split; [exact Eid|]. rewrite P5.
        eapply chain_frame; [|exact X4]. intros i Ii. apply F1. apply in_map_iff in Ii as (y & <- & Iy). apply children_in in Iy as (Iy & _). apply in_map, Iy.
      * exists ndx. rewrite F by auto. rewrite Par. repeat split; auto.
        unfold children. cbn [filter]. replace (below (de_path x) (de_path (mkDir p id fl))) with false.
        -- fold (children (de_path x) fs). eapply chain_frame; [|exact X4]. intros i Ii. apply F1. apply in_map_iff in Ii as (y & <- & Iy). apply children_in in Iy as (Iy & _). apply in_map, Iy.
        -- symmetry. destruct (below _ _) eqn:B; [|reflexivity]. apply below_spec in B as (B1 & B2). cbn [de_path] in *. exfalso. apply Xd.
           assert (dir_at (de_path x) fs = Some x) by (apply dir_at_in; auto). congruence.
  - rewrite node_at_cons by (cbn [de_path]; auto). eapply chain_frame; [|exact C].
    intros i Ii. apply F1. destruct (node_at [] fs) as [r|] eqn:E; [|contradiction].
    destruct Ii as [<-|[]]. apply node_at_some in E as (y & Iy & _ & <-). apply in_map, Iy.
Qed.

Lemma no_root_empty : forall fs, fs_ok fs -> dir_at [] fs = None -> fs = [].
Proof.
  intros [|d fs] O H; [reflexivity|]. exfalso. pose proof O as (_ & Np & _).
  apply (firstn_mounted (d :: fs) (de_path d) 0 O).
  - rewrite (node_at_in _ d); [discriminate|auto|left; auto].
  - cbn [firstn]. unfold node_at. rewrite H. reflexivity.
Qed.

Lemma rep_add_root : forall h' id fl nd, nth_error h' id = Some nd -> n_path nd = Some [SL] -> n_files nd = fl ->
  n_parent nd = None -> n_children nd = None -> n_next nd = None ->
  rep h' (Some id) [mkDir [] id fl].
Proof.
  intros h' id fl nd E P1 P2 P3 P4 P5. split; [|split].
  - repeat split; cbn [map de_path de_node]; try (constructor; [intros []|constructor]).
    + constructor; constructor.
    + intros d [<-|[]] N. cbn [de_path] in N. congruence.
  - intros d [<-|[]]. exists nd. repeat split; auto.
  - change (node_at [] [mkDir [] id fl]) with (Some id). cbn [chain]. split; [reflexivity|]. exists nd. auto.
Qed.

(** ** Removing a directory *)
Lemma remove_children : forall p fs, children p fs = [] -> forall r, r <> removelast p \/ p = [] ->
  children r (fs_remove p fs) = children r fs.
Proof.
  intros p fs H r N. unfold children, fs_remove. clear H. induction fs as [|x fs IH]; [reflexivity|].
  cbn [filter]. destruct (path_eqb (de_path x) p) eqn:E; cbn [negb].
  - apply path_eqb_true in E. destruct (below r (de_path x)) eqn:B; [|exact IH].
    apply below_spec in B as (B1 & B2). rewrite E in *. destruct N; congruence.
  - cbn [filter]. destruct (below r (de_path x)); rewrite IH; reflexivity.
Qed.

Lemma remove_in : forall p fs d, In d (fs_remove p fs) <-> In d fs /\ de_path d <> p.
Proof.
  intros. unfold fs_remove. rewrite filter_In. destruct (path_eqb (de_path d) p) eqn:E; cbn [negb].
  - apply path_eqb_true in E. split; [intros [_ X]; discriminate|tauto].
  - apply path_eqb_false in E. tauto.
Qed.

Lemma dir_at_remove : forall p fs q, p <> q -> dir_at q (fs_remove p fs) = dir_at q fs.
Proof.
  intros p fs q N. unfold dir_at, fs_remove. apply find_filter. intros x _ E. apply path_eqb_true in E. subst q.
  apply not_eq_sym, path_eqb_false in N. rewrite N. reflexivity.
Qed.
Lemma dir_at_removed : forall p fs, dir_at p (fs_remove p fs) = None.
Proof.
  intros. apply dir_at_none. intros I. apply in_map_iff in I as (d & E & I). apply remove_in in I as (_ & N). congruence.
Qed.
Lemma node_at_remove : forall p fs q, p <> q -> node_at q (fs_remove p fs) = node_at q fs.
Proof. intros. unfold node_at. rewrite dir_at_remove; auto. Qed.

Lemma fs_ok_remove : forall p fs, fs_ok fs -> children p fs = [] -> fs_ok (fs_remove p fs).
Proof.
  intros p fs (Pk & Np & Nn & Cl) H. repeat split.
  - rewrite Forall_forall in *. intros d I. apply remove_in in I as (I & _). auto.
  - apply NoDup_map_filter; auto.
  - apply NoDup_map_filter; auto.
  - intros d I N. apply remove_in in I as (I & Nd). specialize (Cl d I N). apply in_map_iff in Cl as (x & E & Ix).
    apply in_map_iff. exists x. split; [exact E|]. apply remove_in. split; [exact Ix|]. intros X.
    assert (In d (children p fs)) by (apply children_in; repeat split; auto; congruence). rewrite H in H0. contradiction.
Qed.

Lemma rep_remove : forall h h' root fs p d dp, rep h root fs -> In d fs -> de_path d = p -> p <> [] -> children p fs = [] ->
  In dp fs -> de_path dp = removelast p ->
  (forall i nd, nth_error h i = Some nd -> exists nd', nth_error h' i = Some nd' /\
     n_path nd' = n_path nd /\ n_files nd' = n_files nd /\ n_parent nd' = n_parent nd /\
     (i <> de_node dp -> n_children nd' = n_children nd) /\
     (~ In i (map de_node (children (removelast p) fs)) -> n_next nd' = n_next nd)) ->
  (forall nd', nth_error h' (de_node dp) = Some nd' -> chain h' (n_children nd') (map de_node (children (removelast p) (fs_remove p fs)))) ->
  rep h' root (fs_remove p fs).
Proof.
  intros h h' root fs p d dp R I Q Np Hc Ip Qp F C. pose proof R as (O & St & Cr). pose proof O as (Pk & N1 & N2 & Cl).
  split; [apply fs_ok_remove; auto|]. split.
  - intros x Ix. apply remove_in in Ix as (Ix & Nx). destruct (St x Ix) as (nd & E & X1 & X2 & X3 & X4).
    destruct (F _ _ E) as (nd' & E' & Y1 & Y2 & Y3 & Y4 & Y5). exists nd'. rewrite Y1, Y2, Y3. repeat split; auto.
    + rewrite X3. destruct (de_path x) as [|y q] eqn:Y; [reflexivity|]. symmetry. apply node_at_remove. intros X.
      assert (In x (children p fs)) by (apply children_in; rewrite Y; repeat split; auto; discriminate). rewrite Hc in H. contradiction.
    + destruct (path_dec (de_path x) (removelast p)) as [X|X].
      * assert (x = dp). { assert (dir_at (de_path x) fs = Some x) by (apply dir_at_in; auto). assert (dir_at (de_path dp) fs = Some dp) by (apply dir_at_in; auto). congruence. }
        subst x. rewrite Qp. apply C. exact E'.
      * rewrite remove_children by auto. rewrite Y4.
        -- eapply chain_frame; [|exact X4]. intros i Ii. apply in_map_iff in Ii as (y & <- & Iy). pose proof Iy as Iy'. apply children_in in Iy as (Iy & B1 & B2).
           destruct (St y Iy) as (ny & Ey & _). rewrite Ey. destruct (F _ _ Ey) as (ny' & Ey' & _ & _ & _ & _ & Z). rewrite Ey'. cbn [option_map]. f_equal. apply Z.
           intros Z2. apply in_map_iff in Z2 as (z & Ez & Iz). apply children_in in Iz as (Iz & B3 & B4).
           assert (z = y) by (eapply node_inj; eauto). subst z. congruence.
        -- intros Z. apply X. assert (x = dp) by (eapply node_inj; eauto). congruence.
  - rewrite node_at_remove by auto. eapply chain_frame; [|exact Cr]. intros i Ii. destruct (node_at [] fs) as [r|] eqn:E; [|contradiction].
    destruct Ii as [<-|[]]. apply node_at_some in E as (y & Iy & Yp & <-). destruct (St y Iy) as (ny & Ey & _). rewrite Ey.
    destruct (F _ _ Ey) as (ny' & Ey' & _ & _ & _ & _ & Z). rewrite Ey'. cbn [option_map]. f_equal. apply Z.
    intros Z2. apply in_map_iff in Z2 as (z & Ez & Iz). apply children_in in Iz as (Iz & B3 & B4).
    assert (z = y) by (eapply node_inj; eauto). subst z. congruence.
Qed.

(** ** The search with a predecessor *)
Lemma find_prev_none : forall h ids fuel id prev p, chain h p ids -> length ids < fuel -> ~ In id ids ->
  find_prev fuel h id prev p = Ok None.
Proof.
  induction ids as [|i ids IH]; intros fuel id prev p C L N.
  - cbn in C. subst. destruct fuel; [lia|reflexivity].
  - destruct C as (-> & nd & E & C). destruct fuel as [|fuel]; [cbn [length] in L; lia|]. cbn [length] in L. cbn [find_prev].
    destruct (Nat.eqb_spec i id) as [->|Ni]; [exfalso; apply N; left; auto|]. rewrite (getn_ok _ _ _ E). cbn [bind].
    apply IH; auto; [lia|]. intros X; apply N; right; auto.
Qed.

Lemma find_prev_some : forall h a b fuel id prev p, chain h p (a ++ id :: b) -> length a < fuel -> ~ In id a ->
  find_prev fuel h id prev p = Ok (Some (last (map Some a) prev)).
Proof.
  intros h a b. induction a as [|i a IH]; intros fuel id prev p C L N.
  - cbn [app] in C. destruct C as (-> & nd & E & C). destruct fuel as [|fuel]; [cbn in L; lia|]. cbn [find_prev]. rewrite Nat.eqb_refl. reflexivity.
  - cbn [app] in C. destruct C as (-> & nd & E & C). destruct fuel as [|fuel]; [cbn [length] in L; lia|]. cbn [length] in L. cbn [find_prev].
    destruct (Nat.eqb_spec i id) as [->|Ni]; [exfalso; apply N; left; auto|]. rewrite (getn_ok _ _ _ E). cbn [bind].
    rewrite (IH fuel id (Some i)); auto; [|lia|intros X; apply N; right; auto].
    destruct a; [reflexivity|]. cbn [map last]. do 2 f_equal. clear. revert n. induction a as [|y a IHa]; intros n; [reflexivity|]. cbn [map last] in *. apply IHa.
Qed.
