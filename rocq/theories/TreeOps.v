(** * TreeOps: each call acts on the node objects as on the abstract tree. *)
From Coq Require Import Arith.
From Verif Require Import Node Spec BaseFacts PathFacts CollapseFacts Tree TreeFacts.

Lemma nth_lt : forall (h : list node) i nd, nth_error h i = Some nd -> i < length h.
Proof. intros h i nd E. apply nth_error_Some. congruence. Qed.

Lemma knows_free : forall own s w i, knows own s w -> In i own -> ~ used w i ->
  exists nd, nth_error (hp s) i = Some nd /\ n_children nd = None.
Proof.
  intros own s w i (_ & _ & _ & _ & K & _) I U. destruct (K i I) as (nd & E & C). exists nd. split; [exact E|]. apply C.
  intros X. apply U. left. exact X.
Qed.

(** Changing an unused object of [own] that keeps no children. *)
Lemma knows_upd : forall own s w i nd, knows own s w -> In i own -> ~ used w i -> n_children nd = None ->
  knows own (set_hp (upd (hp s) i nd) s) w.
Proof.
  intros own s w i nd K I U C. destruct (knows_free own s w i K I U) as (n0 & E0 & _). pose proof (nth_lt _ _ _ E0) as L.
  destruct K as (R & G & D & O & F & W). unfold knows. change (hp (set_hp (upd (hp s) i nd) s)) with (upd (hp s) i nd).
  change (o_root (set_hp _ s)) with (o_root s). change (o_cmds (set_hp _ s)) with (o_cmds s). change (o_cur (set_hp _ s)) with (o_cur s).
  split; [|split; [|split; [|split; [|split]]]]; auto.
  - eapply rep_frame; [|exact R]. intros j J. apply upd_nth_other. intros ->. apply U. left. exact J.
  - eapply rep_groups_frame; [|exact G]. intros j J. apply upd_nth_other. intros ->. apply U. right. exact J.
  - intros j J. rewrite upd_nth by exact L. destruct (Nat.eqb_spec j i) as [->|N]; [exists nd; auto|apply F; auto].
Qed.

Lemma upd_upd_same : forall (A : Type) (h : list A) i x y, upd (upd h i x) i y = upd h i y.
Proof.
  induction h as [|a h IH]; intros [|i] x y; cbn [upd]; try reflexivity. f_equal. apply IH.
Qed.

Lemma only_tree_refl : forall own s, only_tree own s s.
Proof. intros own s. split; [destruct s; reflexivity|]. split; auto. Qed.

Lemma upd_len : forall (h : list node) i x, length (upd h i x) = length h.
Proof. intros. apply upd_length. Qed.

Lemma fs_mount_below : forall p id fl fs, p <> [] -> dir_at p fs = None ->
  fs_mount p id fl fs = match dir_at (removelast p) fs with
                        | Some _ => (ST_OK, mkDir p id fl :: fs)
                        | None => (ST_NODE_WITHOUT_PARENT, fs) end.
Proof. intros p id fl fs N D. unfold fs_mount. rewrite D. destruct p; [congruence|reflexivity]. Qed.

Section Mount.
Variables (own : list nat) (s : st) (w : world) (p : dirpath) (id : nat) (fl : list file).
Hypothesis K : knows own s w.
Hypothesis P : path_ok p.
Hypothesis L : length (show p) < d_pathmax (o_desc s).
Hypothesis I : In id own.
Hypothesis U : ~ used w id.

Lemma mount_step : exists s', ush_node_mount (show p) id fl s = Ok (fst (spec_op (TMount p id fl) w), s') /\
  knows own s' (snd (spec_op (TMount p id fl) w)) /\ only_tree own s s'.
Proof.
  unfold ush_node_mount. destruct (knows_free own s w id K I U) as (nd & E & C). pose proof (nth_lt _ _ _ E) as Lid.
  rewrite (getn_ok _ _ _ E). cbn [bind]. rewrite (setn_ok _ _ _ _ E). cbn [bind].
  set (nd1 := with_mount fl (Some (show p)) nd). set (h1 := upd (hp s) id nd1).
  change (o_root (set_hp h1 s)) with (o_root s).
  assert (K1 : knows own (set_hp h1 s) w) by (apply knows_upd; auto).
  pose proof K1 as (R & G & D & O & F & W). change (hp (set_hp h1 s)) with h1 in *. change (o_root (set_hp h1 s)) with (o_root s) in *.
  change (o_cmds (set_hp h1 s)) with (o_cmds s) in *. change (o_cur (set_hp h1 s)) with (o_cur s) in *.
  pose proof R as (Fo & St & Cr). pose proof Fo as (Pk & Np & Nn & Cl).
  assert (E1 : nth_error h1 id = Some nd1) by (unfold h1; apply upd_nth_same; exact Lid).
  assert (Lh : length h1 = length (hp s)) by (unfold h1; apply upd_len).
  assert (OT1 : only_tree own s (set_hp h1 s)).
  { split; [destruct s; reflexivity|]. split; [exact Lh|]. intros i Ni. unfold h1. apply upd_nth_other. congruence. }
  rewrite (get_by_path_text h1 (o_root s) (w_fs w)) by (auto; apply show_no_nul; auto).
  cbn [bind]. rewrite dir_named_show by auto. unfold spec_op.
  destruct (dir_at p (w_fs w)) as [d0|] eqn:Dp; cbn [option_map].
  { unfold fs_mount. rewrite Dp. eexists. split; [reflexivity|]. cbn [fst snd is_status_ok]. split; [|exact OT1].
    replace (match p with [] => w_cwd w | _ :: _ => w_cwd w end) with (w_cwd w) by (destruct p; reflexivity). destruct w; exact K1. }
  rewrite (parent_proper h1 (o_root s) (w_fs w)) by auto. cbn [bind].
  destruct (list_eq_dec (list_eq_dec Ascii.ascii_dec) p []) as [Ep|Ep].
  - subst p. unfold fs_mount. rewrite Dp. cbn [show] in *. change (beq [SL] (lit "/")) with true. cbn [bind].
    rewrite (getn_ok _ _ _ E1). cbn [bind]. rewrite (setn_ok _ _ _ _ E1). cbn [bind fst snd is_status_ok].
    eexists. split; [reflexivity|].
    set (nd2 := with_parent None (with_next None nd1)). set (h2 := upd h1 id nd2).
    assert (E2 : nth_error h2 id = Some nd2) by (unfold h2; apply upd_nth_same; lia).
    pose proof (no_root_empty (w_fs w) Fo Dp) as E0. rewrite E0. split.
    + split; [|split; [|split; [|split; [|split]]]]; cbn [w_fs w_groups w_cwd].
      * apply (rep_add_root h2 id fl nd2); auto.
      * change (rep_groups h2 (o_cmds s) (w_groups w)). eapply rep_groups_frame; [|exact G]. intros j J. unfold h2. apply upd_nth_other. intros ->. apply U. right; exact J.
      * intros i [<-|[]]. cbn [de_node]. intros X. apply U. right; exact X.
      * intros i [[<-|[]]|J]; [exact I|]. apply O. right; exact J.
      * intros i J. change (hp (set_hp h2 _)) with h2. destruct (Nat.eq_dec i id) as [->|Ni].
        -- exists nd2. split; [exact E2|]. intros _. exact C.
        -- destruct (F i J) as (ni & Ei & Ci). exists ni. unfold h2. rewrite upd_nth_other by auto. split; [exact Ei|]. intros _. apply Ci. rewrite E0. intros [].
      * exists (mkDir [] id fl). split; reflexivity.
    + split; [destruct s; reflexivity|]. split; [change (length h2 = length (hp s)); unfold h2; rewrite upd_len; exact Lh|].
      intros i Ni. change (nth_error h2 i = nth_error (hp s) i). unfold h2, h1. rewrite !upd_nth_other by congruence. reflexivity.
  - replace (match p with [] => None | _ => node_at (removelast p) (w_fs w) end) with (node_at (removelast p) (w_fs w)) by (destruct p; [congruence|reflexivity]).
    rewrite fs_mount_below by auto.
    unfold node_at. destruct (dir_at (removelast p) (w_fs w)) as [d|] eqn:Dq; cbn [option_map].
    + apply dir_at_some in Dq as (Id & Qd). destruct (St d Id) as (pn & Epn & X1 & X2 & X3 & X4).
      assert (Nd : de_node d <> id) by (intros X; apply U; left; rewrite <- X; apply in_map, Id).
      rewrite (getn_ok _ _ _ Epn). cbn [bind]. rewrite (getn_ok _ _ _ E1). cbn [bind]. rewrite (setn_ok _ _ _ _ E1). cbn [bind].
      set (h2 := upd h1 id (with_next (n_children pn) nd1)).
      assert (E2 : nth_error h2 id = Some (with_next (n_children pn) nd1)) by (unfold h2; apply upd_nth_same; lia).
      assert (P2 : nth_error h2 (de_node d) = Some pn) by (unfold h2; rewrite upd_nth_other; auto).
      rewrite (getn_ok _ _ _ P2). cbn [bind]. rewrite (setn_ok _ _ _ _ P2). cbn [bind].
      set (h3 := upd h2 (de_node d) (with_children (Some id) pn)).
      assert (E3 : nth_error h3 id = Some (with_next (n_children pn) nd1)) by (unfold h3; rewrite upd_nth_other; auto).
      rewrite (getn_ok _ _ _ E3). cbn [bind]. rewrite (setn_ok _ _ _ _ E3). cbn [bind fst snd is_status_ok].
      set (nd4 := with_parent (Some (de_node d)) (with_next (n_children pn) nd1)). set (h4 := upd h3 id nd4).
      assert (L2 : length h2 = length (hp s)) by (unfold h2; rewrite upd_len; exact Lh).
      assert (L3 : length h3 = length (hp s)) by (unfold h3; rewrite upd_len; exact L2).
      assert (E4 : nth_error h4 id = Some nd4) by (unfold h4; apply upd_nth_same; lia).
      assert (P4 : nth_error h4 (de_node d) = Some (with_children (Some id) pn)).
      { unfold h4. rewrite upd_nth_other by auto. unfold h3. apply upd_nth_same. apply nth_lt in P2. exact P2. }
      assert (F4 : forall i, i <> id -> i <> de_node d -> nth_error h4 i = nth_error h1 i).
      { intros i N1 N2. unfold h4, h3, h2. rewrite !upd_nth_other; auto. }
      eexists. split; [reflexivity|]. split.
      * split; [|split; [|split; [|split; [|split]]]]; cbn [w_fs w_groups w_cwd].
        -- eapply (rep_add h1 h4 (o_root s) (w_fs w) p id fl d pn nd4); eauto. intros X. apply U. left; exact X.
        -- change (rep_groups h4 (o_cmds s) (w_groups w)). eapply rep_groups_frame; [|exact G]. intros j J. apply F4.
           ++ intros ->. apply U. right; exact J.
           ++ intros ->. apply (D (de_node d)); auto. apply in_map, Id.
        -- intros i [<-|J]; [intros X; apply U; right; exact X|apply D; exact J].
        -- intros i [[<-|J]|J]; [exact I| |]; apply O; [left|right]; exact J.
        -- intros i J. change (hp (set_hp h4 _)) with h4. destruct (Nat.eq_dec i id) as [->|Ni].
           ++ exists nd4. split; [exact E4|]. intros _. exact C.
           ++ destruct (Nat.eq_dec i (de_node d)) as [->|Nid].
              ** exists (with_children (Some id) pn). split; [exact P4|]. intros X. exfalso. apply X. right. apply in_map, Id.
              ** destruct (F i J) as (ni & Ei & Ci). exists ni. rewrite F4 by auto. split; [exact Ei|]. intros X. apply Ci. intros Y. apply X. right. exact Y.
        -- assert (EW : forall x : option dirpath, match p with [] => x | _ :: _ => w_cwd w end = w_cwd w) by (intros; destruct p; [congruence|reflexivity]).
           rewrite EW. clear EW. destruct (w_cwd w) as [q|]; [|exact Logic.I]. destruct W as (x & Dx & Ec). exists x. split; [|exact Ec].
           rewrite dir_at_cons; [exact Dx|]. cbn [de_path]. intros ->. congruence.
      * split; [destruct s; reflexivity|]. split; [change (length h4 = length (hp s)); unfold h4; rewrite upd_len; exact L3|].
        intros i Ni. change (nth_error h4 i = nth_error (hp s) i). rewrite F4.
        -- unfold h1. rewrite upd_nth_other by congruence. reflexivity.
        -- congruence.
        -- intros ->. apply Ni, O. left. apply in_map, Id.
    + replace (beq (show p) (lit "/")) with false.
      2:{ symmetry. apply beq_neq. change (lit "/") with (show []). intros X. apply Ep. apply show_inj; auto. constructor. }
      eexists. split; [reflexivity|]. cbn [fst snd is_status_ok]. split; [|exact OT1].
      replace (match p with [] => w_cwd w | _ :: _ => w_cwd w end) with (w_cwd w) by (destruct p; reflexivity). destruct w; exact K1.
Qed.
End Mount.

Lemma dir_named_some : forall t fs d, fs_ok fs -> dir_named t fs = Some d -> In d fs /\ dir_at (de_path d) fs = Some d /\ (t = show (de_path d) \/ t = [] /\ de_path d = []).
Proof.
  intros t fs d (_ & Np & _) H. unfold dir_named in H. destruct t as [|x t].
  - apply dir_at_some in H as (H1 & H2). split; [exact H1|]. split; [apply dir_at_in; auto|]. auto.
  - apply find_some in H as (H1 & H2). apply beq_true in H2. split; [exact H1|]. split; [apply dir_at_in; auto|]. auto.
Qed.

Lemma in_split_nodup : forall (A : Type) (f : A -> nat) l x, In x l -> NoDup (map f l) ->
  exists a b, l = a ++ x :: b /\ ~ In (f x) (map f a) /\ ~ In (f x) (map f b).
Proof.
  intros A f l x I N. apply in_split in I as (a & b & ->). exists a, b. split; [reflexivity|].
  rewrite map_app in N. cbn [map] in N. apply NoDup_remove_2 in N. split; intros X; apply N; apply in_or_app; auto.
Qed.

Lemma last_some : forall (l : list nat) x, last (map Some (l ++ [x])) None = Some x.
Proof. intros. rewrite map_app. cbn [map]. apply last_last. Qed.

Lemma unmount_step : forall own s w t, knows own s w -> ~ In NUL t -> length t < d_pathmax (o_desc s) ->
  exists s', ush_node_unmount t s = Ok (fst (spec_op (TUnmount t) w), s') /\
    knows own s' (snd (spec_op (TUnmount t) w)) /\ only_tree own s s'.
Proof.
  intros own s w t K N L. pose proof K as (R & G & D & O & F & W). pose proof R as (Fo & St & Cr). pose proof Fo as (Pk & Np & Nn & Cl).
  unfold ush_node_unmount.
  destruct (parent_any (hp s) (o_root s) (w_fs w) t _ R N L) as (par & Epar). rewrite Epar. cbn [bind].
  rewrite (get_by_path_text (hp s) (o_root s) (w_fs w)) by auto. cbn [bind]. unfold spec_op.
  destruct (dir_named t (w_fs w)) as [d|] eqn:Dt; cbn [option_map].
  2:{ eexists. split; [reflexivity|]. split; [exact K|apply only_tree_refl]. }
  pose proof (dir_named_some _ _ _ Fo Dt) as (Id & Dd & Tt). assert (Kd : path_ok (de_path d)) by (rewrite Forall_forall in Pk; auto).
  destruct (St d Id) as (nd & E & X1 & X2 & X3 & X4).
  assert (Ep : par = match de_path d with [] => None | q => node_at (removelast q) (w_fs w) end).
  { destruct Tt as [->|(-> & ->)].
    - rewrite (parent_proper (hp s) (o_root s) (w_fs w)) in Epar by auto. injection Epar as <-. destruct (de_path d); reflexivity.
    - cbn in Epar. congruence. }
  assert (Is : (match o_root s with Some r => de_node d =? r | None => false end) = path_eqb (de_path d) []).
  { rewrite (rep_root _ _ _ R). unfold node_at. destruct (path_eqb (de_path d) []) eqn:B.
    - apply path_eqb_true in B. rewrite <- B, Dd. cbn [option_map]. apply Nat.eqb_refl.
    - apply path_eqb_false in B. destruct (dir_at [] (w_fs w)) as [r|] eqn:Er; cbn [option_map]; [|reflexivity].
      apply dir_at_some in Er as (Ir & Qr). apply Nat.eqb_neq. intros X. apply B. assert (d = r) by (eapply node_inj; eauto). congruence. }
  rewrite Is.
  assert (Par : path_eqb (de_path d) [] = true /\ par = None /\ de_path d = [] \/
                path_eqb (de_path d) [] = false /\ de_path d <> [] /\ exists dp, In dp (w_fs w) /\ de_path dp = removelast (de_path d) /\ par = Some (de_node dp)).
  { destruct (list_eq_dec (list_eq_dec Ascii.ascii_dec) (de_path d) []) as [Z|Z].
    - left. rewrite Ep, Z. repeat split; auto.
    - right. split; [apply path_eqb_false; auto|]. split; [exact Z|]. pose proof (Cl d Id Z) as Ci. apply in_map_iff in Ci as (dp & Qp & Ip). exists dp. repeat split; auto.
      rewrite Ep. destruct (de_path d); [congruence|]. rewrite <- Qp. apply node_at_in; auto. }
  unfold fs_unmount. rewrite Dd. rewrite (getn_ok _ _ _ E). cbn [bind].
  destruct (children (de_path d) (w_fs w)) as [|ch chs] eqn:Ech.
  2:{ cbn [map chain] in X4. destruct X4 as (-> & _). 
      replace (negb (path_eqb (de_path d) []) && match par with Some _ => false | None => true end) with false
        by (destruct Par as [(-> & _)|(-> & _ & dp & _ & _ & ->)]; reflexivity).
      eexists. split; [reflexivity|]. cbn [fst snd is_status_ok andb]. split; [|apply only_tree_refl].
      replace (match w_cwd w with Some p => Some p | None => None end) with (w_cwd w) by (destruct (w_cwd w); reflexivity). destruct w; exact K. }
  cbn [map chain] in X4. rewrite X4. cbn [fst snd is_status_ok andb].
  assert (CW : forall h' root', match match w_cwd w with Some p => if path_eqb p (de_path d) then None else Some p | None => None end with
      | Some p => exists d0, dir_at p (fs_remove (de_path d) (w_fs w)) = Some d0 /\ o_cur (set_hp h' (set_root root' s)) = Some (de_node d0)
      | None => True end).
  { intros h' root'. destruct (w_cwd w) as [q|]; [|exact Logic.I]. destruct (path_eqb q (de_path d)) eqn:B; [exact Logic.I|].
    apply path_eqb_false in B. destruct W as (x & Dx & Ec). exists x. split; [|exact Ec]. rewrite dir_at_remove; auto. }
  assert (Inr : forall i, In i (map de_node (fs_remove (de_path d) (w_fs w))) -> In i (map de_node (w_fs w))).
  { intros i J. apply in_map_iff in J as (x & <- & J). apply remove_in in J as (J & _). apply in_map, J. }
  assert (Notin : forall i, In i (map de_node (w_fs w)) -> ~ In i (map de_node (fs_remove (de_path d) (w_fs w))) -> i = de_node d).
  { intros i J NJ. apply in_map_iff in J as (x & <- & J). destruct (path_dec (de_path x) (de_path d)) as [Z|Z].
    - f_equal. assert (dir_at (de_path x) (w_fs w) = Some x) by (apply dir_at_in; auto). congruence.
    - exfalso. apply NJ. apply in_map. apply remove_in. auto. }
  destruct Par as [(-> & -> & Q)|(-> & Q & dp & Ip & Qp & ->)]; cbn [negb andb].
  - (* the root *)
    eexists. split; [reflexivity|]. 
    assert (Emp : fs_remove (de_path d) (w_fs w) = []).
    { apply no_root_empty; [apply fs_ok_remove; auto|]. rewrite Q. apply dir_at_removed. }
    split.
    + rewrite Emp in *. split; [|split; [|split; [|split; [|split]]]]; cbn [w_fs w_groups w_cwd].
      * repeat split; try constructor; cbn; tauto.
      * exact G.
      * intros i [].
      * intros i [[]|J]. apply O. right; exact J.
      * intros i J. destruct (F i J) as (ni & Ei & Ci). exists ni. split; [exact Ei|]. intros _.
        destruct (in_dec Nat.eq_dec i (map de_node (w_fs w))) as [Z|Z]; [|auto].
        rewrite (Notin i Z) in Ei by (intros []). congruence.
      * apply (CW (hp s) None).
    + split; [destruct s; reflexivity|]. auto.
  - (* below a parent *)
    destruct (St dp Ip) as (pn & Epn & Y1 & Y2 & Y3 & Y4). rewrite (getn_ok _ _ _ Epn). cbn [bind]. rewrite Qp in Y4.
    assert (Ic : In d (children (removelast (de_path d)) (w_fs w))) by (apply children_in; auto).
    destruct (children_nodup (removelast (de_path d)) (w_fs w) Fo) as (Nc & Ncp).
    destruct (in_split_nodup _ de_node _ d Ic Nc) as (a & b & Eab & Na & Nb).
    assert (Len : length (map de_node (children (removelast (de_path d)) (w_fs w))) <= length (hp s)) by (eapply chain_length; eauto).
    rewrite Eab, map_app in Y4, Nc, Len. cbn [map] in Y4, Nc, Len. rewrite app_length in Len. cbn [length] in Len.
    rewrite (find_prev_some (hp s) (map de_node a) (map de_node b)); auto; [|lia]. cbn [bind].
    assert (Rab : children (removelast (de_path d)) (fs_remove (de_path d) (w_fs w)) = a ++ b).
    { unfold children, fs_remove in *.
      assert (Z : forall l, filter (fun x => below (removelast (de_path d)) (de_path x)) (filter (fun x => negb (path_eqb (de_path x) (de_path d))) l)
                 = filter (fun x => negb (path_eqb (de_path x) (de_path d))) (filter (fun x => below (removelast (de_path d)) (de_path x)) l)).
      { induction l as [|x l IH]; [reflexivity|]. cbn [filter]. destruct (negb _) eqn:Z1, (below _ _) eqn:Z2; cbn [filter]; rewrite ?Z1, ?Z2, ?IH; reflexivity. }
      rewrite Z, Eab.
      assert (Z2 : forall l, ~ In (de_path d) (map de_path l) -> filter (fun x => negb (path_eqb (de_path x) (de_path d))) l = l).
      { induction l as [|x l IH]; intros NI; [reflexivity|]. cbn [filter]. replace (path_eqb (de_path x) (de_path d)) with false.
        - cbn [negb]. f_equal. apply IH. intros Y; apply NI; right; exact Y.
        - symmetry. apply path_eqb_false. intros Y. apply NI. left. exact Y. }
      rewrite filter_app. cbn [filter]. rewrite path_eqb_refl. cbn [negb].
      rewrite Eab, map_app in Ncp. cbn [map] in Ncp. apply NoDup_remove_2 in Ncp.
      rewrite !Z2; auto; intros Y; apply Ncp; apply in_or_app; auto. }
    assert (Fin : forall h', length h' = length (hp s) ->
      (forall i ni, nth_error (hp s) i = Some ni -> exists ni', nth_error h' i = Some ni' /\
         n_path ni' = n_path ni /\ n_files ni' = n_files ni /\ n_parent ni' = n_parent ni /\
         (i <> de_node dp -> n_children ni' = n_children ni) /\
         (~ In i (map de_node (children (removelast (de_path d)) (w_fs w))) -> n_next ni' = n_next ni)) ->
      (forall nd', nth_error h' (de_node dp) = Some nd' -> chain h' (n_children nd') (map de_node (a ++ b))) ->
      (forall i, ~ In i (map de_node (w_fs w)) -> nth_error h' i = nth_error (hp s) i) ->
      knows own (set_hp h' s) (mkWorld (fs_remove (de_path d) (w_fs w)) (w_groups w)
        (match w_cwd w with Some p => if path_eqb p (de_path d) then None else Some p | None => None end)) /\ only_tree own s (set_hp h' s)).
    { intros h' Lh Fh Ch Oh. split.
      - split; [|split; [|split; [|split; [|split]]]]; cbn [w_fs w_groups w_cwd].
        + eapply (rep_remove (hp s) h' (o_root s) (w_fs w) (de_path d) d dp); eauto. rewrite Rab. exact Ch.
        + change (rep_groups h' (o_cmds s) (w_groups w)). eapply rep_groups_frame; [|exact G]. intros j J. apply Oh. intros Z. apply (D j); auto.
        + intros i J. apply D. auto.
        + intros i [J|J]; apply O; [left; auto|right; exact J].
        + intros i J. destruct (F i J) as (ni & Ei & Ci). destruct (Fh i ni Ei) as (ni' & Ei' & _ & _ & _ & Z4 & _). exists ni'. split; [exact Ei'|]. intros NJ.
          destruct (in_dec Nat.eq_dec i (map de_node (w_fs w))) as [Z|Z].
          * pose proof (Notin i Z NJ) as ->. rewrite Z4; [congruence|]. intros Y.
            assert (d = dp) by (eapply node_inj; eauto). subst dp. symmetry in Qp. apply removelast_neq in Qp; auto.
          * rewrite Z4; [auto|]. intros ->. apply Z. apply in_map, Ip.
        + apply (CW h' (o_root s)).
      - split; [destruct s; reflexivity|]. split; [exact Lh|]. intros i Ni. apply Oh. intros Z. apply Ni, O. left; exact Z. }
    destruct a as [|q a _] using rev_ind.
    + cbn [map app last] in *. rewrite (setn_ok _ _ _ _ Epn). cbn [bind]. eexists. split; [reflexivity|].
      pose proof (nth_lt _ _ _ Epn) as Lp. apply Fin.
      * apply upd_len.
      * intros i ni Ei. rewrite upd_nth by auto. destruct (Nat.eqb_spec i (de_node dp)) as [->|Ni].
        -- assert (ni = pn) by congruence. subst ni. exists (with_children (n_next nd) pn). repeat split; auto. congruence.
        -- exists ni. repeat split; auto.
      * intros nd' End'. rewrite upd_nth_same in End' by auto. injection End' as <-. cbn [with_children n_children].
        pose proof (chain_remove_first _ _ _ _ nd Y4 E) as Y5. eapply chain_frame; [|exact Y5]. intros i Ii. rewrite upd_nth by auto.
        destruct (Nat.eqb_spec i (de_node dp)) as [->|Ni]; [rewrite Epn; reflexivity|reflexivity].
      * intros i Ni. apply upd_nth_other. intros <-. apply Ni. apply in_map, Ip.
    + rewrite map_app. cbn [map]. rewrite last_some.
      rewrite map_app in Y4, Nc, Na. cbn [map] in Y4, Nc, Na. rewrite <- app_assoc in Y4, Nc. cbn [app] in Y4, Nc.
      assert (Iq : In q (w_fs w)).
      { assert (X : In q (children (removelast (de_path d)) (w_fs w))) by (rewrite Eab; apply in_or_app; left; apply in_or_app; right; left; reflexivity).
        apply children_in in X as (X & _). exact X. }
      destruct (St q Iq) as (qn & Eqn & _). rewrite (getn_ok _ _ _ Eqn). cbn [bind]. rewrite (setn_ok _ _ _ _ Eqn). cbn [bind].
      pose proof (nth_lt _ _ _ Eqn) as Lq. eexists. split; [reflexivity|]. apply Fin.
      * apply upd_len.
      * intros i ni Ei. rewrite upd_nth by auto. destruct (Nat.eqb_spec i (de_node q)) as [->|Ni].
        -- assert (ni = qn) by congruence. subst ni. exists (with_next (n_next nd) qn). repeat split; auto. intros Z. exfalso. apply Z. rewrite Eab, !map_app. apply in_or_app. left. apply in_or_app. right. left. reflexivity.
        -- exists ni. repeat split; auto.
      * intros nd' End'. rewrite !map_app. cbn [map]. rewrite <- app_assoc. cbn [app].
        replace (n_children nd') with (n_children pn).
        -- apply (chain_remove (hp s) (map de_node a) (n_children pn) (de_node q) (de_node d) (map de_node b) qn nd); auto.
        -- rewrite upd_nth in End' by auto. destruct (Nat.eqb_spec (de_node dp) (de_node q)) as [Z|Z]; [|congruence].
           assert (Zq : qn = pn) by congruence. injection End' as <-. cbn [with_next n_children]. congruence.
      * intros i Ni. apply upd_nth_other. intros <-. apply Ni. apply in_map, Iq.
Qed.

(** ** Command groups *)
Lemma add_step : forall own s w id fl, knows own s w -> fl <> [] -> In id own -> ~ used w id ->
  exists s', ush_commands_add id fl s = Ok (fst (spec_op (TAdd id fl) w), s') /\
    knows own s' (snd (spec_op (TAdd id fl) w)) /\ only_tree own s s'.
Proof.
  intros own s w id fl K Nf I U. unfold ush_commands_add, spec_op. cbn [fst snd].
  destruct (knows_free own s w id K I U) as (nd & E & C). pose proof (nth_lt _ _ _ E) as L.
  destruct fl as [|f0 fl0]; [congruence|]. cbn [length Nat.eqb negb assert_ bind].
  rewrite (getn_ok _ _ _ E). cbn [bind]. rewrite (setn_ok _ _ _ _ E). cbn [bind].
  set (fl := f0 :: fl0) in *. set (nd1 := with_next (o_cmds s) (with_mount fl None nd)). set (h1 := upd (hp s) id nd1).
  assert (E1 : nth_error h1 id = Some nd1) by (apply upd_nth_same; exact L).
  assert (K1 : knows own (set_hp h1 s) w) by (apply knows_upd; auto).
  destruct K1 as (R & G & D & O & F & W). change (hp (set_hp h1 s)) with h1 in *. change (o_root (set_hp h1 s)) with (o_root s) in *.
  change (o_cmds (set_hp h1 s)) with (o_cmds s) in *. change (o_cur (set_hp h1 s)) with (o_cur s) in *.
  eexists. split; [reflexivity|]. split.
  - split; [|split; [|split; [|split; [|split]]]]; cbn [w_fs w_groups w_cwd].
    + exact R.
    + change (rep_groups h1 (Some id) ((id, fl) :: w_groups w)). destruct G as (N & Ch & Fl). split; [|split].
      * cbn [map fst]. constructor; auto. intros X. apply U. right; exact X.
      * cbn [map fst chain]. split; [reflexivity|]. exists nd1. split; [exact E1|exact Ch].
      * intros i g [X|X]; [injection X as <- <-; exists nd1; auto|auto].
    + intros i J [<-|X]; [apply U; left; exact J|]. apply (D i J X).
    + intros i [J|[<-|J]]; [apply O; left; exact J|exact I|apply O; right; exact J].
    + exact F.
    + exact W.
  - split; [destruct s; reflexivity|]. split; [change (length h1 = length (hp s)); apply upd_len|].
    intros i Ni. change (nth_error h1 i = nth_error (hp s) i). apply upd_nth_other. congruence.
Qed.

Lemma group_remove_eq : forall id a b fl, ~ In id (map fst (a : groups)) -> ~ In id (map fst b) -> group_remove id (a ++ (id, fl) :: b) = a ++ b.
Proof.
  intros id a b fl Na Nb. unfold group_remove. rewrite filter_app. cbn [filter fst]. rewrite Nat.eqb_refl. cbn [negb].
  assert (Z : forall l : groups, ~ In id (map fst l) -> filter (fun g => negb (fst g =? id)) l = l).
  { induction l as [|x l IH]; intros NI; [reflexivity|]. cbn [filter map] in *. destruct (Nat.eqb_spec (fst x) id) as [X|X].
    - exfalso. apply NI. left. exact X.
    - cbn [negb]. f_equal. apply IH. intros Y; apply NI; right; exact Y. }
  rewrite !Z; auto.
Qed.

Lemma remove_step : forall own s w id, knows own s w ->
  exists s', ush_commands_remove id s = Ok (fst (spec_op (TRemove id) w), s') /\
    knows own s' (snd (spec_op (TRemove id) w)) /\ only_tree own s s'.
Proof.
  intros own s w id K. pose proof K as (R & G & D & O & F & W). pose proof G as (N & Ch & Fl).
  pose proof (chain_length _ _ _ Ch N) as Len. unfold ush_commands_remove, spec_op.
  destruct (in_dec Nat.eq_dec id (map fst (w_groups w))) as [I|I]; cbn [fst snd].
  2:{ rewrite (find_prev_none (hp s) (map fst (w_groups w))); auto; [|lia]. cbn [bind]. eexists. split; [reflexivity|]. split; [exact K|apply only_tree_refl]. }
  apply in_map_iff in I as ((id' & fl) & Ei & I). cbn [fst] in Ei. subst id'.
  destruct (in_split_nodup _ fst _ _ I N) as (a & b & Eab & Na & Nb). cbn [fst] in Na, Nb.
  rewrite Eab, map_app in Ch, Len, N. cbn [map fst] in Ch, Len, N. rewrite app_length in Len. cbn [length] in Len.
  rewrite (find_prev_some (hp s) (map fst a) (map fst b)); auto; [|lia]. cbn [bind].
  destruct (Fl id fl I) as (nd & E & Fnd).
  assert (Rm : group_remove id (w_groups w) = a ++ b) by (rewrite Eab; apply group_remove_eq; auto). rewrite Rm.
  assert (Mem : forall i, In i (map fst (a ++ b)) -> In i (map fst (w_groups w))).
  { intros i J. rewrite Eab. rewrite map_app in *. cbn [map]. apply in_app_or in J as [J|J]; apply in_or_app; [left|right; right]; exact J. }
  assert (MemF : forall i g, In (i, g) (a ++ b) -> In (i, g) (w_groups w)).
  { intros i g J. rewrite Eab. apply in_app_or in J as [J|J]; apply in_or_app; [left|right; right]; exact J. }
  assert (Nab : NoDup (map fst (a ++ b))) by (rewrite map_app; apply NoDup_remove_1 in N; exact N).
  destruct a as [|q a _] using rev_ind.
  - cbn [map app last] in *. rewrite (getn_ok _ _ _ E). cbn [bind]. eexists. split; [reflexivity|]. split.
    + split; [|split; [|split; [|split; [|split]]]]; cbn [w_fs w_groups w_cwd].
      * exact R.
      * change (rep_groups (hp s) (n_next nd) b). split; [exact Nab|]. split.
        -- eapply chain_remove_first; eauto.
        -- intros i g J. apply Fl. auto.
      * intros i J X. apply (D i J). auto.
      * intros i [J|J]; apply O; [left; exact J|right; auto].
      * exact F.
      * exact W.
    + split; [destruct s; reflexivity|]. auto.
  - rewrite map_app. cbn [map]. rewrite last_some. rewrite (getn_ok _ _ _ E). cbn [bind].
    rewrite map_app in Ch, N. cbn [map] in Ch, N. rewrite <- app_assoc in Ch, N. cbn [app] in Ch, N.
    destruct q as (q & fq). cbn [fst] in *.
    assert (Iq : In (q, fq) (w_groups w)) by (apply MemF; apply in_or_app; left; apply in_or_app; right; left; reflexivity).
    destruct (Fl q fq Iq) as (qn & Eqn & Fqn). rewrite (getn_ok _ _ _ Eqn). cbn [bind]. rewrite (setn_ok _ _ _ _ Eqn). cbn [bind].
    pose proof (nth_lt _ _ _ Eqn) as Lq. set (h1 := upd (hp s) q (with_next (n_next nd) qn)).
    assert (Gq : In q (map fst (w_groups w))) by (apply (in_map fst) in Iq; exact Iq).
    eexists. split; [reflexivity|]. split.
    + split; [|split; [|split; [|split; [|split]]]]; cbn [w_fs w_groups w_cwd].
      * change (rep h1 (o_root s) (w_fs w)). eapply rep_frame; [|exact R]. intros i J. apply upd_nth_other. intros ->. apply (D i J). exact Gq.
      * change (rep_groups h1 (o_cmds s) ((a ++ [(q, fq)]) ++ b)). split; [exact Nab|]. split.
        -- rewrite !map_app. cbn [map fst]. rewrite <- app_assoc. cbn [app]. eapply chain_remove; eauto.
        -- intros i g J. destruct (Fl i g (MemF _ _ J)) as (ni & Ei & Fi). unfold h1. rewrite upd_nth by exact Lq.
           destruct (Nat.eqb_spec i q) as [->|Ni]; [|eauto]. assert (ni = qn) by congruence. subst ni. eexists. split; [reflexivity|]. exact Fi.
      * intros i J X. apply (D i J). auto.
      * intros i [J|J]; apply O; [left; exact J|right; auto].
      * intros i J. destruct (F i J) as (ni & Ei & Ci). change (hp (set_hp h1 s)) with h1. unfold h1. rewrite upd_nth by exact Lq.
        destruct (Nat.eqb_spec i q) as [->|Ni]; [|eauto]. assert (ni = qn) by congruence. subst ni. eexists. split; [reflexivity|]. exact Ci.
      * exact W.
    + split; [destruct s; reflexivity|]. split; [change (length h1 = length (hp s)); apply upd_len|].
      intros i Ni. change (nth_error h1 i = nth_error (hp s) i). apply upd_nth_other. intros ->. apply Ni, O. right. exact Gq.
Qed.

(** ** The current directory *)
Lemma knows_cwd : forall own s w p, knows own s w -> w_cwd w = Some p ->
  path_ok p /\ exists nd, getp (hp s) (o_cur s) = Ok nd /\ n_path nd = Some (show p).
Proof.
  intros own s w p (R & _ & _ & _ & _ & W) E. rewrite E in W. destruct W as (d & Dd & ->).
  apply dir_at_some in Dd as (Id & <-). destruct R as ((Pk & _) & St & _). split; [rewrite Forall_forall in Pk; auto|].
  destruct (St d Id) as (nd & En & X1 & _). exists nd. cbn [getp]. rewrite (getn_ok _ _ _ En). auto.
Qed.

Lemma abs_path_world : forall own s w t, knows own s w -> ~ In NUL t -> (w_cwd w = None -> exists r, t = SL :: r) ->
  let ft := full_text (here w) t in
  (length ft < d_pathmax (o_desc s) ->
   abs_path_str (d_pathmax (o_desc s)) (hp s) (o_cur s) t = Ok (show (resolve_text (here w) t))) /\
  (d_pathmax (o_desc s) <= length ft -> abs_path_str (d_pathmax (o_desc s)) (hp s) (o_cur s) t = Err EOob) /\
  path_ok (here w).
Proof.
  intros own s w t K N H ft. unfold ft, here in *. destruct (w_cwd w) as [p|] eqn:E.
  - destruct (knows_cwd own s w p K E) as (Kp & nd & G & P). split; [|split]; auto; intros L.
    + eapply abs_path_ok; eauto.
    + eapply abs_path_err; eauto.
  - destruct (H eq_refl) as (r & ->). pose (nd0 := mkNode [] (Some [SL]) None None None). pose (h0 := [nd0]).
    assert (Z : forall pm, abs_path_str pm (hp s) (o_cur s) (SL :: r) = abs_path_str pm h0 (Some 0) (SL :: r)) by reflexivity.
    rewrite !Z. split; [|split]; [intros L| intros L|constructor].
    + apply (abs_path_ok _ h0 (Some 0) nd0 []); auto. constructor.
    + apply (abs_path_err _ h0 (Some 0) nd0 []); auto. constructor.
Qed.

Lemma chdir_step : forall own s w t, knows own s w -> allowed (d_pathmax (o_desc s)) own w (TChdir t) ->
  exists s', ush_node_set_current_dir t s = Ok (fst (spec_op (TChdir t) w), s') /\
    knows own s' (snd (spec_op (TChdir t) w)) /\ only_tree own s s'.
Proof.
  intros own s w t K (N & L & H). unfold ush_node_set_current_dir, spec_op. destruct t as [|x t0].
  { eexists. split; [reflexivity|]. split; [exact K|apply only_tree_refl]. }
  set (t := x :: t0) in *. destruct (abs_path_world own s w t K N H) as (A & _ & Kh). rewrite (A L). cbn [bind].
  pose proof K as (R & G & D & O & F & W). 
  rewrite (get_by_path_text (hp s) (o_root s) (w_fs w)); auto.
  2:{ apply resolve_text_no_nul; auto. }
  2:{ pose proof (resolve_text_length (here w) t). lia. }
  cbn [bind]. destruct (dir_named (show (resolve_text (here w) t)) (w_fs w)) as [d|] eqn:Dt; cbn [option_map fst snd].
  - pose proof R as (Fo & _). apply dir_named_some in Dt as (Id & Dd & _); auto. eexists. split; [reflexivity|]. split.
    + split; [exact R|]. split; [exact G|]. split; [exact D|]. split; [exact O|]. split; [exact F|]. cbn [w_cwd w_fs]. exists d. split; [exact Dd|reflexivity].
    + split; [destruct s; reflexivity|]. auto.
  - eexists. split; [reflexivity|]. split; [exact K|apply only_tree_refl].
Qed.
