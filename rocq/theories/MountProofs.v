(** * MountProofs: mounting at any text (C13). *)
From Coq Require Import Arith Lia.
From Verif Require Import Shell BaseFacts PathFacts CollapseFacts PathProofs Spec Tree TreeFacts TreeOps TreeProofs.

(** The parent of a text that does not begin with '/' is not mounted. *)
Lemma path_upper_head : forall x t, no_nul (x :: t) ->
  exists b u, ush_utils_path_upper ((x :: t) ++ [NUL]) = Ok b /\ c_str b 0 = Ok u /\ length u <= length (x :: t) /\ no_nul u /\ (u = [] \/ exists r, u = x :: r).
Proof.
  intros x t N. destruct (Nat.eq_dec (length (x :: t)) 1) as [L1|L1].
  { destruct t; [|discriminate]. unfold ush_utils_path_upper. rewrite c_strlen_0 by auto. cbn [bind length Nat.eqb app].
    exists [NUL; NUL], []. split; [reflexivity|]. split; [reflexivity|]. split; [cbn; lia|]. split; [intros []|auto]. }
  unfold ush_utils_path_upper. rewrite c_strlen_0 by auto. cbn [bind].
  destruct (Nat.eqb_spec (length (x :: t)) 1); [lia|]. clear n.
  assert (G : forall n, n <= length (x :: t) -> exists b u, path_upper_loop ((x :: t) ++ [NUL]) n = Ok b /\ c_str b 0 = Ok u /\ length u <= length (x :: t) /\ no_nul u /\ (u = [] \/ exists r, u = x :: r)).
  { induction n as [|n IH]; intros Hn.
    - cbn [path_upper_loop]. exists ((x :: t) ++ [NUL]), (x :: t). split; [reflexivity|]. split; [apply c_str_0; auto|]. split; [auto|]. split; [auto|eauto].
    - cbn [path_upper_loop]. destruct (nth_error (x :: t) n) as [c|] eqn:E; [|apply nth_error_None in E; lia].
      destruct (nth_error_split _ _ E) as (a & r & Ea & La).
      assert (Hd : a = [] \/ exists a', a = x :: a') by (destruct a as [|y a]; [auto|]; cbn [app] in Ea; injection Ea as <- _; eauto).
      assert (Hx : a = [] -> c = x) by (intros ->; cbn [app] in Ea; congruence).
      rewrite Ea in *. rewrite <- app_assoc. cbn [app].
      rewrite rd_app by auto. cbn [bind]. destruct (negb (ceq c SL)).
      + destruct IH as (b & u & H); [lia|]. exists b, u. rewrite <- app_assoc in H. exact H.
      + assert (Na : no_nul a) by (apply no_nul_app in N as [N _]; exact N).
        destruct (Nat.eqb_spec n 0) as [->|Nz].
        * destruct a; [|discriminate]. cbn [app] in *. destruct r as [|y r].
          { exfalso. apply L1. reflexivity. }
          cbn [Nat.add]. change (c :: (y :: r) ++ [NUL]) with ([c] ++ y :: r ++ [NUL]). rewrite wr_app by reflexivity. cbn [app]. exists (c :: NUL :: r ++ [NUL]), [c].
          split; [reflexivity|]. split; [apply (c_str_0 [c]); intros [Z|[]]; apply N; left; auto|].
          split; [cbn [length]; lia|]. split; [intros [Z|[]]; apply N; left; auto|]. right. rewrite Hx by reflexivity. eauto.
        * rewrite wr_app by auto. eexists. exists a. split; [reflexivity|]. split; [apply c_str_0; auto|]. split; [|auto].
          rewrite app_length. lia. }
  apply (G (length (x :: t))). lia.
Qed.

Lemma parent_text : forall h root fs t pm, rep h root fs -> no_nul t -> length t < pm ->
  exists r, ush_node_get_parent_by_path pm h root t = Ok r /\
    ((exists d, In d fs /\ r = Some (de_node d) /\ inside d t) \/ (r = None /\ ~ exists d, In d fs /\ inside d t)).
Proof.
  intros h root fs t pm R N L. pose proof R as (O & _ & _). pose proof O as (Pk & Np & _ & _).
  destruct t as [|x t].
  { exists None. split; [reflexivity|]. right. split; [reflexivity|]. intros (d & _ & c & _ & _ & [E|(_ & E)]); [|discriminate]. destruct (show (de_path d)); discriminate. }
  destruct (ceq_spec x SL) as [->|Nx].
  2:{ destruct (path_upper_head x t N) as (b & u & E1 & E2 & Lu & Nu & Hu). rewrite (parent_by_text h root fs (x :: t) pm R N (Nat.lt_le_incl _ _ L) b u E1 E2 Nu (Nat.le_lt_trans _ _ _ Lu L)).
      eexists. split; [reflexivity|]. right. split.
      - destruct Hu as [->|(r & ->)]; [reflexivity|]. rewrite dir_named_other by auto. reflexivity.
      - intros (d & _ & c & _ & _ & [E|(_ & E)]); [|congruence]. destruct (show_head (de_path d)) as (r & Er). rewrite Er in E. cbn [app] in E. congruence. }
  destruct (slashed_decomp t) as (c & p & E & F). rewrite E in *. clear E t.
  assert (Q : exists q e, c :: p = q ++ [e]) by (destruct (exists_last (l := c :: p)) as (q & e & ->); [discriminate|eauto]).
  destruct Q as (q & e & Q). rewrite Q in *. clear Q c p. apply Forall_app in F as (Fq & Fe). inversion Fe as [|? ? Fe0 _]; subst.
  destruct (list_eq_dec Ascii.ascii_dec (slashed (q ++ [e])) [SL]) as [E|Ne].
  { rewrite E. exists None. split; [reflexivity|]. right. split; [reflexivity|]. intros (d & _ & c & _ & Nt & _). congruence. }
  assert (Lq : length (show q) < pm).
  { rewrite slashed_snoc, app_length in L. cbn [length] in L. destruct q as [|y q]; cbn [show]; [|lia]. destruct e as [|z e]; [exfalso; apply Ne; reflexivity|]. cbn [length slashed flat_map] in *. lia. }
  rewrite (parent_snoc h root fs q e pm R Fe0 N Ne Lq). eexists. split; [reflexivity|].
  assert (Sh : forall d, In d fs -> (show (de_path d) = show q <-> inside d (slashed (q ++ [e])))).
  { intros d I. assert (Pd : path_ok (de_path d)) by (eapply Forall_forall in Pk; [exact Pk|exact I]). split.
    - intros S. exists e. split; [exact Fe0|]. split; [exact Ne|]. rewrite slashed_snoc. destruct q as [|y q].
      + right. split; [|reflexivity]. apply show_inj; auto. constructor.
      + left. rewrite S. reflexivity.
    - intros (c & Hc & _ & [T|(D & T)]).
      + (* the last slash is the same *)
        rewrite slashed_snoc in T.
        assert (U : forall a b x y, ~ In SL x -> ~ In SL y -> a ++ SL :: x = b ++ SL :: y -> a = b /\ x = y).
        { clear. intros a. induction a as [|z a IH]; intros b x y Hx Hy H.
          - destruct b as [|w b]; cbn [app] in H; [split; congruence|]. injection H as _ H. exfalso. apply Hx. rewrite H. apply in_or_app. right. left. reflexivity.
          - destruct b as [|w b]; cbn [app] in H; injection H as Hz H.
            + exfalso. apply Hy. rewrite <- H. apply in_or_app. right. left. reflexivity.
            + destruct (IH b x y Hx Hy H) as (-> & ->). subst z. auto. }
        destruct (U _ _ _ _ Fe0 Hc T) as (Es & _). destruct q as [|y q]; [|cbn [show]; congruence].
        destruct (show_head (de_path d)) as (r & Er). rewrite Er in Es. discriminate.
      + rewrite D. rewrite slashed_snoc in T. destruct q as [|y q]; [reflexivity|]. exfalso.
        destruct (slashed (y :: q)) as [|z zs] eqn:Z; [discriminate|]. cbn [app] in T. injection T as _ T. apply Hc. rewrite <- T. apply in_or_app. right. left. reflexivity. }
  destruct (dir_named (show q) fs) as [d|] eqn:Dn; cbn [option_map].
  - left. exists d. destruct (dir_named_some _ _ _ O Dn) as (I & _ & S). split; [exact I|]. split; [reflexivity|]. apply Sh; [exact I|].
    destruct S as [S|(S & _)]; [congruence|]. destruct (show_head q) as (r & Er). congruence.
  - right. split; [reflexivity|]. intros (d & I & In_). apply (Sh d I) in In_.
    destruct (show_head q) as (r & Er). unfold dir_named in Dn. rewrite Er in Dn. rewrite <- Er in Dn.
    apply (find_none _ _ Dn) in I. rewrite In_ in I. rewrite beq_refl in I. discriminate.
Qed.

Lemma C13_any_proof : forall own s w t id fl, knows own s w -> ~ In NUL t -> length t < d_pathmax (o_desc s) -> In id own -> ~ used w id ->
  exists x s', ush_node_mount t id fl s = Ok (x, s') /\ only_tree own s s' /\ (x <> ST_OK -> knows own s' w) /\
  ((x = ST_NODE_ALREADY_MOUNTED /\ dir_named t (w_fs w) <> None) \/
   (x = ST_NODE_WITHOUT_PARENT /\ dir_named t (w_fs w) = None /\ t <> lit "/" /\ ~ exists d, In d (w_fs w) /\ inside d t) \/
   (x = ST_OK /\ dir_named t (w_fs w) = None /\ (t = lit "/" \/ exists d, In d (w_fs w) /\ inside d t))).
Proof.
  intros own s w t id fl K N L I U. unfold ush_node_mount. destruct (knows_free own s w id K I U) as (nd & E & C). pose proof (nth_lt _ _ _ E) as Lid.
  rewrite (getn_ok _ _ _ E). cbn [bind]. rewrite (setn_ok _ _ _ _ E). cbn [bind].
  set (nd1 := with_mount fl (Some t) nd). set (h1 := upd (hp s) id nd1).
  change (o_root (set_hp h1 s)) with (o_root s).
  assert (K1 : knows own (set_hp h1 s) w) by (apply knows_upd; auto).
  pose proof K1 as (R & _). change (hp (set_hp h1 s)) with h1 in *. change (o_root (set_hp h1 s)) with (o_root s) in *. pose proof R as (_ & St & _).
  assert (E1 : nth_error h1 id = Some nd1) by (unfold h1; apply upd_nth_same; exact Lid).
  assert (Lh : length h1 = length (hp s)) by (unfold h1; apply upd_len).
  assert (OT1 : only_tree own s (set_hp h1 s)).
  { split; [destruct s; reflexivity|]. split; [exact Lh|]. intros i Ni. unfold h1. apply upd_nth_other. congruence. }
  rewrite (get_by_path_text h1 (o_root s) (w_fs w)) by auto. cbn [bind].
  destruct (dir_named t (w_fs w)) as [d0|] eqn:Dt; cbn [option_map].
  { eexists. eexists. split; [reflexivity|]. split; [exact OT1|]. split; [intros _; exact K1|]. left. split; [reflexivity|discriminate]. }
  destruct (parent_text h1 (o_root s) (w_fs w) t _ R N L) as (r & -> & [(d & Id & -> & Ins)|(-> & Nin)]); cbn [bind].
  - destruct (St d Id) as (pn & Epn & _).
    assert (Nd : de_node d <> id) by (intros X; apply U; left; rewrite <- X; apply in_map, Id).
    rewrite (getn_ok _ _ _ Epn). cbn [bind]. rewrite (getn_ok _ _ _ E1). cbn [bind]. rewrite (setn_ok _ _ _ _ E1). cbn [bind].
    set (h2 := upd h1 id (with_next (n_children pn) nd1)).
    assert (E2 : nth_error h2 id = Some (with_next (n_children pn) nd1)) by (unfold h2; apply upd_nth_same; lia).
    assert (P2 : nth_error h2 (de_node d) = Some pn) by (unfold h2; rewrite upd_nth_other; auto).
    rewrite (getn_ok _ _ _ P2). cbn [bind]. rewrite (setn_ok _ _ _ _ P2). cbn [bind].
    set (h3 := upd h2 (de_node d) (with_children (Some id) pn)).
    assert (E3 : nth_error h3 id = Some (with_next (n_children pn) nd1)) by (unfold h3; rewrite upd_nth_other; auto).
    rewrite (getn_ok _ _ _ E3). cbn [bind]. rewrite (setn_ok _ _ _ _ E3). cbn [bind].
    eexists. eexists. split; [reflexivity|]. split; [|split; [congruence|]].
    + split; [destruct s; reflexivity|]. cbn [hp set_hp]. split; [rewrite upd_len; unfold h3; rewrite upd_len; unfold h2; rewrite upd_len; exact Lh|].
      intros i Ni. rewrite upd_nth_other by congruence. unfold h3. rewrite upd_nth_other.
      * unfold h2. rewrite upd_nth_other by congruence. unfold h1. apply upd_nth_other. congruence.
      * destruct K as (_ & _ & _ & O & _). intros X. apply Ni, O. left. rewrite ?X, <- ?X. apply in_map, Id.
    + right. right. split; [reflexivity|]. split; [reflexivity|]. right. exists d. auto.
  - change (lit "/") with [SL] in *. destruct (list_eq_dec Ascii.ascii_dec t [SL]) as [->|Nt].
    + change (beq [SL] [SL]) with true. cbn iota. rewrite (getn_ok _ _ _ E1). cbn [bind]. rewrite (setn_ok _ _ _ _ E1). cbn [bind].
      eexists. eexists. split; [reflexivity|]. split; [|split; [congruence|]].
      * split; [destruct s; reflexivity|]. cbn [hp set_hp]. split; [rewrite upd_len; exact Lh|]. intros i Ni. rewrite upd_nth_other by congruence. unfold h1. apply upd_nth_other. congruence.
      * right. right. auto.
    + rewrite beq_neq by exact Nt. eexists. eexists. split; [reflexivity|]. split; [exact OT1|]. split; [intros _; exact K1|]. right. left. auto.
Qed.
