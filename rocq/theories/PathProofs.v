(** * PathProofs: lemmas behind the path properties (C10-C12). *)
From Verif Require Import Node Spec BaseFacts PathFacts CollapseFacts.

Lemma C10_collapse_proof : forall p rest out,
  path_ok p -> length (show p) < length out ->
  exists out', ush_utils_get_collapse_path (show p ++ NUL :: rest) out = Ok out' /\
    length out' = length out /\ c_str out' 0 = Ok (show (resolve [] p)).
Proof.
  intros p rest out H L. pose proof (show_length p).
  destruct (collapse_ok (show p) rest out (show_no_nul p H) L ltac:(lia)) as (r & -> & E).
  eexists; split; [reflexivity|]. split; auto. rewrite <- collapsed_show by auto.
  apply c_str_0, collapsed_no_nul, show_no_nul; auto.
Qed.

Lemma C10_normal_proof : forall p, path_ok p ->
  let q := resolve [] p in
  path_ok q /\ Forall no_dots q /\ resolve [] q = q /\
  length (show q) <= length (show p).
Proof.
  intros p H q.
  assert (Hq : path_ok q) by (apply resolve_path_ok; [auto|constructor]).
  assert (Hd : Forall no_dots q) by (apply resolve_no_dots; constructor).
  repeat split; auto.
  - rewrite (resolve_no_dots_id q []); auto.
  - pose proof (resolve_length p []) as L. fold q in L. change (length (slashed [])) with 0 in L.
    destruct p as [|c p]; [auto|]. cbn [show].
    destruct q as [|d q]; cbn [show]; auto. rewrite slashed_cons. cbn [length]. lia.
Qed.

Lemma C10_all_proof : forall s rest out, no_nul s -> 1 < length out ->
  (length s < length out ->
   exists out', ush_utils_get_collapse_path (s ++ NUL :: rest) out = Ok out' /\
     length out' = length out /\ c_str out' 0 = Ok (show (resolve [] (snd (text_comps s))))) /\
  (length out <= length s ->
   ush_utils_get_collapse_path (s ++ NUL :: rest) out = Err EOob).
Proof.
  intros s rest out N L1. split; intros L.
  - destruct (collapse_ok s rest out N L L1) as (r & -> & E).
    eexists; split; [reflexivity|]. split; auto. apply c_str_0, collapsed_no_nul; auto.
  - apply collapse_err; auto.
Qed.

(** Typed paths. *)
Definition typed (p : list bytes) : bytes := tl (slashed p).

Lemma typed_slashed : forall p, p <> [] -> SL :: typed p = slashed p.
Proof. intros [|c p] H; [congruence|reflexivity]. Qed.

Lemma typed_head : forall p, path_ok p -> p <> [] -> exists x r, typed p = x :: r /\ x <> SL.
Proof.
  intros [|c p] H N; [congruence|]. unfold typed. rewrite slashed_cons. cbn [tl].
  inversion H as [|? ? [H1 [H2 _]] _]; subst. destruct c as [|x c]; [congruence|].
  exists x, (c ++ slashed p). split; [reflexivity|]. intros ->. apply H2. left; auto.
Qed.

Lemma last_slashed : forall p d, path_ok p -> p <> [] -> ceq (last (slashed p) d) SL = false.
Proof.
  intros p d H N. destruct p as [|c p] using rev_ind; [congruence|]. clear IHp.
  apply Forall_app in H as [_ H]. inversion H as [|? ? [H1 [H2 _]] _]; subst.
  rewrite slashed_snoc. destruct c as [|x c] using rev_ind; [congruence|]. clear IHc.
  change (SL :: c ++ [x]) with ((SL :: c) ++ [x]). rewrite app_assoc, last_last.
  apply ceq_neq. intros ->. apply H2, in_or_app; right; left; auto.
Qed.

Lemma drop_none : forall p, path_ok p -> p <> [] -> drop_trailing_slash (slashed p) = slashed p.
Proof.
  intros p H N. unfold drop_trailing_slash. rewrite last_slashed by auto. rewrite andb_false_r. reflexivity.
Qed.

Lemma drop_one : forall p, p <> [] -> drop_trailing_slash (slashed p ++ [SL]) = slashed p.
Proof.
  intros p N. unfold drop_trailing_slash. rewrite last_last, app_length, removelast_last.
  destruct p as [|c p]; [congruence|]. rewrite slashed_cons. cbn [length].
  destruct (Nat.ltb_spec 1 (S (length (c ++ slashed p)) + 1)); [|lia]. reflexivity.
Qed.

Lemma full_text_typed : forall cwd p t, path_ok p -> p <> [] -> 
  full_text cwd (typed p ++ t) = slashed (cwd ++ p) ++ t.
Proof.
  intros cwd p t H N. destruct (typed_head p H N) as (x & r & E & Nx).
  rewrite slashed_app, <- (typed_slashed p N). rewrite E. cbn [app full_text].
  rewrite ceq_neq by auto. destruct cwd; [reflexivity|].
  cbn [show]. rewrite <- !app_assoc. reflexivity.
Qed.

Lemma resolve_text_typed : forall cwd p, path_ok cwd -> Forall no_dots cwd -> path_ok p -> p <> [] ->
  resolve_text cwd (typed p) = resolve cwd p /\ resolve_text cwd (typed p ++ [SL]) = resolve cwd p.
Proof.
  intros cwd p Hc Hd Hp N. unfold resolve_text.
  assert (RF : forall q, path_ok q -> root_form q = q).
  { intros [|[|x c] q] Hq; auto. inversion Hq as [|? ? [H1 _] _]. congruence. }
  rewrite <- (RF (resolve cwd p)) by (apply resolve_path_ok; auto).
  assert (OK : path_ok (cwd ++ p)) by (apply Forall_app; auto).
  assert (NE : cwd ++ p <> []) by (destruct cwd; [auto|discriminate]).
  assert (R : resolve [] (snd (text_comps (slashed (cwd ++ p)))) = resolve cwd p).
  { rewrite text_comps_slashed by auto. cbn [snd]. rewrite resolve_app.
    rewrite (resolve_no_dots_id cwd []) by auto. reflexivity. }
  split.
  - rewrite <- (app_nil_r (typed p)), full_text_typed, app_nil_r, drop_none by auto. rewrite R; reflexivity.
  - rewrite full_text_typed, drop_one by auto. rewrite R; reflexivity.
Qed.

Lemma resolve_text_absolute : forall cwd p, path_ok p -> p <> [] ->
  resolve_text cwd (show p) = resolve [] p /\ resolve_text cwd (show p ++ [SL]) = resolve [] p.
Proof.
  intros cwd p Hp N. unfold resolve_text.
  assert (RF : forall q, path_ok q -> root_form q = q).
  { intros [|[|x c] q] Hq; auto. inversion Hq as [|? ? [H1 _] _]. congruence. }
  rewrite <- (RF (resolve [] p)) by (apply resolve_path_ok; auto; constructor).
  rewrite show_slashed by auto.
  assert (E : forall t, full_text cwd (slashed p ++ t) = slashed p ++ t).
  { intros t. destruct p as [|c p]; [congruence|]. rewrite slashed_cons. cbn [app full_text]. rewrite ceq_refl. reflexivity. }
  assert (R : resolve [] (snd (text_comps (slashed p))) = resolve [] p)
    by (rewrite text_comps_slashed by auto; reflexivity).
  split.
  - rewrite <- (app_nil_r (slashed p)), E, app_nil_r, drop_none by auto. rewrite R; reflexivity.
  - rewrite E, drop_one by auto. rewrite R; reflexivity.
Qed.

Lemma resolve_text_root : forall cwd, resolve_text cwd [SL] = [].
Proof. reflexivity. Qed.

Lemma resolve_text_empty : forall cwd, path_ok cwd -> Forall no_dots cwd -> resolve_text cwd [] = cwd.
Proof.
  intros cwd H D. unfold resolve_text. destruct cwd as [|c cwd]; [reflexivity|].
  cbn [full_text show]. rewrite drop_one by discriminate. rewrite text_comps_slashed by auto. cbn [snd].
  rewrite (resolve_no_dots_id _ []) by auto. cbn [app].
  destruct c as [|x c]; [inversion H as [|? ? [H1 _] _]; congruence|reflexivity].
Qed.

Lemma C11_proof : forall s nd cwd t,
  getp (hp s) (o_cur s) = Ok nd -> n_path nd = Some (show cwd) ->
  path_ok cwd -> no_nul t -> forall out,
  (length (full_text cwd t) < d_pathmax (o_desc s) -> length out = d_pathmax (o_desc s) ->
   exists out', ush_node_get_absolute_path (d_pathmax (o_desc s)) (hp s) (o_cur s) t out = Ok out' /\
     length out' = length out /\ c_str out' 0 = Ok (show (resolve_text cwd t))).
Proof.
  intros s nd cwd t G P Hc Ht out L Lo.
  pose proof (abs_path_ok (d_pathmax (o_desc s)) _ _ _ _ _ G P Hc Ht L) as E.
  unfold ush_node_get_absolute_path.
  destruct (abs_build (d_pathmax (o_desc s)) _ _ _ _ _ G P Hc Ht) as [B _].
  destruct (B L) as (r & B' & Lr). rewrite B'.
  clear E.
  cbn [bind]. pose proof (full_text_no_nul cwd t Hc Ht) as N.
  rewrite c_strlen_0 by auto. cbn [bind].
  set (ft := full_text cwd t) in *.
  assert (D : (if 1 <? length ft
               then c <- rd (ft ++ NUL :: r) (length ft - 1) ;;
                    (if ceq c SL then wr (ft ++ NUL :: r) (length ft - 1) NUL else Ok (ft ++ NUL :: r))
               else Ok (ft ++ NUL :: r)) =
              Ok (drop_trailing_slash ft ++ NUL :: (if (1 <? length ft) && ceq (last ft NUL) SL then NUL :: r else r))).
  { unfold drop_trailing_slash. destruct (Nat.ltb_spec 1 (length ft)) as [L1|L1]; cbn [andb]; auto.
    destruct ft as [|c ft'] eqn:E using rev_ind; [cbn [length] in L1; lia|]. clear IHft'.
    rewrite last_last, app_length. cbn [length]. rewrite Nat.add_sub.
    rewrite <- app_assoc. cbn [app]. rewrite rd_app by auto. cbn [bind].
    destruct (ceq c SL).
    - rewrite wr_app by auto. rewrite removelast_last. reflexivity.
    - rewrite <- app_assoc. reflexivity. }
  rewrite D. cbn [bind]. clear D.
  pose proof (drop_slash_length ft).
  assert (1 <= length ft). { unfold ft. destruct (full_text_head cwd t) as (x & ->). cbn [length]. lia. }
  destruct (collapse_ok (drop_trailing_slash ft) (if (1 <? length ft) && ceq (last ft NUL) SL then NUL :: r else r)
              out (drop_slash_no_nul _ N)) as (r' & -> & E); try lia.
  eexists. split; [reflexivity|]. split; auto.
  rewrite resolve_text_eq. apply c_str_0, collapsed_no_nul, drop_slash_no_nul; auto.
Qed.

(** C12 *)
Lemma path_ok_firstn : forall k p, path_ok p -> path_ok (firstn k p).
Proof.
  intros k p H. unfold path_ok in *. rewrite Forall_forall in *. intros x Hx. apply H.
  rewrite <- (firstn_skipn k p). apply in_or_app; auto.
Qed.

Lemma C12_level_proof : forall p k out, path_ok p -> k <= length p ->
  length (show (firstn k p)) < length out ->
  exists out', ush_utils_get_path_level k (show p) out = Ok out' /\ length out' = length out /\
    c_str out' 0 = Ok (show (firstn k p)).
Proof.
  intros p k out H Hk L.
  destruct k as [|k].
  - cbn [firstn show] in *. unfold ush_utils_get_path_level. cbn [Nat.eqb].
    rewrite c_strcpy_0 by exact L. eexists; split; [reflexivity|]. split.
    + rewrite app_length. cbn [length]. rewrite skipn_length. cbn [length] in L. change (length (lit "/")) with 1. lia.
    + apply c_str_0. intros [E|[]]; discriminate.
  - destruct p as [|c p]; [cbn [length] in Hk; lia|].
    cbn [firstn] in *. cbn [show] in *.
    rewrite get_path_level_eq by (auto using path_ok_slash; lia). cbv zeta. cbn [firstn].
    destruct (Nat.ltb_spec (length (slashed (c :: firstn k p))) (length out)); [|lia].
    eexists; split; [reflexivity|]. split.
    + rewrite app_length. cbn [length]. rewrite skipn_length. lia.
    + apply c_str_0, no_nul_slashed, path_ok_nul. inversion H; subst. constructor; auto. apply path_ok_firstn; auto.
Qed.

Lemma C12_join_proof : forall p name out, path_ok p -> comp_ok name ->
  length (show (p ++ [name])) < length out ->
  exists out', ush_utils_join_path (show p) name out = Ok out' /\ length out' = length out /\
    c_str out' 0 = Ok (show (p ++ [name])).
Proof.
  intros p name out H [Hn [Hs Hz]] L.
  destruct (join_path_eq (show p) name out (show_no_nul p H) Hz) as [J _].
  rewrite join_text_show in J by auto.
  rewrite (show_slashed (p ++ [name])) in * by (destruct p; discriminate).
  rewrite J by auto. eexists; split; [reflexivity|]. split.
  - rewrite app_length. cbn [length]. rewrite skipn_length. lia.
  - apply c_str_0, no_nul_slashed, Forall_app. split; [apply path_ok_nul; auto|]. constructor; auto.
Qed.
