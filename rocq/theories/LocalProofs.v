(** * LocalProofs: proofs of C85. *)
From Coq Require Import Arith Lia.
From Verif Require Import Shell BaseFacts Spec Tree TreeFacts TreeOps TreeFind TreeProofs MountProofs Local.

Lemma named_app : forall n a b, file_named n (a ++ b) = match file_named n a with Some f => Some f | None => file_named n b end.
Proof. intros n a b. unfold file_named. induction a as [|x a IH]; [reflexivity|]. cbn [app find]. destruct (beq (f_name x) n); [reflexivity|exact IH]. Qed.
Lemma named_in : forall n l f, file_named n l = Some f -> In f l.
Proof. intros n l f E. apply find_some in E. apply E. Qed.

Lemma named_rest : forall id n gs, file_named n (group_files id gs) = None -> file_named n (flat_map snd (group_remove id gs)) = file_named n (flat_map snd gs).
Proof.
  intros id n gs. unfold group_files, group_remove. induction gs as [|g r IH]; [reflexivity|]. cbn [filter flat_map]. destruct (fst g =? id) eqn:E; cbn [negb flat_map]; intros H.
  - rewrite named_app in H. rewrite named_app. destruct (file_named n (snd g)); [discriminate H|exact (IH H)].
  - rewrite !named_app, (IH H). reflexivity.
Qed.

Lemma spec_local : forall o w n, fs_ok (w_fs w) -> (match o with TMount p _ _ => p = [] -> w_cwd w = None | _ => True end) -> (w_cwd w = None -> exists r, n = SL :: r) ->
  (w_cwd (snd (spec_op o w)) = None -> exists r, n = SL :: r) ->
  let w' := snd (spec_op o w) in
  local_change o w n (find_file (w_groups w) (w_fs w) (here w) n) (find_file (w_groups w') (w_fs w') (here w') n).
Proof.
  intros o w n Fo Rt N N'. cbv zeta. destruct o as [p id fl|t|id fl|id|t].
  - cbn [spec_op local_change] in *. unfold fs_mount.
    assert (Hh : forall fs' r, here (mkWorld fs' (w_groups w) (match p with [] => if is_status_ok r then Some [] else w_cwd w | _ => w_cwd w end)) = here w).
    { intros fs' r. unfold here. cbn [w_cwd]. destruct p; [|reflexivity]. rewrite (Rt eq_refl). destruct (is_status_ok r); reflexivity. }
    assert (Same : forall r, find_file (w_groups w) (w_fs w) (here (mkWorld (w_fs w) (w_groups w) (match p with [] => if is_status_ok r then Some [] else w_cwd w | _ => w_cwd w end))) n =
      find_file (w_groups w) (w_fs w) (here w) n) by (intros r; rewrite Hh; reflexivity).
    destruct (dir_at p (w_fs w)) as [d|] eqn:D; [left; cbn [snd w_groups w_fs]; apply Same|].
    assert (New : find_file (w_groups w) (mkDir p id fl :: w_fs w) (here w) n = find_file (w_groups w) (w_fs w) (here w) n \/
      find_file (w_groups w) (w_fs w) (here w) n = None /\ exists f, find_file (w_groups w) (mkDir p id fl :: w_fs w) (here w) n = Some f /\ In f fl).
    { unfold find_file. destruct (file_named n (flat_map snd (w_groups w))); [left; reflexivity|]. destruct (resolve_text (here w) n) as [|c q] eqn:Q; [left; reflexivity|].
      destruct (path_dec p (removelast (c :: q))) as [<-|Ne]; [|rewrite dir_at_cons by exact Ne; left; reflexivity].
      rewrite D. unfold dir_at. cbn [find de_path]. unfold path_eqb. destruct (path_dec p p) as [_|X]; [|destruct (X eq_refl)]. cbn [de_files].
      destruct (file_named (last (c :: q) []) fl) as [f|] eqn:F; [|left; reflexivity]. right. split; [reflexivity|]. exists f. split; [reflexivity|exact (named_in _ _ _ F)]. }
    destruct p as [|c q].
    + cbn [snd w_groups w_fs]. pose proof (Hh (mkDir [] id fl :: w_fs w) ST_OK) as H1. rewrite H1. exact New.
    + destruct (dir_at (removelast (c :: q)) (w_fs w)); cbn [snd w_groups w_fs]; [exact New|left; reflexivity].
  - cbn [spec_op local_change] in *. destruct (dir_named t (w_fs w)) as [d|] eqn:D; [|left; reflexivity]. unfold fs_unmount in *.
    destruct (dir_at (de_path d) (w_fs w)) as [d0|] eqn:D0; [|cbn [snd w_groups w_fs is_status_ok andb] in *; left; unfold here; cbn [w_cwd]; destruct (w_cwd w); reflexivity].
    destruct (children (de_path d) (w_fs w)); [|cbn [snd w_groups w_fs is_status_ok andb] in *; left; unfold here; cbn [w_cwd]; destruct (w_cwd w); reflexivity].
    cbn [snd w_groups w_fs w_cwd is_status_ok andb] in *.
    pose proof (dir_named_some _ _ _ Fo D) as (_ & D1 & _). rewrite D1 in D0. injection D0 as <-. rename D1 into D0.
    set (cw := match w_cwd w with Some p => if path_eqb p (de_path d) then None else Some p | None => None end) in *.
    assert (Rs : resolve_text (here (mkWorld (fs_remove (de_path d) (w_fs w)) (w_groups w) cw)) n = resolve_text (here w) n).
    { unfold here. cbn [w_cwd]. destruct cw as [p|] eqn:C.
      - subst cw. destruct (w_cwd w) as [p'|]; [|discriminate C]. destruct (path_eqb p' (de_path d)); [discriminate C|]. injection C as ->. reflexivity.
      - destruct (N' eq_refl) as (r & ->). reflexivity. }
    unfold find_file. rewrite Rs. destruct (file_named n (flat_map snd (w_groups w))); [left; reflexivity|]. destruct (resolve_text (here w) n) as [|c q] eqn:Q; [left; reflexivity|].
    destruct (path_dec (de_path d) (removelast (c :: q))) as [E|Ne]; [|rewrite dir_at_remove by exact Ne; left; reflexivity].
    rewrite <- E, dir_at_removed, D0. destruct (file_named (last (c :: q) []) (de_files d)) as [f|] eqn:F; [|left; reflexivity]. right. split; [reflexivity|].
    exists d, f. split; [reflexivity|]. split; [reflexivity|]. exact (named_in _ _ _ F).
  - cbn [spec_op snd w_groups w_fs local_change]. change (here (mkWorld (w_fs w) ((id, fl) :: w_groups w) (w_cwd w))) with (here w). unfold find_file. cbn [flat_map snd]. rewrite named_app.
    destruct (file_named n fl); reflexivity.
  - cbn [spec_op local_change]. intros F. destruct (in_dec Nat.eq_dec id (map fst (w_groups w))); [|reflexivity]. cbn [snd w_groups w_fs]. unfold find_file. rewrite (named_rest id n _ F). reflexivity.
  - cbn [spec_op local_change]. intros A.
    assert (X : forall c, find_file (w_groups w) (w_fs w) c n = find_file (w_groups w) (w_fs w) (here w) n).
    { intros c. unfold find_file. destruct A as [(r & ->)|A]; [reflexivity|]. destruct (file_named n (flat_map snd (w_groups w))); [reflexivity|destruct (A eq_refl)]. }
    destruct t as [|t0 tr]; [reflexivity|]. destruct (dir_named _ _); [|reflexivity]. cbn [snd w_groups w_fs]. apply X.
Qed.

Lemma C85_proof : forall own s w o, knows own s w -> allowed (d_pathmax (o_desc s)) own w o ->
  (match o with TMount p _ _ => p = [] -> w_cwd w = None | _ => True end) ->
  exists r s', do_op o s = Ok (r, s') /\ forall n, ~ In NUL n ->
    can_look (d_pathmax (o_desc s)) w n -> can_look (d_pathmax (o_desc s)) (snd (spec_op o w)) n ->
    exists m m', ush_file_find_by_name n s = Ok m /\ ush_file_find_by_name n s' = Ok m' /\ local_change o w n m m'.
Proof.
  intros own s w o K A Rt.
  destruct (C15_history_proof own [o] s w K (conj A I)) as (s' & E & K' & (Od & _)). cbn [do_ops] in E. destruct (do_op o s) as [[r s1]|]; [|discriminate E].
  cbn [do_ops bind] in E. injection E as Er Es. subst s1. exists r, s'. split; [reflexivity|]. intros n Nn (N & Ok1 & L1) (N' & Ok2 & L2).
  assert (D : o_desc s' = o_desc s) by (rewrite Od; reflexivity).
  assert (Sw : snd (spec_ops [o] w) = snd (spec_op o w)) by (cbn [spec_ops]; destruct (spec_op o w); reflexivity). rewrite Sw in K'.
  exists (find_file (w_groups w) (w_fs w) (here w) n), (find_file (w_groups (snd (spec_op o w))) (w_fs (snd (spec_op o w))) (here (snd (spec_op o w))) n).
  split; [apply (TreeFind.find_file_ok own s w n K Nn N Ok1 (or_intror L1))|]. split; [apply (TreeFind.find_file_ok own s' _ n K' Nn N'); rewrite D; [exact Ok2|right; exact L2]|].
  apply spec_local; try assumption. destruct K as ((Fo & _) & _). exact Fo.
Qed.
