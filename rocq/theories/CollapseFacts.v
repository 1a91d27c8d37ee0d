(** * CollapseFacts: ush_utils_get_collapse_path and ush_node_get_absolute_path
    against [Spec.resolve]. *)
From Verif Require Import Node Spec BaseFacts PathFacts.

(** The components keep the text. *)
Lemma text_comps_join : forall n s, length s <= n -> s = fst (text_comps s) ++ slashed (snd (text_comps s)).
Proof.
  induction n as [|n IH]; intros s L.
  - destruct s; [reflexivity|cbn [length] in L; lia].
  - destruct s as [|c s]; [reflexivity|]. cbn [text_comps length] in *.
    destruct (ceq_spec c SL) as [->|N].
    + destruct s as [|d s]; [reflexivity|]. cbn [length] in L.
      specialize (IH s ltac:(lia)). destruct (text_comps s) as [h t]. cbn [fst snd app] in *.
      rewrite slashed_cons. cbn [app]. congruence.
    + specialize (IH s ltac:(lia)). destruct (text_comps s) as [h t]. cbn [fst snd app] in *. congruence.
Qed.

Lemma text_comps_eq : forall s, s = fst (text_comps s) ++ slashed (snd (text_comps s)).
Proof. intros s. eapply text_comps_join; eauto. Qed.

Lemma text_comps_count : forall n s, length s <= n -> length (snd (text_comps s)) <= count_slash s.
Proof.
  induction n as [|n IH]; intros s L.
  - destruct s; [reflexivity|cbn [length] in L; lia].
  - destruct s as [|c s]; [reflexivity|]. cbn [text_comps length count_slash] in *.
    destruct (ceq_spec c SL) as [->|N].
    + destruct s as [|d s]; [cbn [snd length]; lia|]. cbn [length] in L.
      specialize (IH s ltac:(lia)). destruct (text_comps s) as [h t]. cbn [snd length count_slash] in *.
      lia.
    + specialize (IH s ltac:(lia)). destruct (text_comps s) as [h t]. cbn [snd] in *. lia.
Qed.

(** Text with the separators replaced by NUL, and where the components start. *)
Definition nulled (p : list bytes) : bytes := flat_map (fun c => NUL :: c) p.
Fixpoint offs (o : nat) (p : list bytes) : list nat :=
  match p with [] => [] | c :: r => o :: offs (o + length c + 1) r end.

Lemma nulled_cons : forall c p, nulled (c :: p) = NUL :: c ++ nulled p.
Proof. reflexivity. Qed.

Lemma offs_length : forall p o, length (offs o p) = length p.
Proof. induction p; intros; cbn [offs length]; auto. Qed.

Lemma scan_eq : forall n s, length s <= n -> forall fuel a r levels nodes,
  no_nul s -> length s + 1 < fuel ->
  length nodes + length (snd (text_comps s)) <= levels ->
  let h := fst (text_comps s) in let t := snd (text_comps s) in
  collapse_scan fuel (a ++ s ++ NUL :: r) (length a) false levels nodes =
    Ok (a ++ h ++ nulled t ++ NUL :: r, nodes ++ offs (length a + length h + 1) t).
Proof.
  induction n as [|n IH]; intros s L fuel a r levels nodes N F Lv h t.
  - destruct s; [|cbn [length] in L; lia]. destruct fuel as [|f]; [lia|].
    cbn [collapse_scan app]. rewrite rd_app by auto. cbn [bind negb]. rewrite ceq_refl.
    subst h t. cbn [text_comps fst snd nulled flat_map app offs]. rewrite app_nil_r. reflexivity.
  - destruct s as [|c s].
    { destruct fuel as [|f]; [lia|].
      cbn [collapse_scan app]. rewrite rd_app by auto. cbn [bind negb]. rewrite ceq_refl.
      subst h t. cbn [text_comps fst snd nulled flat_map app offs]. rewrite app_nil_r. reflexivity. }
    destruct fuel as [|f]; [lia|]. cbn [collapse_scan]. cbn [app].
    rewrite rd_app by auto. cbn [bind negb].
    apply no_nul_cons in N as [Nc Ns]. rewrite ceq_neq by auto.
    cbn [length] in L, F. subst h t. cbn [text_comps] in *.
    destruct (ceq_spec c SL) as [->|Nsl].
    + rewrite wr_app by auto. cbn [bind].
      destruct f as [|f]; [lia|]. cbn [collapse_scan negb].
      replace (a ++ NUL :: s ++ NUL :: r) with ((a ++ [NUL]) ++ s ++ NUL :: r) by (rewrite <- app_assoc; reflexivity).
      destruct s as [|d s].
      * cbn [snd length fst app nulled flat_map offs] in *.
        rewrite rd_app by (rewrite app_length; cbn [length]; lia). cbn [bind].
        destruct (Nat.ltb_spec (length nodes) levels); [|lia]. rewrite ceq_refl.
        rewrite <- app_assoc. cbn [app]. do 4 f_equal. lia.
      * cbn [app]. rewrite rd_app by (rewrite app_length; cbn [length]; lia). cbn [bind].
        apply no_nul_cons in Ns as [Nd Ns]. cbn [length] in L, F.
        destruct (text_comps s) as [h t] eqn:E. cbn [fst snd length] in *.
        destruct (Nat.ltb_spec (length nodes) levels); [|lia]. rewrite ceq_neq by auto.
        replace ((a ++ [NUL]) ++ d :: s ++ NUL :: r) with ((a ++ [NUL; d]) ++ s ++ NUL :: r)
          by (rewrite <- !app_assoc; reflexivity).
        replace (S (S (length a))) with (length (a ++ [NUL; d])) by (rewrite app_length; cbn [length]; lia).
        rewrite IH; auto; try lia.
        -- rewrite E. cbn [fst snd]. rewrite nulled_cons. cbn [offs length app].
           rewrite <- !app_assoc. cbn [app]. f_equal. f_equal.
           f_equal. rewrite app_length. cbn [length]. f_equal; [lia|]. f_equal. lia.
        -- rewrite E, app_length. cbn [snd length]. lia.
    + replace (a ++ c :: s ++ NUL :: r) with ((a ++ [c]) ++ s ++ NUL :: r) by (rewrite <- app_assoc; reflexivity).
      replace (S (length a)) with (length (a ++ [c])) by (rewrite app_length; cbn [length]; lia).
      destruct (text_comps s) as [h t] eqn:E. cbn [fst snd length] in *.
      rewrite IH; auto; try lia.
      * rewrite E. cbn [fst snd]. rewrite <- !app_assoc. cbn [app].
        rewrite app_length. cbn [length]. do 4 f_equal. lia.
      * rewrite E. cbn [snd]. lia.
Qed.

(** The component found at each offset. *)
Lemma offs_strings : forall t a r, Forall (fun c => no_nul c) t ->
  Forall2 (fun o c => c_str (a ++ nulled t ++ NUL :: r) o = Ok c) (offs (length a + 1) t) t.
Proof.
  induction t as [|c t IH]; intros a r F; [constructor|]. inversion F; subst.
  cbn [offs]. rewrite nulled_cons. cbn [app].
  assert (E : a ++ NUL :: (c ++ nulled t) ++ NUL :: r = (a ++ NUL :: c) ++ nulled t ++ NUL :: r).
  { rewrite <- !app_assoc. reflexivity. }
  constructor.
  - assert (exists r', nulled t ++ NUL :: r = NUL :: r') as (r' & E').
    { destruct t; eexists; [reflexivity|rewrite nulled_cons; reflexivity]. }
    rewrite <- app_assoc, E'. change (NUL :: c ++ NUL :: r') with ([NUL] ++ c ++ NUL :: r').
    rewrite app_assoc. apply c_str_app; auto. rewrite app_length; cbn [length]; lia.
  - rewrite E. specialize (IH (a ++ NUL :: c) r H2). rewrite app_length in IH. cbn [length] in IH.
    replace (length a + 1 + length c + 1) with (length a + S (length c) + 1) by lia. exact IH.
Qed.

Lemma removelast_length : forall A (l : list A), length (removelast l) <= length l.
Proof.
  intros A l. destruct l as [|x l] using rev_ind; [auto|].
  rewrite removelast_last, app_length; lia.
Qed.

Lemma Forall2_removelast : forall A B (R : A -> B -> Prop) l m,
  Forall2 R l m -> Forall2 R (removelast l) (removelast m).
Proof.
  intros A B R l m H. induction H as [|x y l m H1 H2 IH]; [constructor|].
  inversion H2; subst; cbn [removelast]; [constructor|]. constructor; auto.
Qed.

Lemma fold_eq : forall b nodes comps, Forall2 (fun o c => c_str b o = Ok c) nodes comps ->
  forall levels no d, Forall2 (fun o c => c_str b o = Ok c) no d ->
  length no + length nodes <= levels ->
  exists no', collapse_fold b nodes levels no = Ok no' /\
    Forall2 (fun o c => c_str b o = Ok c) no' (resolve d comps).
Proof.
  intros b nodes comps H. induction H as [|o c nodes comps H1 H2 IH]; intros levels no d Hd L.
  - exists no. split; auto.
  - cbn [collapse_fold]. rewrite H1. cbn [bind length] in *.
    unfold resolve. cbn [fold_left]. fold (resolve (walk d c) comps). unfold walk.
    destruct (beq c (lit "..")).
    + apply IH; [apply Forall2_removelast; auto|]. pose proof (removelast_length _ no). lia.
    + destruct (beq c (lit ".")).
      * apply IH; auto. lia.
      * destruct (Nat.ltb_spec (length no) levels); [|lia].
        apply IH; [apply Forall2_app; auto|]. rewrite app_length; cbn [length]; lia.
Qed.

Lemma cat_eq : forall b no d, Forall2 (fun o c => c_str b o = Ok c) no d ->
  forall t r, no_nul t -> length (slashed d) <= length r ->
  collapse_cat b no (t ++ NUL :: r) = Ok (t ++ slashed d ++ NUL :: skipn (length (slashed d)) r).
Proof.
  intros b no d H. induction H as [|o c no d H1 H2 IH]; intros t r N L.
  - reflexivity.
  - cbn [collapse_cat]. rewrite slashed_cons in *. cbn [length] in L. rewrite app_length in L.
    rewrite c_strcat_0 by (auto; change (length (lit "/")) with 1; lia). cbn [bind].
    rewrite H1. cbn [bind]. change (lit "/") with [SL].
    change (length [SL]) with 1. change (t ++ [SL] ++ NUL :: skipn 1 r) with (t ++ SL :: NUL :: skipn 1 r).
    pose proof (c_str_inv _ _ _ H1) as (Nc & _).
    replace (t ++ SL :: NUL :: skipn 1 r) with ((t ++ [SL]) ++ NUL :: skipn 1 r) by (rewrite <- app_assoc; reflexivity).
    assert (no_nul (t ++ [SL])) by (apply no_nul_app; split; auto; intros [E|[]]; discriminate).
    rewrite c_strcat_0 by (auto; rewrite skipn_length; lia). cbn [bind].
    rewrite app_assoc. rewrite IH.
    + rewrite <- !app_assoc. cbn [app]. rewrite !skipn_add. cbn [length]. rewrite app_length.
      replace (1 + length c + length (slashed d)) with (S (length c + length (slashed d))) by lia.
      rewrite <- !app_assoc. reflexivity.
    + apply no_nul_app; auto.
    + rewrite !skipn_length. lia.
Qed.

(** ** Facts about walking *)

Lemma slashed_removelast : forall d, length (slashed (removelast d)) <= length (slashed d).
Proof.
  intros d. destruct d as [|c d] using rev_ind; [auto|].
  rewrite removelast_last, slashed_snoc, app_length. lia.
Qed.

Lemma resolve_length : forall p d,
  length (slashed (resolve d p)) <= length (slashed d) + length (slashed p).
Proof.
  induction p as [|c p IH]; intros d.
  - change (resolve d []) with d. lia.
  - unfold resolve. cbn [fold_left]. fold (resolve (walk d c) p).
    etransitivity; [apply IH|]. rewrite slashed_cons. cbn [length]. rewrite app_length.
    assert (length (slashed (walk d c)) <= length (slashed d) + S (length c)); [|lia].
    unfold walk. destruct (beq c (lit "..")); [pose proof (slashed_removelast d); lia|].
    destruct (beq c (lit ".")); [lia|]. rewrite slashed_snoc, app_length. cbn [length]. lia.
Qed.

Lemma resolve_app : forall d p q, resolve d (p ++ q) = resolve (resolve d p) q.
Proof. intros. unfold resolve. apply fold_left_app. Qed.

Lemma resolve_Forall : forall (P : bytes -> Prop) p d, Forall P p -> Forall P d -> Forall P (resolve d p).
Proof.
  intros P. induction p as [|c p IH]; intros d Fp Fd; [exact Fd|].
  unfold resolve. cbn [fold_left]. inversion Fp; subst. apply IH; auto.
  unfold walk. destruct (beq c (lit "..")).
  - rewrite Forall_forall in *. intros x Hx. apply Fd.
    destruct d as [|y d] using rev_ind; [destruct Hx|]. rewrite removelast_last in Hx. apply in_or_app; auto.
  - destruct (beq c (lit ".")); auto. apply Forall_app; auto.
Qed.

Lemma resolve_no_dots_id : forall p d, Forall no_dots p -> resolve d p = d ++ p.
Proof.
  induction p as [|c p IH]; intros d F; [unfold resolve; cbn [fold_left]; rewrite app_nil_r; auto|].
  inversion F as [|x y [H1 H2] H3]; subst. unfold resolve. cbn [fold_left]. 
  fold (resolve (walk d c) p). unfold walk. rewrite !beq_neq by auto. rewrite IH by auto.
  rewrite <- app_assoc. reflexivity.
Qed.

Lemma resolve_no_dots : forall p d, Forall no_dots d -> Forall no_dots (resolve d p).
Proof.
  induction p as [|c p IH]; intros d F; [exact F|].
  unfold resolve. cbn [fold_left]. apply IH. unfold walk.
  destruct (beq_spec c (lit "..")).
  - rewrite Forall_forall in *. intros x Hx. apply F.
    destruct d as [|y d] using rev_ind; [destruct Hx|]. rewrite removelast_last in Hx. apply in_or_app; auto.
  - destruct (beq_spec c (lit ".")); auto. apply Forall_app; split; auto.
    constructor; [|constructor]. split; auto.
Qed.

Lemma text_comps_no_nul : forall s, no_nul s -> Forall (fun c => no_nul c) (snd (text_comps s)).
Proof.
  intros s H. rewrite (text_comps_eq s) in H. apply no_nul_app in H as [_ H].
  apply no_nul_slashed_inv; auto.
Qed.

(** ** ush_utils_get_collapse_path: exact behaviour on every string *)

Definition collapsed (s : bytes) : bytes := show (resolve [] (snd (text_comps s))).

Lemma collapsed_length : forall s, length (collapsed s) <= Nat.max 1 (length s).
Proof.
  intros s. unfold collapsed. pose proof (resolve_length (snd (text_comps s)) []) as H.
  pose proof (f_equal (@length _) (text_comps_eq s)) as E. rewrite app_length in E.
  destruct (resolve [] (snd (text_comps s))) as [|c p]; cbn [show].
  - cbn [length]. lia.
  - change (length (slashed [])) with 0 in H. lia.
Qed.

Lemma collapse_ok : forall s r out, no_nul s -> length s < length out -> 1 < length out ->
  exists r', ush_utils_get_collapse_path (s ++ NUL :: r) out = Ok (collapsed s ++ NUL :: r') /\
             length (collapsed s ++ NUL :: r') = length out.
Proof.
  intros s r out N L L2. unfold ush_utils_get_collapse_path.
  rewrite c_str_0 by auto. cbn [bind]. rewrite c_strcpy_0 by auto. cbn [bind].
  destruct (beq_spec s (lit "/")) as [->|Ns].
  - exists (skipn 2 out). split; [reflexivity|]. change (collapsed (lit "/")) with [SL].
    cbn [app length]. rewrite skipn_length. lia.
  - assert (Lv : length (snd (text_comps s)) <= ush_utils_get_path_levels_count s).
    { etransitivity; [eapply text_comps_count; eauto|].
      unfold ush_utils_get_path_levels_count. rewrite beq_neq by auto.
      destruct s as [|c s]; [auto|]. rewrite levels_loop_count. cbn [tl count_slash].
      destruct (ceq c SL); lia. }
    pose proof (scan_eq _ s (le_n _) (S (length (s ++ NUL :: r))) [] r
                  (ush_utils_get_path_levels_count s) [] N) as SC.
    rewrite app_length in SC. cbn [length Nat.add app] in SC.
    rewrite app_length. cbn [length].
    rewrite SC by lia. cbn [bind]. clear SC.
    pose proof (offs_strings (snd (text_comps s)) (fst (text_comps s)) r (text_comps_no_nul s N)) as OS.
    destruct (fold_eq _ _ _ OS (ush_utils_get_path_levels_count s) [] [] (Forall2_nil _)) as (no & E & F).
    { rewrite offs_length. cbn [length]. lia. }
    rewrite E. cbn [bind].
    assert (W : wr (s ++ NUL :: skipn (S (length s)) out) 0 NUL =
                Ok (NUL :: tl (s ++ NUL :: skipn (S (length s)) out))).
    { destruct s; reflexivity. }
    rewrite W. cbn [bind]. clear W.
    assert (LT : S (length (tl (s ++ NUL :: skipn (S (length s)) out))) = length out).
    { transitivity (length (s ++ NUL :: skipn (S (length s)) out)); [destruct s; reflexivity|].
      rewrite app_length. cbn [length]. rewrite skipn_length. lia. }
    set (tail := tl _) in *.
    pose proof (collapsed_length s) as CL. unfold collapsed in *.
    inversion F as [E1 E2|o c no' d' H1 H2 E1 E2].
    + change (NUL :: tail) with ([] ++ NUL :: tail).
      rewrite c_strcat_0 by (try apply no_nul_nil; change (length (lit "/")) with 1; lia).
      cbn [app show]. eexists. split; [reflexivity|]. cbn [length]. rewrite skipn_length.
      change (length (lit "/")) with 1. lia.
    + change (NUL :: tail) with ([] ++ NUL :: tail). subst no.
      rewrite (cat_eq _ _ _ F).
      * rewrite E2. cbn [app]. rewrite (show_slashed (resolve _ _)) by congruence.
        eexists. split; [reflexivity|].
        rewrite app_length. cbn [length]. rewrite skipn_length.
        rewrite (show_slashed (resolve _ _)) in CL by congruence. lia.
      * apply no_nul_nil.
      * rewrite (show_slashed (resolve _ _)) in CL by congruence. lia.
Qed.

Lemma collapse_err : forall s r out, no_nul s -> length out <= length s ->
  ush_utils_get_collapse_path (s ++ NUL :: r) out = Err EOob.
Proof.
  intros s r out N L. unfold ush_utils_get_collapse_path.
  rewrite c_str_0 by auto. cbn [bind]. rewrite c_strcpy_err by lia. reflexivity.
Qed.

Lemma collapsed_no_nul : forall s, no_nul s -> no_nul (collapsed s).
Proof.
  intros s N. unfold collapsed.
  assert (F : Forall (fun c => no_nul c) (resolve [] (snd (text_comps s)))).
  { apply resolve_Forall; auto. apply text_comps_no_nul; auto. }
  destruct (resolve [] (snd (text_comps s))) as [|c p]; cbn [show].
  - intros [H|[]]; discriminate.
  - apply no_nul_slashed. exact F.
Qed.

(** Components of proper text. *)
Lemma text_comps_slash_free : forall c r, ~ In SL c ->
  text_comps (c ++ r) = (c ++ fst (text_comps r), snd (text_comps r)).
Proof.
  induction c as [|x c IH]; intros r H; cbn [app text_comps].
  - destruct (text_comps r); reflexivity.
  - rewrite ceq_neq by (intros ->; apply H; left; auto).
    rewrite IH by (intros H'; apply H; right; auto). reflexivity.
Qed.

Lemma text_comps_slashed : forall p, path_ok p -> text_comps (slashed p) = ([], p).
Proof.
  induction p as [|c p IH]; intros H; [reflexivity|].
  rewrite slashed_cons. inversion H as [|x y [N [S _]] H3]; subst.
  destruct c as [|x c]; [congruence|]. cbn [app text_comps]. rewrite ceq_refl.
  rewrite text_comps_slash_free by (intros H'; apply S; right; auto).
  rewrite IH by auto. cbn [fst snd]. rewrite app_nil_r. reflexivity.
Qed.

Lemma collapsed_slashed : forall p, path_ok p -> collapsed (slashed p) = show (resolve [] p).
Proof. intros p H. unfold collapsed. rewrite text_comps_slashed; auto. Qed.

Lemma collapsed_show : forall p, path_ok p -> collapsed (show p) = show (resolve [] p).
Proof.
  intros [|c p] H; [reflexivity|]. apply collapsed_slashed; auto.
Qed.

Lemma resolve_path_ok : forall p d, path_ok p -> path_ok d -> path_ok (resolve d p).
Proof. intros. apply resolve_Forall; auto. Qed.

(** ** ush_node_get_absolute_path *)

Lemma full_text_head : forall cwd t, exists r, full_text cwd t = SL :: r.
Proof.
  intros cwd [|c t]; cbn [full_text].
  - destruct cwd; [eexists; reflexivity|]. cbn [show]. rewrite slashed_cons. eexists; reflexivity.
  - destruct (ceq_spec c SL) as [->|N]; [eexists; reflexivity|].
    destruct cwd; [eexists; reflexivity|]. cbn [show]. rewrite slashed_cons. eexists; reflexivity.
Qed.

Lemma full_text_no_nul : forall cwd t, path_ok cwd -> no_nul t -> no_nul (full_text cwd t).
Proof.
  intros cwd t Hc Ht.
  assert (H : no_nul (match cwd with [] => [SL] | _ => show cwd ++ [SL] end)).
  { destruct cwd; [intros [E|[]]; discriminate|].
    apply no_nul_app; split; [apply show_no_nul; auto|intros [E|[]]; discriminate]. }
  destruct t as [|c t]; cbn [full_text]; auto.
  destruct (ceq c SL); auto. apply no_nul_app; auto.
Qed.

Lemma drop_slash_no_nul : forall t, no_nul t -> no_nul (drop_trailing_slash t).
Proof.
  intros t H. unfold drop_trailing_slash. destruct (_ && _); auto.
  destruct t as [|c t] using rev_ind; auto. rewrite removelast_last.
  apply no_nul_app in H as [H _]; auto.
Qed.

Lemma drop_slash_length : forall t, length (drop_trailing_slash t) <= length t.
Proof.
  intros t. unfold drop_trailing_slash. destruct (_ && _); auto. apply removelast_length.
Qed.

Lemma resolve_text_eq : forall cwd t,
  show (resolve_text cwd t) = collapsed (drop_trailing_slash (full_text cwd t)).
Proof.
  intros. unfold resolve_text, collapsed.
  destruct (resolve _ _) as [|[|c r] [|x y]]; reflexivity.
Qed.

Lemma resolve_text_no_nul : forall cwd t, path_ok cwd -> no_nul t -> no_nul (show (resolve_text cwd t)).
Proof.
  intros. rewrite resolve_text_eq. apply collapsed_no_nul, drop_slash_no_nul, full_text_no_nul; auto.
Qed.

(** First part: the full text is built in the stack buffer. *)
Lemma abs_build : forall pm h cur nd cwd t,
  getp h cur = Ok nd -> n_path nd = Some (show cwd) -> path_ok cwd -> no_nul t ->
  let build :=
    if match t with c :: _ => ceq c SL | [] => false end
    then c_strcpy (local_array pm) 0 t
    else
      nd <- getp h cur ;;
      cp <- path_of nd ;;
      abs <- c_strcpy (local_array pm) 0 cp ;;
      abs <- (if beq cp (lit "/") then Ok abs else c_strcat abs 0 (lit "/")) ;;
      c_strcat abs 0 t in
  (length (full_text cwd t) < pm ->
     exists r, build = Ok (full_text cwd t ++ NUL :: r) /\ length (full_text cwd t ++ NUL :: r) = pm) /\
  (pm <= length (full_text cwd t) -> build = Err EOob).
Proof.
  intros pm h cur nd cwd t G P Hc Ht build. unfold build. clear build.
  pose proof (local_array_length pm) as LA.
  assert (Rel : let ft := (match cwd with [] => [SL] | _ => show cwd ++ [SL] end) ++ t in
    let build := 
      nd <- getp h cur ;;
      cp <- path_of nd ;;
      abs <- c_strcpy (local_array pm) 0 cp ;;
      abs <- (if beq cp (lit "/") then Ok abs else c_strcat abs 0 (lit "/")) ;;
      c_strcat abs 0 t in
  (length ft < pm -> exists r, build = Ok (ft ++ NUL :: r) /\ length (ft ++ NUL :: r) = pm) /\
  (pm <= length ft -> build = Err EOob)).
  { cbv zeta. rewrite G. cbn [bind]. unfold path_of. rewrite P. cbn [bind].
    pose proof (show_no_nul cwd Hc) as Ns.
    destruct cwd as [|c0 cwd0].
    - change (show []) with [SL]. cbn [length app].
      destruct (le_lt_dec (length (local_array pm)) 1) as [L|L].
      + rewrite c_strcpy_err by (cbn [length]; lia). cbn [bind]. split; intros; [lia|auto].
      + rewrite c_strcpy_0 by (cbn [length]; lia). cbn [bind]. change (beq [SL] (lit "/")) with true.
        cbn [bind]. split; intros H.
        * change ([SL] ++ NUL :: skipn (S (length [SL])) (local_array pm)) with ([SL] ++ NUL :: skipn 2 (local_array pm)).
          rewrite c_strcat_0; [|intros [E|[]]; discriminate|rewrite skipn_length; lia].
          eexists. split; [reflexivity|]. cbn [app length]. rewrite app_length. cbn [length].
          rewrite !skipn_length. cbn [length]. lia.
        * apply c_strcat_err; [intros [E|[]]; discriminate|]. rewrite skipn_length. cbn [length]. lia.
    - set (cwd := c0 :: cwd0) in *.
      assert (NB : beq (show cwd) (lit "/") = false).
      { apply beq_neq. intros E. change (lit "/") with (show []) in E. apply show_inj in E; auto; [discriminate|constructor]. }
      rewrite <- app_assoc. cbn [app]. rewrite app_length. cbn [length].
      destruct (le_lt_dec (length (local_array pm)) (length (show cwd))) as [L|L].
      + rewrite c_strcpy_err by lia. cbn [bind]. split; intros; [lia|auto].
      + rewrite c_strcpy_0 by auto. cbn [bind]. rewrite NB.
        destruct (le_lt_dec (length (local_array pm)) (S (length (show cwd)))) as [L1|L1].
        * rewrite c_strcat_err; auto; [|rewrite skipn_length; change (length (lit "/")) with 1; lia].
          cbn [bind]. split; intros; [lia|auto].
        * rewrite c_strcat_0; auto; [|rewrite skipn_length; change (length (lit "/")) with 1; lia].
          cbn [bind]. change (lit "/") with [SL]. rewrite skipn_add.
          replace (show cwd ++ [SL] ++ NUL :: skipn (S (length (show cwd)) + length [SL]) (local_array pm))
            with ((show cwd ++ [SL]) ++ NUL :: skipn (S (length (show cwd)) + length [SL]) (local_array pm))
            by (rewrite <- app_assoc; reflexivity).
          assert (no_nul (show cwd ++ [SL])) by (apply no_nul_app; split; auto; intros [E|[]]; discriminate).
          split; intros H0.
          -- rewrite c_strcat_0; auto; [|rewrite skipn_length; cbn [length]; lia].
             rewrite <- app_assoc. cbn [app]. rewrite skipn_add. eexists. split; [rewrite <- (app_assoc (show cwd)); reflexivity|].
             rewrite app_length. cbn [length]. rewrite app_length. cbn [length].
             rewrite skipn_length. cbn [length]. lia.
          -- apply c_strcat_err; auto. rewrite skipn_length. cbn [length]. lia. }
  destruct t as [|c t]; cbn [full_text].
  - cbv zeta in Rel. rewrite !app_nil_r in Rel. exact Rel.
  - destruct (ceq c SL) eqn:E; [|exact Rel].
    split; intros H.
    + rewrite c_strcpy_0 by lia. eexists. split; [reflexivity|].
      rewrite app_length. cbn [length]. rewrite skipn_length. cbn [length] in *. lia.
    + apply c_strcpy_err. lia.
Qed.

Theorem abs_path_ok : forall pm h cur nd cwd t,
  getp h cur = Ok nd -> n_path nd = Some (show cwd) -> path_ok cwd -> no_nul t ->
  length (full_text cwd t) < pm ->
  abs_path_str pm h cur t = Ok (show (resolve_text cwd t)).
Proof.
  intros pm h cur nd cwd t G P Hc Ht L. unfold abs_path_str, ush_node_get_absolute_path.
  destruct (abs_build pm h cur nd cwd t G P Hc Ht) as [B _].
  destruct (B L) as (r & -> & Lr). clear B. cbn [bind].
  pose proof (full_text_no_nul cwd t Hc Ht) as N.
  rewrite c_strlen_0 by auto. cbn [bind].
  set (ft := full_text cwd t) in *.
  assert (D : (if 1 <? length ft
               then c <- rd (ft ++ NUL :: r) (length ft - 1) ;;
                    (if ceq c SL then wr (ft ++ NUL :: r) (length ft - 1) NUL else Ok (ft ++ NUL :: r))
               else Ok (ft ++ NUL :: r)) =
              Ok (drop_trailing_slash ft ++ NUL :: (if (1 <? length ft) && ceq (last ft NUL) SL then NUL :: r else r))).
  { unfold drop_trailing_slash. destruct (Nat.ltb_spec 1 (length ft)) as [L1|L1]; cbn [andb]; auto.
    destruct ft as [|c ft'] eqn:E using rev_ind; [cbn [length] in L1; lia|]. clear IHft'.
    rewrite last_last, app_length. cbn [length]. rewrite Nat.add_sub.
    rewrite <- app_assoc. cbn [app]. rewrite rd_app by auto. cbn [bind].
    destruct (ceq c SL).
    - rewrite wr_app by auto. rewrite removelast_last. reflexivity.
    - rewrite <- app_assoc. reflexivity. }
  rewrite D. cbn [bind]. clear D.
  pose proof (drop_slash_length ft). pose proof (local_array_length pm).
  assert (1 <= length ft). { unfold ft. destruct (full_text_head cwd t) as (x & ->). cbn [length]. lia. }
  destruct (collapse_ok (drop_trailing_slash ft) (if (1 <? length ft) && ceq (last ft NUL) SL then NUL :: r else r)
              (local_array pm) (drop_slash_no_nul _ N)) as (r' & -> & _); try lia.
  cbn [bind]. rewrite c_str_0 by (apply collapsed_no_nul, drop_slash_no_nul; auto).
  rewrite resolve_text_eq. reflexivity.
Qed.

Theorem abs_path_err : forall pm h cur nd cwd t,
  getp h cur = Ok nd -> n_path nd = Some (show cwd) -> path_ok cwd -> no_nul t ->
  pm <= length (full_text cwd t) ->
  abs_path_str pm h cur t = Err EOob.
Proof.
  intros pm h cur nd cwd t G P Hc Ht L. unfold abs_path_str, ush_node_get_absolute_path.
  destruct (abs_build pm h cur nd cwd t G P Hc Ht) as [_ B]. rewrite (B L). reflexivity.
Qed.

(** The resolved text starts with '/'. *)
Lemma show_head : forall p, exists r, show p = SL :: r.
Proof. intros [|c p]; eexists; reflexivity. Qed.

Lemma show_length : forall p, 1 <= length (show p).
Proof. intros p. destruct (show_head p) as (r & ->). cbn [length]; lia. Qed.

Lemma resolve_text_length : forall cwd t, length (show (resolve_text cwd t)) <= length (full_text cwd t).
Proof.
  intros. rewrite resolve_text_eq. pose proof (collapsed_length (drop_trailing_slash (full_text cwd t))).
  pose proof (drop_slash_length (full_text cwd t)).
  destruct (full_text_head cwd t) as (x & E). rewrite E in *. cbn [length] in *. lia.
Qed.
