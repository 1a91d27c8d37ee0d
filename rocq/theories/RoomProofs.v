(** * RoomProofs: output buffers that are too small. *)
From Coq Require Import Arith.
From Verif Require Import Shell BaseFacts LogFacts Sched ServiceFacts SchedFacts Macro Editor EditFacts Words ParseFacts PromptFacts PhaseFacts Line LineFacts SchedProofs LineProofs Spec PathFacts CollapseFacts DecodeFacts Tree TreeFacts TreeOps TreeFind TreeProofs Cmds CmdFacts PrintfFacts HookFacts CmdProofs Complete GetProofs SessionProofs Room.

(** ** From calls to [breaks] *)
Lemma works_serves : forall e s s', works e s s' -> exists n, serves e n s s'.
Proof. intros e s s' W. induction W as [s|s b s1 s2 P H W (n & IH)]; [exists 0; constructor|]. exists (S n). econstructor; eauto. Qed.

Lemma took_breaks : forall e c s s1 evs x, took e c s s1 -> lg s1 = lg s ++ EvIn c :: evs -> ~ polling s1 -> ush_service (tick e None) s1 = Err x -> breaks e c s evs x.
Proof.
  intros e c s s1 evs x (P & b & s0 & H & W) L N E. split; [exact P|]. destruct (works_serves _ _ _ W) as (n & Sv). exists b, s0, n, s1. auto.
Qed.

Lemma proc_err : forall e p s x, running p s -> process_state (o_state s) -> match p with PUser _ => False | _ => True end -> proc e p s = Err x -> ~ polling s /\ ush_service (tick e None) s = Err x.
Proof.
  intros e p s x (C & f & Pf & Fp) St Np P. split; [intros X; unfold polling in X; destruct St as [St|[St|St]]; congruence|].
  rewrite service_eq. destruct (o_cur s); [|congruence]. unfold svc.
  destruct St as [St|[St|St]]; rewrite St; unfold ush_process_service; rewrite St, Pf, Fp;
    destruct p; cbn [proc] in P; try contradiction; cbn [io_env tick]; rewrite P; reflexivity.
Qed.

Lemma split_left : forall {A} (a b pre : list A) f post, a ++ b = pre ++ f :: post -> length pre < length a -> exists r, a = pre ++ f :: r.
Proof.
  intros A a b pre f post. revert a. induction pre as [|x pre IH]; intros a E L; destruct a as [|y a]; cbn [length] in L; try lia; cbn [app] in E; injection E as -> E.
  - exists a. reflexivity.
  - destruct (IH a E) as (r & ->); [lia|]. exists r. reflexivity.
Qed.
Lemma split_right : forall {A} (a b pre q : list A), a ++ b = pre ++ q -> length a <= length pre -> pre = a ++ skipn (length a) pre /\ b = skipn (length a) pre ++ q.
Proof.
  intros A a. induction a as [|x a IH]; intros b pre q E L; [split; [reflexivity|exact E]|]. destruct pre as [|y pre]; cbn [length] in L; [lia|]. cbn [app] in E. injection E as -> E.
  destruct (IH b pre q E) as (E1 & E2); [lia|]. cbn [length skipn app]. split; [congruence|exact E2].
Qed.

Lemma print_out_err : forall t next s, length (outb s) <= length t -> print_out t next s = Err EOob.
Proof. intros t next s L. unfold print_out, c_strcpy. rewrite wr_bytes_err; [reflexivity|]. rewrite app_length. cbn [length]. lia. Qed.

(** ** help *)
Lemma help_file_err : forall e i k s nd f pc pd ps, at_ PHelp S_PROCESS_START (Some i, pc, k, 0, pd, ps) s -> getn (hp s) i = Ok nd -> nth_error (n_files nd) k = Some f ->
  too_long (o_desc s) f -> proc e PHelp s = Err EOob.
Proof.
  intros e i k s nd f pc pd ps A G F L. assert (Lk : k < length (n_files nd)) by (apply nth_error_Some; congruence).
  at_fields A. destruct B as (_ & B & _). cbn [proc]. unfold help_service. rewrite St, H, G. cbn [bind].
  rewrite H1. destruct (Nat.leb_spec (length (n_files nd)) k); [lia|]. unfold rd. rewrite F. cbn [bind]. rewrite H2.
  unfold too_long in L. destruct (f_desc f) as [d|] eqn:Ed.
  - apply print_out_err. rewrite (name_column_length _ _ _ Ed). change (outb (set_pidx 1 s)) with (outb s). rewrite B. exact L.
  - apply print_out_err. unfold name_room in L. rewrite Ed in L. change (outb (set_pidx 2 s)) with (outb s). rewrite B. exact L.
Qed.

Lemma help_groups_err : forall e pc pd ps pre f post gs p s, at_ PHelp S_PROCESS_START (p, pc, 0, 0, pd, ps) s -> chain (hp s) p (map fst gs) ->
  (forall i fl, In (i, fl) gs -> exists nd, nth_error (hp s) i = Some nd /\ n_files nd = fl) ->
  flat_map snd gs = pre ++ f :: post -> Forall (listable (o_desc s)) pre -> too_long (o_desc s) f ->
  exists s', emits e s (map EvOut (help_text (d_cfg (o_desc s)) pre)) s' /\ (exists c, at_ PHelp S_PROCESS_START c s') /\ proc e PHelp s' = Err EOob.
Proof.
  intros e pc pd ps pre f post gs. assert (P0 : process_state S_PROCESS_START) by (left; reflexivity). revert pre.
  induction gs as [|(i, fl) gs IH]; intros pre p s A C G E F Tl; [destruct pre; discriminate E|].
  cbn [map fst chain] in C. destruct C as (-> & nd & Hn & C). destruct (G i fl (or_introl eq_refl)) as (nd' & Hn' & Nf).
  assert (nd' = nd) by congruence. subst nd'. cbn [flat_map snd] in E.
  assert (Gn : getn (hp s) i = Ok nd) by (unfold getn, rd; rewrite Hn; reflexivity).
  destruct (Nat.lt_ge_cases (length pre) (length fl)) as [Lt|Ge].
  - (* the bad file is in this group *)
    assert (Efl : exists r, fl = pre ++ f :: r).
    { exact (split_left fl (flat_map snd gs) pre f post E Lt). }
    destruct Efl as (r & Efl).
    assert (H : forall q pre' s, at_ PHelp S_PROCESS_START (Some i, pc, length pre', 0, pd, ps) s -> getn (hp s) i = Ok nd -> n_files nd = pre' ++ q ++ f :: r -> Forall (listable (o_desc s)) q -> too_long (o_desc s) f ->
      exists s', emits e s (map EvOut (help_text (d_cfg (o_desc s)) q)) s' /\ (exists c, at_ PHelp S_PROCESS_START c s') /\ proc e PHelp s' = Err EOob).
    { induction q as [|g q IHq]; intros pre' s' A' G' N' F' T'.
      - exists s'. split; [apply emits_refl|]. split; [eexists; exact A'|]. apply (help_file_err e i (length pre') s' nd f pc pd ps A' G'); [|exact T'].
        rewrite N', nth_error_app2, Nat.sub_diag by lia. reflexivity.
      - inversion F' as [|? ? Fg Fq]; subst.
        destruct (help_file e i (length pre') s' nd g pc pd ps A' G') as (s1 & E1 & A1); [rewrite N', nth_error_app2, Nat.sub_diag by lia; reflexivity|exact Fg|].
        pose proof E1 as (_ & K1 & _).
        destruct (IHq (pre' ++ [g]) s1) as (s2 & E2 & A2 & R2).
        + rewrite app_length. cbn [length]. rewrite Nat.add_1_r. exact A1.
        + rewrite (kept_hp _ _ K1). exact G'.
        + rewrite <- app_assoc. exact N'.
        + rewrite (kept_desc _ _ K1). exact Fq.
        + rewrite (kept_desc _ _ K1). exact T'.
        + exists s2. split; [|split; [exact A2|exact R2]]. cbn [help_text flat_map]. rewrite map_app. rewrite (kept_desc _ _ K1) in E2. eapply emits_trans; [exact E1|exact E2]. }
    apply (H pre [] s A Gn); auto. cbn [app]. rewrite Nf. exact Efl.
  - (* it is in a later one *)
    assert (Ep : pre = fl ++ skipn (length fl) pre /\ flat_map snd gs = skipn (length fl) pre ++ f :: post).
    { exact (split_right fl (flat_map snd gs) pre (f :: post) E Ge). }
    destruct Ep as (Ep & E2). rewrite Ep in F |- *. apply Forall_app in F as (F1 & F2). set (pre2 := skipn (length fl) pre) in *.
    destruct (help_files e i nd pc pd ps fl [] s A Gn Nf F1) as (s1 & E1 & A1). pose proof E1 as (_ & K1 & _).
    destruct (say_nothing e PHelp S_PROCESS_START _ s1 (set_pnode (n_next nd) (set_pitem 0 (set_pidx 0 s1))) S_PROCESS_START (n_next nd, pc, 0, 0, pd, ps) A1 P0) as (s2 & Es2 & A2).
    { cbn [proc]. at_fields A1. unfold help_service. rewrite St, H, (kept_hp _ _ K1), Gn. cbn [bind]. rewrite H1, Nat.leb_refl. reflexivity. }
    { repeat split. }
    { reflexivity. }
    { apply A1. }
    { at_fields A1. put. }
    pose proof Es2 as (_ & K2 & _). pose proof (kept_trans _ _ _ K1 K2) as K.
    destruct (IH pre2 (n_next nd) s2 A2) as (s3 & E3 & A3 & R3).
    + rewrite (kept_hp _ _ K). exact C.
    + intros j gl I. rewrite (kept_hp _ _ K). apply G. right; exact I.
    + exact E2.
    + rewrite (kept_desc _ _ K). exact F2.
    + rewrite (kept_desc _ _ K). exact Tl.
    + exists s3. split; [|split; [exact A3|exact R3]]. unfold help_text. rewrite flat_map_app, map_app. eapply emits_trans; [exact E1|].
      rewrite (kept_desc _ _ K) in E3. exact (emits_trans e s1 [] s2 _ s3 Es2 E3).
Qed.

(** ** ls *)
Lemma ls_flags_err : forall e i k s nd f pc pd ps, at_ PLs S_PROCESS_FINISH (Some i, pc, k, 0, pd, ps) s -> getn (hp s) i = Ok nd -> nth_error (n_files nd) k = Some f ->
  d_outsize (o_desc s) <= 6 -> proc e PLs s = Err EOob.
Proof.
  intros e i k s nd f pc pd ps A G F L. assert (Lk : k < length (n_files nd)) by (apply nth_error_Some; congruence).
  at_fields A. destruct B as (_ & B & _). cbn [proc]. unfold ls_service. rewrite St, H. cbn [getp]. rewrite G. cbn [bind].
  rewrite H1. destruct (Nat.leb_spec (length (n_files nd)) k); [lia|]. unfold rd. rewrite F. cbn [bind]. rewrite H2.
  rewrite print_out_err; [reflexivity|]. rewrite B. cbn [length ls_flags]. exact L.
Qed.

Lemma ls_name_err : forall e i k s nd f pc pd ps, at_ PLs S_PROCESS_FINISH (Some i, pc, k, 0, pd, ps) s -> getn (hp s) i = Ok nd -> nth_error (n_files nd) k = Some f ->
  6 < d_outsize (o_desc s) -> too_long (o_desc s) f ->
  exists s', emits e s (map EvOut (file_flags f)) s' /\ (exists c, at_ PLs S_PROCESS_FINISH c s') /\ proc e PLs s' = Err EOob.
Proof.
  intros e i k s nd f pc pd ps A G F L6 L. assert (Lk : k < length (n_files nd)) by (apply nth_error_Some; congruence).
  assert (P0 : process_state S_PROCESS_FINISH) by (right; right; reflexivity).
  assert (Step : forall s1 j, kept s s1 -> at_ PLs S_PROCESS_FINISH (Some i, pc, k, j, pd, ps) s1 ->
    ls_service s1 = match j with
      | 0 => s <- print_out (ls_flags f) S_PROCESS_FINISH s1 ;; Ok (set_pidx 1 s)
      | 1 => match f_desc f with
             | Some _ => print_out (name_column (d_cfg (o_desc s)) (f_name f)) S_PROCESS_FINISH (set_pidx 2 s1)
             | None => print_out (f_name f) S_PROCESS_FINISH (set_pidx 3 s1) end
      | 2 => d <- deref (f_desc f) ;; Ok (set_pidx 3 (write_str d S_PROCESS_FINISH s1))
      | 3 => Ok (set_pitem (S k) (set_pidx 0 (write_str (match f_desc f with Some _ => sty_reset (d_cfg (o_desc s)) ++ CRLF | None => CRLF end) S_PROCESS_FINISH s1)))
      | _ => Err EAssert
      end).
  { intros s1 j K A1. at_fields A1. unfold ls_service. rewrite St, H. cbn [getp]. rewrite (kept_hp _ _ K), G. cbn [bind].
    rewrite H1. destruct (Nat.leb_spec (length (n_files nd)) k); [lia|]. unfold rd. rewrite F. cbn [bind]. rewrite H2, (kept_desc _ _ K). reflexivity. }
  assert (S1 : exists s1, emits e s (map EvOut (file_flags f)) s1 /\ at_ PLs S_PROCESS_FINISH (Some i, pc, k, 1, pd, ps) s1).
  { eapply (say_out_then e PLs _ _ s (ls_flags f)); [exact A|exact P0|exact (Step s 0 (kept_refl s) A)|cbn [length ls_flags]; lia|apply flags_no_nul|]. at_fields A. put. }
  destruct S1 as (s1 & E1 & A1). exists s1. split; [exact E1|]. split; [eexists; exact A1|]. pose proof E1 as (_ & K1 & _).
  cbn [proc]. rewrite (Step s1 1 K1 A1). destruct A1 as (_ & _ & _ & _ & B & _). rewrite (kept_desc _ _ K1) in B. unfold too_long in L. destruct (f_desc f) as [d|] eqn:Ed.
  - apply print_out_err. rewrite (name_column_length _ _ _ Ed). change (outb (set_pidx 2 s1)) with (outb s1). rewrite B. exact L.
  - apply print_out_err. unfold name_room in L. rewrite Ed in L. change (outb (set_pidx 3 s1)) with (outb s1). rewrite B. exact L.
Qed.

Lemma ls_files_err : forall e i nd pc pd ps q f post t pre s, at_ PLs S_PROCESS_FINISH (Some i, pc, length pre, 0, pd, ps) s -> getn (hp s) i = Ok nd -> n_files nd = pre ++ q ++ f :: post ->
  ls_stops (o_desc s) q f t ->
  exists s', emits e s (map EvOut (flat_map (fun f => file_flags f ++ name_text (d_cfg (o_desc s)) f ++ crlf) q ++ t)) s' /\ (exists c, at_ PLs S_PROCESS_FINISH c s') /\ proc e PLs s' = Err EOob.
Proof.
  intros e i nd pc pd ps q f post t. induction q as [|g q IH]; intros pre s A G N Hs.
  - assert (F : nth_error (n_files nd) (length pre) = Some f) by (rewrite N, nth_error_app2, Nat.sub_diag by lia; reflexivity). cbn [flat_map app].
    destruct Hs as [(_ & L & ->)|(L6 & _ & Tl & ->)].
    + exists s. split; [apply emits_refl|]. split; [eexists; exact A|]. exact (ls_flags_err e i (length pre) s nd f pc pd ps A G F L).
    + exact (ls_name_err e i (length pre) s nd f pc pd ps A G F L6 Tl).
  - destruct Hs as [(Z & _)|(L6 & Fq & Tl & Et)]; [discriminate|]. inversion Fq as [|? ? Fg Fr]; subst.
    destruct (ls_file e i (length pre) s nd g pc pd ps A G) as (s1 & E1 & A1); [rewrite N, nth_error_app2, Nat.sub_diag by lia; reflexivity|exact Fg|exact L6|].
    pose proof E1 as (_ & K1 & _). pose proof (kept_desc _ _ K1) as D1.
    destruct (IH (pre ++ [g]) s1) as (s2 & E2 & A2 & R2).
    + rewrite app_length. cbn [length]. rewrite Nat.add_1_r. exact A1.
    + rewrite (kept_hp _ _ K1). exact G.
    + rewrite <- app_assoc. exact N.
    + right. rewrite D1. auto.
    + exists s2. split; [|split; [exact A2|exact R2]]. cbn [flat_map]. rewrite <- app_assoc, map_app. rewrite D1 in E2. eapply emits_trans; [exact E1|exact E2].
Qed.

Lemma ls_run_err : forall e s root fs d pc pi px pd ps pre f post t, at_ PLs S_PROCESS_START (Some (de_node d), pc, pi, px, pd, ps) s ->
  rep (hp s) root fs -> In d fs -> de_files d = pre ++ f :: post -> ls_stops (o_desc s) pre f t ->
  exists s', emits e s (map EvOut (ls_text (d_cfg (o_desc s)) (is_root d) (map dir_name (children (de_path d) fs)) pre ++ t)) s' /\ (exists c, at_ PLs S_PROCESS_FINISH c s') /\ proc e PLs s' = Err EOob.
Proof.
  intros e s root fs d pc pi px pd ps pre f post t0 A Rep Id Ef Hs. pose proof Rep as (O & Sd & _). pose proof O as (Pk & Np & Nn & Cl).
  destruct (Sd d Id) as (nd & Hn & P & Nf & Par & Ch).
  assert (Gn : getn (hp s) (de_node d) = Ok nd) by (unfold getn, rd; rewrite Hn; reflexivity).
  set (c := d_cfg (o_desc s)) in *.
  set (t := dir_line c (lit ".") ++ (if is_root d then [] else dir_line c (lit ".."))).
  assert (Et : match n_parent nd with Some _ => ls_dot c ++ ls_dotdot c | None => ls_dot c end = t).
  { unfold t, is_root. rewrite Par. destruct (de_path d) as [|x p] eqn:Ep; [rewrite app_nil_r; reflexivity|].
    assert (I : In (removelast (x :: p)) (map de_path fs)) by (rewrite <- Ep; apply Cl; [exact Id|congruence]).
    destruct (node_at (removelast (x :: p)) fs) as [j|] eqn:Nd; [|apply node_at_none in Nd; contradiction]. reflexivity. }
  unfold ls_text. fold c. rewrite app_assoc. fold t. rewrite <- !app_assoc, !map_app.
  apply and_then with (P := at_ PLs S_PROCESS_SERVICE (Some (de_node d), n_children nd, pi, 0, pd, ps)).
  { eapply (say_str e PLs _ _ s (set_pidx 0 (set_pchild (n_children nd) s))); [exact A|left; reflexivity| |repeat split|reflexivity|].
    - cbn [proc]. at_fields A. unfold ls_service. rewrite St, H. cbn [getp]. rewrite Gn. cbn [bind]. fold c. rewrite Et. reflexivity.
    - at_fields A. put. }
  intros s1 K1 A1. pose proof (kept_hp _ _ K1) as Kh. pose proof (kept_desc _ _ K1) as Kd. unfold c. rewrite <- Kd. eapply and_then.
  { apply (ls_children e (Some (de_node d)) pd ps (children (de_path d) fs) (n_children nd) pi s1 A1); rewrite Kh; [exact Ch|].
    intros x I. apply children_in in I as (Ix & Nx & _). destruct (Sd x Ix) as (nx & Hx & Px & _). exists nx. repeat split; auto.
    rewrite Forall_forall in Pk. apply Pk. exact Ix. }
  intros s2 K2 A2. pose proof (kept_hp _ _ K2) as Kh2. pose proof (kept_desc _ _ K2) as Kd2. rewrite <- Kd2, <- map_app.
  apply (ls_files_err e (de_node d) nd None pd ps pre f post t0 [] s2 A2); [rewrite Kh2, Kh; exact Gn|cbn [app]; congruence|]. rewrite Kd2, Kd; auto.
Qed.

(** ** xxd *)
Lemma append_err : forall a r t, no_nul a -> length r < length t -> (l <- c_strlen (a ++ NUL :: r) 0 ;; c_strcpy (a ++ NUL :: r) l t) = Err EOob.
Proof.
  intros a r t N L. rewrite c_strlen_0 by exact N. cbn [bind]. unfold c_strcpy. apply wr_bytes_err. rewrite !app_length. cbn [length]. lia.
Qed.
Lemma strcat_err : forall a r t, no_nul a -> length r < length t -> c_strcat (a ++ NUL :: r) 0 t = Err EOob.
Proof. intros a r t N L. unfold c_strcat. cbn [Nat.add]. apply append_err; auto. Qed.

Lemma xxd_hex_err : forall s d, covers (o_pdata s) d -> o_pdsize s = length d ->
  forall n off a r, no_nul a -> length r < 3 * n -> xxd_hex n off s (a ++ NUL :: r) = Err EOob.
Proof.
  intros s d P Z. induction n as [|n IH]; intros off a r N L; [lia|].
  cbn [xxd_hex]. rewrite Z. destruct (Nat.ltb_spec off (length d)) as [Lo|Lo].
  - rewrite (pdata_ok s d off P Lo). cbn [bind]. rewrite hex2_eq. destruct (Nat.lt_ge_cases (length r) 3) as [L3|L3].
    + rewrite append_err; auto.
    + rewrite append_ok by (auto; cbn [length app hex2 lit list_ascii_of_string]; lia). cbn [bind].
      apply IH; [apply no_nul_app; split; [exact N|apply hex2_no_nul]|rewrite skipn_length; cbn [length app hex2 lit list_ascii_of_string]; lia].
  - destruct (Nat.lt_ge_cases (length r) 3) as [L3|L3].
    + rewrite strcat_err; auto.
    + rewrite strcat_ok by (auto; cbn [length lit list_ascii_of_string]; lia). cbn [bind].
      apply IH; [apply no_nul_app; split; [exact N|intros I; cbn in I; intuition discriminate]|rewrite skipn_length; cbn [length lit list_ascii_of_string]; lia].
Qed.

Lemma xxd_run_err : forall e s d D pn pc pi px t, covers D d -> at_ PXxd S_PROCESS_START (pn, pc, pi, px, D, length d) s -> xxd_stops (o_desc s) t ->
  exists s', emits e s (map EvOut t) s' /\ (exists c, at_ PXxd S_PROCESS_SERVICE c s') /\ proc e PXxd s' = Err EOob.
Proof.
  intros e s d D pn pc pi px t Cv A [(L & ->)|(L10 & L & ->)].
  - destruct (say_nothing e PXxd S_PROCESS_START _ s (set_state S_PROCESS_SERVICE (set_pitem 0 (set_pidx 0 s))) S_PROCESS_SERVICE (pn, pc, 0, 0, D, length d) A) as (s1 & E1 & A1).
    { left; reflexivity. }
    { cbn [proc]. at_fields A. unfold xxd_service. rewrite St. reflexivity. }
    { repeat split. }
    { reflexivity. }
    { reflexivity. }
    { at_fields A. put. }
    exists s1. split; [exact E1|]. split; [eexists; exact A1|]. pose proof E1 as (_ & K1 & _). at_fields A1. destruct B as (_ & B & _). rewrite (kept_desc _ _ K1) in B.
    cbn [proc]. unfold xxd_service. rewrite St, H2, H1, fmt_hex_eq by (cbn; lia). rewrite print_out_err; [reflexivity|]. rewrite B, app_length, hex_digits_length. exact L.
  - destruct (xxd_first e s pn pc pi px D (length d) A L10) as (s1 & E1 & A1). exists s1. split; [exact E1|]. split; [eexists; exact A1|].
    pose proof E1 as (_ & K1 & _). pose proof (kept_desc _ _ K1) as D1. at_fields A1. destruct B as (_ & B & _). rewrite D1 in B.
    cbn [proc]. unfold xxd_service. rewrite St, H2, H1, D1. destruct (outb s1) as [|x r] eqn:Ob; [cbn in B; lia|]. cbn [length] in B.
    replace (wr (x :: r) 0 NUL) with (Ok (NUL :: r)) by reflexivity. cbn [bind]. set (cols := cfg_cols (d_cfg (o_desc s))) in *.
    assert (Cv1 : covers (o_pdata s1) d) by (rewrite H3; exact Cv).
    destruct (Nat.lt_ge_cases (length r) (3 * cols)) as [Lt|Ge].
    + pose proof (xxd_hex_err s1 d Cv1 H4 cols 0 [] r (fun I => I) Lt) as X. cbn [app] in X. rewrite X. reflexivity.
    + pose proof (xxd_hex_ok s1 d Cv1 H4 cols 0 [] r (fun I => I) Ge) as X. cbn [app] in X. rewrite X. cbn [bind].
      rewrite strcat_err; [reflexivity|apply hex_cols_no_nul|rewrite skipn_length; cbn [length lit list_ascii_of_string]; lia].
Qed.

(** ** From the end of line *)
Lemma cmd_breaks : forall e own w cwd l ws f cb s c evs t x, asked e own w cwd l ws f s -> c = CR \/ c = LF -> ws <> [] -> f_exec f = Some cb ->
  (forall s2 args, set_to_run e ws c s s2 args -> knows own s2 w -> cwd_is s2 (show cwd) -> Forall no_nul ws ->
    exists s3 s4 p z cn, call_exec e cb f args ws s2 = Ok s3 /\ lg s3 = lg s2 ++ EvExec cb (Some (f_name f)) ws :: evs /\ emits e s3 (map EvOut t) s4 /\
      at_ p z cn s4 /\ process_state z /\ match p with PUser _ => False | _ => True end /\ proc e p s4 = Err x) ->
  breaks_off e c s cb f ws evs t x.
Proof.
  intros e own w cwd l ws f cb s c evs t x A Hc Ne Fx H. pose proof A as (K0 & Wc & En & X & Fn). pose proof (cwd_show _ _ _ _ K0 Wc) as W0.
  destruct (hooked_line_took e l ws s c (show cwd) En W0 Hc Ne X) as (s2 & args & Rr & _ & Tk).
  pose proof Rr as (Kc & _ & _ & _ & _ & _ & _ & _ & L2).
  destruct (H s2 args Rr (knows_core _ _ _ _ Kc K0) (core_cwd _ _ _ Kc W0) (entered_no_nul _ _ _ En)) as (s3 & s4 & p & z & cn & Ex & L3 & (W4 & K4 & L4) & (R4 & St4 & _) & Ps & Np & Pe).
  assert (T4 : took e c s s4).
  { apply took_works with (s1 := s3); [|exact W4]. apply Tk. unfold run_file. rewrite (find_core _ s s2 Kc), (find_group own s w _ f K0 Fn). cbn [bind]. rewrite Fx. exact Ex. }
  rewrite <- St4 in Ps. destruct (proc_err e p s4 x R4 Ps Np Pe) as (N4 & E4).
  apply (took_breaks e c s s4 _ x T4); auto. rewrite L4, L3, L2. rewrite <- !app_assoc. cbn [app]. rewrite <- !app_assoc. reflexivity.
Qed.

Lemma C62_help_proof : forall e own w cwd l n s c pre f post, asked e own w cwd l [n] cmd_help s -> c = CR \/ c = LF ->
  flat_map snd (w_groups w) = pre ++ f :: post -> Forall (listable (o_desc s)) pre -> too_long (o_desc s) f ->
  breaks_off e c s XHelp cmd_help [n] [] (help_text (d_cfg (o_desc s)) pre) EOob.
Proof.
  intros e own w cwd l n s c pre f post A Hc Ef F Tl. apply (cmd_breaks e own w cwd l [n] cmd_help XHelp s c); auto; [discriminate|].
  intros s2 args R K W _. set (s2' := emit (EvExec XHelp (Some (f_name cmd_help)) [n]) s2). pose proof R as (Kc & B & _). pose proof K as (_ & (Nd & Ch & Gf) & _).
  set (s3 := ush_process_start cmd_help (set_pitem 0 (set_pidx 0 (set_pnode (o_cmds s2) s2')))).
  assert (A3 : at_ PHelp S_PROCESS_START (o_cmds s2, o_pchild s2, 0, 0, o_pdata s2, o_pdsize s2) s3).
  { apply (started cmd_help PHelp (set_pitem 0 (set_pidx 0 (set_pnode (o_cmds s2) s2')))); [reflexivity|exact (cwd_cur _ _ W)|exact B]. }
  assert (D3 : o_desc s3 = o_desc s) by exact (core_desc _ _ Kc).
  destruct (help_groups_err e _ _ _ pre f post (w_groups w) _ s3 A3) as (s4 & Em & (cn & A4) & Er); [exact Ch|exact Gf|exact Ef|rewrite D3; exact F|rewrite D3; exact Tl|].
  rewrite D3 in Em. exists s3, s4, PHelp, S_PROCESS_START, cn. repeat (split; [first [reflexivity|exact Em|exact A4|left; reflexivity|exact I]|]). exact Er.
Qed.

Lemma ls_start_err : forall e own w cwd s s2' (d : dirent) pre f post t, knows own s2' w -> cwd_is s2' (show cwd) -> bufs_ok s2' -> core s2' = core s -> In d (w_fs w) ->
  de_files d = pre ++ f :: post -> ls_stops (o_desc s) pre f t ->
  exists s4 z cn, emits e (ush_process_start cmd_ls (set_pnode (Some (de_node d)) s2')) (map EvOut (ls_text (d_cfg (o_desc s)) (is_root d) (map dir_name (children (de_path d) (w_fs w))) pre ++ t)) s4 /\
    at_ PLs z cn s4 /\ process_state z /\ proc e PLs s4 = Err EOob.
Proof.
  intros e own w cwd s s2' d pre f post t K W B Kc Id Ef Hs. set (s3 := ush_process_start cmd_ls (set_pnode (Some (de_node d)) s2')).
  assert (A3 : at_ PLs S_PROCESS_START (Some (de_node d), o_pchild s2', o_pitem s2', o_pidx s2', o_pdata s2', o_pdsize s2') s3).
  { apply (started cmd_ls PLs (set_pnode (Some (de_node d)) s2')); [reflexivity|exact (cwd_cur _ _ W)|exact B]. }
  assert (D3 : o_desc s3 = o_desc s) by exact (core_desc _ _ Kc).
  destruct (ls_run_err e s3 (o_root s2') (w_fs w) d _ _ _ _ _ pre f post t A3) as (s4 & Em & (cn & A4) & Er); [apply K|exact Id|exact Ef|rewrite D3; exact Hs|].
  rewrite D3 in Em. exists s4, S_PROCESS_FINISH, cn. split; [exact Em|]. split; [exact A4|]. split; [right; right; reflexivity|exact Er].
Qed.

Lemma C62_ls_here_proof : forall e own w cwd l n s c d pre f post t, asked e own w cwd l [n] cmd_ls s -> c = CR \/ c = LF -> dir_at cwd (w_fs w) = Some d ->
  de_files d = pre ++ f :: post -> ls_stops (o_desc s) pre f t ->
  breaks_off e c s XLs cmd_ls [n] [] (ls_text (d_cfg (o_desc s)) (is_root d) (map dir_name (children (de_path d) (w_fs w))) pre ++ t) EOob.
Proof.
  intros e own w cwd l n s c d pre f post t A Hc Dd Ef Hs. pose proof A as (_ & Wc & _). apply (cmd_breaks e own w cwd l [n] cmd_ls XLs s c); auto; [discriminate|].
  intros s2 args R K W _. set (s2' := emit (EvExec XLs (Some (f_name cmd_ls)) [n]) s2). pose proof R as (Kc & B & _). pose proof K as (_ & _ & _ & _ & _ & Cu). rewrite Wc in Cu. destruct Cu as (d' & D' & Cu).
  assert (d' = d) by congruence. subst d'. apply dir_at_some in Dd as (Id & _).
  destruct (ls_start_err e own w cwd s s2' d pre f post t K W B Kc Id Ef Hs) as (s4 & z & cn & Em & A4 & Ps & Er).
  exists (ush_process_start cmd_ls (set_pnode (Some (de_node d)) s2')), s4, PLs, z, cn. split; [|repeat (split; [first [reflexivity|exact Em|exact A4|exact Ps|exact I]|]); exact Er].
  cbn [call_exec ls_callback]. rewrite <- Cu; reflexivity.
Qed.

Lemma C62_ls_path_proof : forall e own w cwd l n path s c d pre f post t, asked e own w cwd l [n; path] cmd_ls s -> c = CR \/ c = LF ->
  length (full_text cwd path) < d_pathmax (o_desc s) -> dir_named (show (resolve_text cwd path)) (w_fs w) = Some d ->
  de_files d = pre ++ f :: post -> ls_stops (o_desc s) pre f t ->
  breaks_off e c s XLs cmd_ls [n; path] [] (ls_text (d_cfg (o_desc s)) (is_root d) (map dir_name (children (de_path d) (w_fs w))) pre ++ t) EOob.
Proof.
  intros e own w cwd l n path s c d pre f post t A Hc Lp Dn Ef Hs. pose proof A as (_ & Wc & _).
  assert (Hw : here w = cwd) by (unfold here; rewrite Wc; reflexivity).
  apply (cmd_breaks e own w cwd l [n; path] cmd_ls XLs s c); auto; [discriminate|].
  intros s2 args R K W N. set (s2' := emit (EvExec XLs (Some (f_name cmd_ls)) [n; path]) s2). pose proof R as (Kc & B & _). inversion N as [|? ? _ N2]; subst. inversion N2 as [|? ? N3 _]; subst.
  assert (Id : In d (w_fs w)) by (destruct K as ((Ok_ & _) & _); eapply dir_named_some; eauto).
  assert (E : (abs <- abs_path_str (d_pathmax (o_desc s2')) (hp s2') (o_cur s2') path ;; ush_node_get_by_path (d_pathmax (o_desc s2')) (hp s2') (o_root s2') abs) = Ok (Some (de_node d))).
  { assert (K' : knows own s2' w) by exact K. assert (D' : o_desc s2' = o_desc s) by exact (core_desc _ _ Kc).
    destruct (abs_path_world own s2' w path K' N3) as (P & _ & Kh); [intros X; congruence|]. rewrite P by (rewrite D'; exact Lp). cbn [bind].
    rewrite (get_by_path_text (hp s2') (o_root s2') (w_fs w) _ (d_pathmax (o_desc s2'))); [rewrite Dn; reflexivity|apply K'| |].
    - apply resolve_text_no_nul; auto.
    - rewrite D'. pose proof (resolve_text_length (here w) path). lia. }
  destruct (ls_start_err e own w (here w) s s2' d pre f post t K W B Kc Id Ef Hs) as (s4 & z & cn & Em & A4 & Ps & Er).
  exists (ush_process_start cmd_ls (set_pnode (Some (de_node d)) s2')), s4, PLs, z, cn. split; [|repeat (split; [first [reflexivity|exact Em|exact A4|exact Ps|exact I]|]); exact Er].
  cbn [call_exec ls_callback]. fold s2'. destruct (abs_path_str _ _ _ _); cbn [bind] in *; [|discriminate]. rewrite E. reflexivity.
Qed.

Lemma C62_xxd_proof : forall e own w cwd l n name s c g cb d t, asked e own w cwd l [n; name] cmd_xxd s -> c = CR \/ c = LF -> findable s w [name] ->
  denotes w name = Some g -> f_get g = Some cb -> gives_or_none e cb g d -> xxd_stops (o_desc s) t ->
  breaks_off e c s XXxd cmd_xxd [n; name] [EvGet cb (f_name g)] t EOob.
Proof.
  intros e own w cwd l n name s c g cb d t A Hc Fi Dn Gg (p & Eg & Ep) Hs. pose proof A as (K0 & Wc & _).
  apply (cmd_breaks e own w cwd l [n; name] cmd_xxd XXxd s c); auto; [discriminate|].
  intros s2 args Rr K W N. set (s2' := emit (EvExec XXxd (Some (f_name cmd_xxd)) [n; name]) s2). pose proof Rr as (Kc & B & _). inversion N as [|? ? _ N2]; subst.
  set (D := match p with GUnset => o_pdata s2 | GNull => None | GData m => Some m end).
  assert (Cv : covers D d) by (destruct Ep as [->|(extra & ->)]; [left; reflexivity|right; exists extra; reflexivity]).
  set (s2g := set_pdsize (length d) (set_pdata D (emit (EvGet cb (f_name g)) s2'))).
  set (s3 := ush_process_start cmd_xxd s2g).
  assert (A3 : at_ PXxd S_PROCESS_START (o_pnode s2, o_pchild s2, o_pitem s2, o_pidx s2, D, length d) s3).
  { apply (started cmd_xxd PXxd s2g); [reflexivity|exact (cwd_cur _ _ W)|exact B]. }
  assert (D3 : o_desc s3 = o_desc s) by exact (core_desc _ _ Kc).
  destruct (xxd_run_err e s3 d D _ _ _ _ t Cv A3) as (s4 & Em & (cn & A4) & Er); [rewrite D3; exact Hs|].
  exists s3, s4, PXxd, S_PROCESS_SERVICE, cn. split; [|split; [|repeat (split; [first [exact Em|exact A4|right; left; reflexivity|exact I]|]); exact Er]].
  - cbn [call_exec xxd_callback]. fold s2'. rewrite (names_found own s w cwd name [name] K0 Wc Fi N2 (or_introl eq_refl) s2' Kc). cbn [bind]. rewrite Dn. cbn [bind]. rewrite Gg.
    unfold call_get. rewrite Eg. cbn [g_calls do_actions bind]. unfold s3, s2g, D. destruct p; reflexivity.
  - change (lg s3) with ((lg s2 ++ [EvExec XXxd (Some (f_name cmd_xxd)) [n; name]]) ++ [EvGet cb (f_name g)]). rewrite <- app_assoc. reflexivity.
Qed.

(** ** A shell that breaks off does not get through *)
Lemma serves_quiet : forall e n s s', serves e n s s' -> forall t, quiet e s t -> quiet e s' t.
Proof.
  intros e n s s' Sv. induction Sv as [s|n s b s1 s2 N H Sv IH]; intros t Q; [exact Q|]. apply IH.
  inversion Q as [? P|? b' s1' ? N' H' Q']; subst; [contradiction|]. assert (s1' = s1) by congruence. subst. exact Q'.
Qed.
Lemma breaks_not_fed : forall e c s evs x, breaks e c s evs x -> forall s', ~ fed e [c] s s'.
Proof.
  intros e c s evs x (P & b & s1 & n & s2 & H & Sv & _ & N & E) s' F. inversion F as [|? ? ? b' s1' s2' ? P' H' Q F']; subst.
  assert (s1' = s1) by congruence. subst. apply (serves_quiet _ _ _ _ Sv) in Q. inversion Q as [? P2|? b2 s3 ? N2 H2 Q2]; subst; [contradiction|congruence].
Qed.
Lemma C62_never_proof : forall e c s evs x, breaks e c s evs x -> forall l q q' s', drive (always e) (c :: q) l s = Ok (q', s') -> polling s' -> q' = c :: q.
Proof.
  intros e c s evs x Bk l q q' s' Dr P'. pose proof Bk as (P & _). apply drive_esteps in Dr as (os & E & Eq).
  inversion E as [|o os' ? s2 ? H1 H2]; subst; [cbn [somes flat_map app] in Eq; congruence|]. destruct o as [c'|]; destruct H1 as (N & b & Sv); [|contradiction].
  cbn [somes flat_map app] in Eq. injection Eq as -> _. destruct (esteps_rest _ _ _ _ H2 P') as (s3 & Q). apply quiet_always in Q. exfalso.
  apply (breaks_not_fed e c' s evs x Bk s3). econstructor; [exact P|exact Sv|exact Q|]. constructor. apply quiet_esteps in Q as (_ & _ & _ & Pq). exact Pq.
Qed.

Lemma first_long : forall d fl, Forall (fun f => ~ In NUL (f_name f)) fl -> Forall (listable d) fl \/ exists pre f post, fl = pre ++ f :: post /\ Forall (listable d) pre /\ too_long d f.
Proof.
  intros d fl H. induction H as [|f fl Nf H IH]; [left; constructor|]. destruct (Nat.lt_ge_cases (name_room (d_cfg d) f) (d_outsize d)) as [L|L].
  - assert (Lf : listable d f) by (split; auto). destruct IH as [IH|(pre & g & post & -> & F & T)]; [left; constructor; auto|]. right. exists (f :: pre), g, post. split; [reflexivity|]. split; [constructor; auto|exact T].
  - right. exists [], f, fl. split; [reflexivity|]. split; [constructor|exact L].
Qed.
Lemma listable_not_long : forall d fl, Forall (listable d) fl -> Forall (fun f => ~ too_long d f) fl.
Proof. intros d fl H. induction H as [|f fl (L & _) H IH]; constructor; auto. unfold too_long. lia. Qed.
Lemma not_long_listable : forall d fl, Forall (fun f => ~ In NUL (f_name f)) fl -> Forall (fun f => ~ too_long d f) fl -> Forall (listable d) fl.
Proof. intros d fl H. induction H as [|f fl Nf H IH]; intros F; inversion F; subst; constructor; auto. split; [unfold too_long in *; lia|exact Nf]. Qed.

Lemma C62_help_exact_proof : forall e own w cwd l n s c, asked e own w cwd l [n] cmd_help s -> c = CR \/ c = LF -> Forall (fun f => ~ In NUL (f_name f)) (flat_map snd (w_groups w)) ->
  ((exists s', fed e [c] s s') <-> Forall (fun f => ~ too_long (o_desc s) f) (flat_map snd (w_groups w))).
Proof.
  intros e own w cwd l n s c A Hc Nn. split.
  - intros (s' & F). destruct (first_long (o_desc s) _ Nn) as [H|(pre & f & post & E & Fp & T)]; [apply listable_not_long; exact H|].
    exfalso. exact (breaks_not_fed _ _ _ _ _ (C62_help_proof e own w cwd l n s c pre f post A Hc E Fp T) s' F).
  - intros H. apply not_long_listable in H; auto. destruct (C23_list_at e own w cwd _ n s c (asked_line _ _ _ _ _ _ _ _ _ A Hc) Hc H) as (s' & (F & _) & _). exists s'. exact F.
Qed.

Lemma ls_exact_split : forall d fl, Forall (fun f => ~ In NUL (f_name f)) fl ->
  (Forall (listable d) fl /\ (6 < d_outsize d \/ fl = [])) \/ exists pre f post t, fl = pre ++ f :: post /\ ls_stops d pre f t.
Proof.
  intros d fl H. destruct fl as [|f fl]; [left; split; [constructor|right; reflexivity]|]. destruct (Nat.lt_ge_cases 6 (d_outsize d)) as [L|L].
  - destruct (first_long d _ H) as [F|(pre & g & post & E & F & T)]; [left; split; [exact F|left; exact L]|]. right. exists pre, g, post, (file_flags g). split; [exact E|]. right. auto.
  - right. exists [], f, fl, []. split; [reflexivity|]. left. auto.
Qed.
Lemma ls_stops_not : forall d pre f post t, ls_stops d pre f t -> ~ (Forall (fun f => ~ too_long d f) (pre ++ f :: post) /\ (6 < d_outsize d \/ pre ++ f :: post = [])).
Proof.
  intros d pre f post t Hs (F & [L|L]); [|destruct pre; discriminate L]. destruct Hs as [(_ & L2 & _)|(_ & _ & T & _)]; [lia|].
  apply Forall_app in F as (_ & F). inversion F; subst. contradiction.
Qed.

Lemma C62_ls_exact_proof : forall e own w cwd l n s c d, asked e own w cwd l [n] cmd_ls s -> c = CR \/ c = LF -> dir_at cwd (w_fs w) = Some d ->
  Forall (fun f => ~ In NUL (f_name f)) (de_files d) ->
  ((exists s', fed e [c] s s') <-> Forall (fun f => ~ too_long (o_desc s) f) (de_files d) /\ (6 < d_outsize (o_desc s) \/ de_files d = [])).
Proof.
  intros e own w cwd l n s c d A Hc Dd Nn. split.
  - intros (s' & F). destruct (ls_exact_split (o_desc s) _ Nn) as [(H & H6)|(pre & f & post & t & E & Hs)]; [split; [apply listable_not_long; exact H|exact H6]|].
    exfalso. exact (breaks_not_fed _ _ _ _ _ (C62_ls_here_proof e own w cwd l n s c d pre f post t A Hc Dd E Hs) s' F).
  - intros (H & H6). apply not_long_listable in H; auto. destruct (C22_here_at e own w cwd _ n s c d (asked_line _ _ _ _ _ _ _ _ _ A Hc) Hc Dd H H6) as (s' & (F & _) & _). exists s'. exact F.
Qed.
Lemma C62_ls_path_exact_proof : forall e own w cwd l n path s c d, asked e own w cwd l [n; path] cmd_ls s -> c = CR \/ c = LF ->
  length (full_text cwd path) < d_pathmax (o_desc s) -> dir_named (show (resolve_text cwd path)) (w_fs w) = Some d ->
  Forall (fun f => ~ In NUL (f_name f)) (de_files d) ->
  ((exists s', fed e [c] s s') <-> Forall (fun f => ~ too_long (o_desc s) f) (de_files d) /\ (6 < d_outsize (o_desc s) \/ de_files d = [])).
Proof.
  intros e own w cwd l n path s c d A Hc Lp Dd Nn. split.
  - intros (s' & F). destruct (ls_exact_split (o_desc s) _ Nn) as [(H & H6)|(pre & f & post & t & E & Hs)]; [split; [apply listable_not_long; exact H|exact H6]|].
    exfalso. exact (breaks_not_fed _ _ _ _ _ (C62_ls_path_proof e own w cwd l n path s c d pre f post t A Hc Lp Dd E Hs) s' F).
  - intros (H & H6). apply not_long_listable in H; auto. pose proof (C22_path_at e own w cwd _ n path s c (asked_line _ _ _ _ _ _ _ _ _ A Hc) Hc Lp) as X. rewrite Dd in X.
    destruct (X H H6) as (s' & (F & _) & _). exists s'. exact F.
Qed.
Lemma C62_xxd_exact_proof : forall e own w cwd l n name s c g cb d, asked e own w cwd l [n; name] cmd_xxd s -> c = CR \/ c = LF -> findable s w [name] ->
  denotes w name = Some g -> f_get g = Some cb -> gives_or_none e cb g d -> 0 < cfg_cols (d_cfg (o_desc s)) -> (N.of_nat (length d) <= 2 ^ 32)%N ->
  ((exists s', fed e [c] s s') <-> 10 < d_outsize (o_desc s) /\ 3 * cfg_cols (d_cfg (o_desc s)) + 1 < d_outsize (o_desc s)).
Proof.
  intros e own w cwd l n name s c g cb d A Hc Fi Dn Gg Gi Cl Ld. split.
  - intros (s' & F). assert (X : forall t, ~ xxd_stops (o_desc s) t).
    { intros t Hs. exact (breaks_not_fed _ _ _ _ _ (C62_xxd_proof e own w cwd l n name s c g cb d t A Hc Fi Dn Gg Gi Hs) s' F). }
    unfold xxd_stops in X. destruct (Nat.lt_ge_cases 10 (d_outsize (o_desc s))) as [L|L]; [|exfalso; apply (X []); left; auto].
    split; [exact L|]. destruct (Nat.lt_ge_cases (3 * cfg_cols (d_cfg (o_desc s)) + 1) (d_outsize (o_desc s))) as [L2|L2]; [exact L2|exfalso; eapply X; right; eauto].
  - intros (L1 & L2). destruct (C20_at e own w cwd _ n name s c g cb d (asked_line _ _ _ _ _ _ _ _ _ A Hc) Hc Fi Dn Gg Gi) as (s' & (F & _) & _); [repeat split; auto|]. exists s'. exact F.
Qed.
