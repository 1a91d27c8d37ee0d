(** * ListingProofs: proofs of C75. *)
From Coq Require Import Arith Lia.
From Verif Require Import Shell BaseFacts Spec PathFacts CollapseFacts PathProofs Words Sched Line LineFacts Editor Tree TreeFacts Cmds Complete Session SessionProofs Interrupt Builtin BuiltinProofs ForgetProofs Reach ReachProofs Listing.

(** ** The reader *)
Lemma un_plain : forall t u, ~ In ESC t -> unstyled false (t ++ u) = t ++ unstyled false u.
Proof.
  intros t u. induction t as [|c t IH]; intros N; [reflexivity|]. cbn [app unstyled]. rewrite (ceq_neq c ESC) by (intros ->; apply N; left; reflexivity).
  rewrite IH; [reflexivity|]. intros I. apply N. right. exact I.
Qed.
Lemma un_code : forall c t u, t = "[33m"%string \/ t = "[32m"%string \/ t = "[0m"%string -> unstyled false (colour c t ++ u) = unstyled false u.
Proof. intros c t u H. unfold colour. destruct (cfg_styles c); [|reflexivity]. destruct H as [->|[->| ->]]; reflexivity. Qed.
Lemma lines_plain : forall t cur u, ~ In CR t -> ~ In LF t -> lines_from cur (t ++ u) = lines_from (cur ++ t) u.
Proof.
  intros t. induction t as [|c t IH]; intros cur u N1 N2; [rewrite app_nil_r; reflexivity|]. cbn [app lines_from].
  rewrite (ceq_neq c CR), (ceq_neq c LF) by (intros ->; first [apply N1; left; reflexivity|apply N2; left; reflexivity]).
  rewrite IH; [rewrite <- app_assoc; reflexivity| |]; intros I; [apply N1|apply N2]; right; exact I.
Qed.
Lemma lines_end : forall t u, ~ In CR t -> ~ In LF t -> lines_from [] (t ++ crlf ++ u) = t :: lines_from [] u.
Proof. intros t u N1 N2. rewrite lines_plain by assumption. reflexivity. Qed.

Lemma blank_line : forall n, one_line (blanks n).
Proof. intros n. repeat split; intros I; apply repeat_spec in I; discriminate. Qed.
Lemma one_app : forall t u, one_line t -> one_line u -> one_line (t ++ u).
Proof. intros t u (A & B & C) (D & E & F). repeat split; intros I; apply in_app_iff in I as [I|I]; auto. Qed.

(** Name and description without colours. *)
Definition bare (c : config) (f : file) : bytes :=
  match f_desc f with Some d => f_name f ++ blanks (cfg_align c - length (f_name f)) ++ lit " - " ++ d | None => f_name f end.
Lemma bare_line : forall c f, legible f -> one_line (bare c f).
Proof.
  intros c f (N & _ & D). unfold bare. destruct (f_desc f) as [d|]; [|exact N]. apply one_app; [exact N|]. apply one_app; [apply blank_line|].
  apply one_app; [repeat split; cbn; intuition discriminate|apply D; reflexivity].
Qed.
Lemma un_name : forall c f u, legible f -> unstyled false (name_text c f ++ u) = bare c f ++ unstyled false u.
Proof.
  intros c f u (N & _ & D). unfold name_text, bare. destruct (f_desc f) as [d|]; [|apply un_plain, N]. repeat rewrite <- app_assoc.
  rewrite un_plain by apply N. rewrite un_plain by apply blank_line. rewrite un_plain by (cbn; intuition discriminate). rewrite un_code by auto.
  rewrite un_plain by (cbn; intuition discriminate). rewrite un_plain by apply (D d eq_refl). rewrite un_code by auto. reflexivity.
Qed.
Lemma first_plain : forall t u, ~ In SP t -> (u = [] \/ exists r, u = SP :: r) -> first_part (t ++ u) = t.
Proof.
  intros t u N H. induction t as [|c t IH]; [destruct H as [->|(r & ->)]; reflexivity|]. cbn [app first_part]. rewrite (ceq_neq c SP) by (intros ->; apply N; left; reflexivity).
  rewrite IH; [reflexivity|]. intros I. apply N. right. exact I.
Qed.
Lemma after_some : forall n u, after_blanks (blanks n ++ SP :: u) = after_blanks u.
Proof. intros n u. induction n as [|n IH]; [reflexivity|exact IH]. Qed.
Lemma read_bare : forall c f, legible f -> read_name (bare c f) = (f_name f, f_desc f).
Proof.
  intros c f (N & Ns & D). unfold read_name, bare. destruct (f_desc f) as [d|].
  - set (n := cfg_align c - length (f_name f)). rewrite first_plain; [|exact Ns|right; destruct n; eexists; reflexivity].
    rewrite skipn_app, skipn_all, Nat.sub_diag. cbn [app skipn]. change (lit " - " ++ d) with (SP :: "-"%char :: SP :: d). rewrite after_some. reflexivity.
  - rewrite <- (app_nil_r (f_name f)) at 1 2 3. rewrite first_plain by auto. rewrite app_nil_r, skipn_all. reflexivity.
Qed.

Lemma dir_seen : forall c n u, one_line n -> read_ls (dir_line c n ++ u) = (if ceq (last n NUL) SL then [SeenDir (removelast n)] else []) ++ read_ls u.
Proof.
  intros c n u N. unfold read_ls, text_lines, dir_line. repeat rewrite <- app_assoc. rewrite un_plain by (cbn; intuition discriminate). rewrite un_code by auto.
  rewrite un_plain by apply N. rewrite un_code by auto. rewrite un_plain by (cbn; intuition discriminate). rewrite app_assoc. rewrite lines_end.
  - cbn [flat_map]. reflexivity.
  - intros I. apply in_app_iff in I as [I|I]; [cbn in I; intuition discriminate|exact (proj1 (proj2 N) I)].
  - intros I. apply in_app_iff in I as [I|I]; [cbn in I; intuition discriminate|exact (proj2 (proj2 N) I)].
Qed.
Lemma flags_line : forall f, one_line (file_flags f).
Proof. intros f. unfold file_flags, flag. repeat split; destruct (f_get f), (f_set f), (f_exec f), (f_help f); cbn; intuition discriminate. Qed.
Lemma file_seen : forall c f u, legible f -> read_ls (file_flags f ++ name_text c f ++ crlf ++ u) = looks f :: read_ls u.
Proof.
  intros c f u L. unfold read_ls, text_lines. rewrite un_plain by apply flags_line. rewrite un_name by exact L. rewrite un_plain by (cbn; intuition discriminate).
  rewrite app_assoc. destruct (one_app _ _ (flags_line f) (bare_line c f L)) as (_ & N1 & N2). rewrite lines_end by assumption. cbn [flat_map].
  replace (read_ls_line (file_flags f ++ bare c f)) with [looks f]; [reflexivity|]. unfold read_ls_line, file_flags. cbn [app skipn lit list_ascii_of_string].
  rewrite read_bare by exact L. unfold looks, flag. destruct (f_get f), (f_set f), (f_exec f), (f_help f); reflexivity.
Qed.

Lemma read_dirs : forall c ns u, Forall one_line ns -> read_ls (flat_map (fun n => dir_line c (n ++ lit "/")) ns ++ u) = map SeenDir ns ++ read_ls u.
Proof.
  intros c ns u F. induction F as [|n ns N F IH]; [reflexivity|]. cbn [flat_map map app]. rewrite <- app_assoc, dir_seen; [|apply one_app; [exact N|repeat split; cbn; intuition discriminate]].
  rewrite IH. change (lit "/") with [SL]. rewrite last_last, removelast_last, ceq_refl. reflexivity.
Qed.
Lemma read_files : forall c fl u, Forall legible fl -> read_ls (flat_map (fun f => file_flags f ++ name_text c f ++ crlf) fl ++ u) = map looks fl ++ read_ls u.
Proof.
  intros c fl u F. induction F as [|f fl N F IH]; [reflexivity|]. cbn [flat_map map app]. repeat rewrite <- app_assoc. rewrite file_seen by exact N. rewrite IH. reflexivity.
Qed.
Lemma read_listing : forall c root ns fl, Forall one_line ns -> Forall legible fl -> read_ls (ls_text c root ns fl) = map SeenDir ns ++ map looks fl.
Proof.
  intros c root ns fl Fn Ff. unfold ls_text. rewrite dir_seen by (repeat split; cbn; intuition discriminate). cbn [lit last ceq list_ascii_of_string].
  replace (ceq "."%char SL) with false by reflexivity. cbn [app].
  assert (Q : read_ls (flat_map (fun n => dir_line c (n ++ lit "/")) ns ++ flat_map (fun f => file_flags f ++ name_text c f ++ crlf) fl) = map SeenDir ns ++ map looks fl).
  { rewrite read_dirs by exact Fn. f_equal. rewrite <- (app_nil_r (flat_map _ fl)), read_files by exact Ff. apply app_nil_r. }
  destruct root; [exact Q|]. rewrite dir_seen by (repeat split; cbn; intuition discriminate). exact Q.
Qed.
Lemma read_help_text : forall c fl, Forall legible fl -> read_help (help_text c fl) = map (fun f => (f_name f, f_desc f)) fl.
Proof.
  intros c fl F. unfold read_help, text_lines, help_text. induction F as [|f fl N F IH]; [reflexivity|]. cbn [flat_map map]. rewrite <- app_assoc, un_name by exact N.
  rewrite un_plain by (cbn; intuition discriminate). destruct (bare_line c f N) as (_ & N1 & N2). rewrite lines_end by assumption. cbn [map]. rewrite read_bare, IH by exact N. reflexivity.
Qed.

(** ** On the device *)
Lemma C75_ls_proof : forall own x a s p dd, let d := x_desc x in let w := se_world a in
  shows own x a s -> d_exec d = None -> stock d w -> file_named (lit "ls") (flat_map snd (w_groups w)) = Some cmd_ls ->
  dir_at p (w_fs w) = Some dd -> dir_listable d dd -> Forall no_dots p -> length (show p) < d_pathmax d -> typeable d (command_line [lit "ls"; show p]) ->
  Forall legible (de_files dd) -> Forall one_line (map dir_name (children p (w_fs w))) ->
  exists n out, read_ls out = map SeenDir (map dir_name (children p (w_fs w))) ++ map looks (de_files dd) /\
    forall l, n <= both_ready l -> exists s' pre, drive (app_of x) (fresh_line [lit "ls"; show p]) l s = Ok ([], s') /\ polling s' /\
      lg s' = lg s ++ pre ++ EvExec XLs (Some (lit "ls")) [lit "ls"; show p] :: map EvOut (out ++ prompt d (show (here w))).
Proof.
  intros own x a s p dd d w Sh Hx St Cd Da Dl Np Lp Ty Lf Ld. set (ws := [lit "ls"; show p]) in *. set (e := x_app x (se_read a ++ fresh_line ws)).
  assert (Ah : after_hook e d ws w = w) by (unfold after_hook, hook_calls; rewrite Hx; reflexivity).
  assert (Dn : denotes w (lit "ls") = Some cmd_ls) by (unfold denotes, find_file; rewrite Cd; reflexivity).
  pose proof Sh as (Ed & Kn & Wc & _ & _ & Bu & _). fold w in Kn, Wc.
  assert (O : Forall (fun d => path_ok (de_path d)) (w_fs w)) by apply Kn.
  assert (Po : path_ok p). { apply dir_at_some in Da as (I & <-). rewrite Forall_forall in O. exact (O dd I). }
  assert (Dd : dir_named (show (resolve_text (here w) (show p))) (w_fs w) = Some dd) by (rewrite show_back, dir_named_show by auto; exact Da).
  assert (Li : line_limits own d e w ws).
  { cbn [line_limits ws]. fold ws. rewrite Ah. split.
    - unfold calls_well, hook_calls. rewrite Hx. cbn [app tree_calls flat_map all_allowed spec_ops snd]. split; [constructor|]. split; [|split; [exact I|exact Wc]].
      right. destruct Bu as (_ & _ & _ & Bo). rewrite Ed in Bo. fold d in Bo. cbn. lia.
    - split; [exact St|]. split; [left; rewrite Cd; discriminate|]. intros f cb E1 E2 _. rewrite Dn in E1. injection E1 as <-. injection E2 as <-. cbn [exec_limits tl ws]. rewrite full_abs. split; [exact Lp|].
      intros g Eg. rewrite Dd in Eg. injection Eg as <-. exact Dl. }
  destruct (fresh_run own x a ws Ty Li) as (Rl & R). fold d e w in R.
  assert (Re : react d e w CR ws = ([EvExec XLs (Some (lit "ls")) ws], ls_dir (d_cfg d) dd (w_fs w), w)).
  { unfold react. cbn [ws]. fold ws. rewrite Ah, Dn. cbn [f_exec cmd_ls]. unfold do_exec. replace (accepts XLs (length ws)) with true by reflexivity. unfold do_ls. cbn [tl ws]. fold ws. rewrite Dd.
    unfold hook_events. rewrite Hx. reflexivity. }
  rewrite Re in R. destruct R as (pre & R & _).
  destruct (schedule_done own x (fresh_line ws) a s s (quiet_by_here _ _ (shows_polling _ _ _ _ Sh)) Sh Rl) as (_ & n & s' & B & Sh' & Lg).
  exists n, (ls_dir (d_cfg d) dd (w_fs w)). split.
  - apply dir_at_some in Da as (_ & Ep). unfold ls_dir. rewrite Ep. apply read_listing; assumption.
  - intros l K. exists s', pre. split; [exact (B l K)|]. split; [apply (shows_polling _ _ _ _ Sh')|]. rewrite Lg, R. reflexivity.
Qed.

Lemma C75_help_proof : forall own x a s, let d := x_desc x in let w := se_world a in let fl := flat_map snd (w_groups w) in
  shows own x a s -> d_exec d = None -> stock d w -> file_named (lit "help") fl = Some cmd_help ->
  typeable d (command_line [lit "help"]) -> Forall (listable d) fl -> Forall legible fl ->
  exists n out, read_help out = map (fun f => (f_name f, f_desc f)) fl /\
    forall l, n <= both_ready l -> exists s' pre, drive (app_of x) (fresh_line [lit "help"]) l s = Ok ([], s') /\ polling s' /\
      lg s' = lg s ++ pre ++ EvExec XHelp (Some (lit "help")) [lit "help"] :: map EvOut (out ++ prompt d (show (here w))).
Proof.
  intros own x a s d w fl Sh Hx St Cd Ty Fl Lf. set (ws := [lit "help"]) in *. set (e := x_app x (se_read a ++ fresh_line ws)).
  assert (Ah : after_hook e d ws w = w) by (unfold after_hook, hook_calls; rewrite Hx; reflexivity).
  assert (Dn : denotes w (lit "help") = Some cmd_help) by (unfold denotes, find_file; fold fl; rewrite Cd; reflexivity).
  pose proof Sh as (Ed & Kn & Wc & _ & _ & Bu & _). fold w in Kn, Wc.
  assert (Li : line_limits own d e w ws).
  { cbn [line_limits ws]. fold ws. rewrite Ah. split.
    - unfold calls_well, hook_calls. rewrite Hx. cbn [app tree_calls flat_map all_allowed spec_ops snd]. split; [constructor|]. split; [|split; [exact I|exact Wc]].
      right. destruct Bu as (_ & _ & _ & Bo). rewrite Ed in Bo. fold d in Bo. cbn. lia.
    - split; [exact St|]. split; [left; fold fl; rewrite Cd; discriminate|]. intros f cb E1 E2 _. rewrite Dn in E1. injection E1 as <-. injection E2 as <-. exact Fl. }
  destruct (fresh_run own x a ws Ty Li) as (Rl & R). fold d e w in R.
  assert (Re : react d e w CR ws = ([EvExec XHelp (Some (lit "help")) ws], help_text (d_cfg d) fl, w)).
  { unfold react. cbn [ws]. fold ws. rewrite Ah, Dn. cbn [f_exec cmd_help]. unfold do_exec. replace (accepts XHelp (length ws)) with true by reflexivity. unfold hook_events. rewrite Hx. reflexivity. }
  rewrite Re in R. destruct R as (pre & R & _).
  destruct (schedule_done own x (fresh_line ws) a s s (quiet_by_here _ _ (shows_polling _ _ _ _ Sh)) Sh Rl) as (_ & n & s' & B & Sh' & Lg).
  exists n, (help_text (d_cfg d) fl). split; [apply read_help_text; exact Lf|].
  intros l K. exists s', pre. split; [exact (B l K)|]. split; [apply (shows_polling _ _ _ _ Sh')|]. rewrite Lg, R. reflexivity.
Qed.

(** ** Walking *)
Lemma parents : forall fs r p, fs_ok fs -> In (p ++ r) (map de_path fs) -> In p (map de_path fs).
Proof.
  intros fs r. induction r as [|c r IH] using rev_ind; intros p Ok I; [rewrite app_nil_r in I; exact I|]. apply IH; [exact Ok|].
  rewrite app_assoc in I. apply in_map_iff in I as (d & E & I). destruct Ok as (_ & _ & _ & P). specialize (P d I). rewrite E, removelast_last in P. apply P.
  destruct (p ++ r); discriminate.
Qed.
Lemma sub_names : forall fs p c, fs_ok fs -> In c (map dir_name (children p fs)) <-> In (p ++ [c]) (map de_path fs).
Proof.
  intros fs p c Ok. rewrite !in_map_iff. split.
  - intros (d & <- & I). apply children_in in I as (I & N & E). exists d. split; [|exact I]. unfold dir_name. rewrite <- E. apply app_removelast_last. exact N.
  - intros (d & E & I). exists d. unfold dir_name. rewrite E, last_last. split; [reflexivity|]. apply children_in. rewrite E, removelast_last. split; [exact I|]. split; [destruct p; discriminate|reflexivity].
Qed.
Lemma explore_from : forall fs names, fs_ok fs -> (forall p, In p (map de_path fs) -> names p = map dir_name (children p fs)) ->
  forall n p q, In p (map de_path fs) -> In q (explore n names p) <-> In q (map de_path fs) /\ exists r, q = p ++ r /\ length r <= n.
Proof.
  intros fs names Ok Nm. induction n as [|n IH]; intros p q Ip; cbn [explore In].
  - split.
    + intros [<-|[]]. split; [exact Ip|]. exists []. rewrite app_nil_r. split; [reflexivity|apply Nat.le_refl].
    + intros (_ & r & -> & L). destruct r; [|cbn in L; lia]. left. symmetry. apply app_nil_r.
  - rewrite in_flat_map. split.
    + intros [<-|(c & Ic & Iq)].
      * split; [exact Ip|]. exists []. rewrite app_nil_r. split; [reflexivity|cbn; lia].
      * rewrite (Nm p Ip) in Ic. apply (sub_names fs p c Ok) in Ic. apply (IH _ _ Ic) in Iq as (Iq & r & -> & L). split; [exact Iq|]. exists (c :: r). rewrite <- app_assoc. split; [reflexivity|cbn; lia].
    + intros (Iq & r & -> & L). destruct r as [|c r]; [left; symmetry; apply app_nil_r|]. right. exists c.
      assert (Ic : In (p ++ [c]) (map de_path fs)) by (apply (parents fs r); [exact Ok|rewrite <- app_assoc; exact Iq]).
      split; [rewrite (Nm p Ip); apply sub_names; assumption|]. apply (IH _ _ Ic). split; [exact Iq|]. exists r. rewrite <- app_assoc. cbn in L. split; [reflexivity|lia].
Qed.
Lemma C75_explore_proof : forall fs names n, fs_ok fs -> fs <> [] -> (forall p, In p (map de_path fs) -> names p = map dir_name (children p fs)) ->
  (forall dd, In dd fs -> length (de_path dd) <= n) -> forall q, In q (explore n names []) <-> In q (map de_path fs).
Proof.
  intros fs names n Ok Ne Nm Dp q.
  assert (Root : In [] (map de_path fs)). { destruct fs as [|d fs]; [congruence|]. apply (parents (d :: fs) (de_path d) [] Ok). left. reflexivity. }
  rewrite (explore_from fs names Ok Nm n [] q Root). split; [tauto|]. intros I. split; [exact I|]. exists q. split; [reflexivity|]. apply in_map_iff in I as (d & <- & I). exact (Dp d I).
Qed.
