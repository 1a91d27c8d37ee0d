(** * Facts about the example programs. *)
From Coq Require Import Arith Lia NArith DecimalString.
From Verif Require Import Shell BaseFacts Words Sched SchedFacts Line Editor Spec Tree Cmds Complete TreeFacts CompleteProofs Session SessionProofs Host HostProofs PropSession Examples.

(** ** Programs whose callbacks print, reset the shell or only return data *)
Definition same_tree (w0 w : world) : Prop :=
  w_fs w = w_fs w0 /\ w_groups w = w_groups w0 /\ exists dd, In dd (w_fs w0) /\ w_cwd w = Some (de_path dd).

Lemma printing_no_tree : forall ws l, Forall (printing_call ws) l -> tree_calls l = [].
Proof.
  intros ws l F. induction F as [|a l P F IH]; [reflexivity|]. unfold tree_calls in *. cbn [flat_map]. rewrite IH, app_nil_r.
  destruct a; try reflexivity; destruct P.
Qed.

Lemma printing_proper : forall ws l, Forall (printing_call ws) l -> Forall (proper_call ws) l.
Proof. intros ws l F. apply Forall_impl with (2 := F). intros a P. destruct a; try exact P; destruct P. Qed.

Lemma steady_snug : forall own x w0, let d := x_desc x in
  stock d w0 -> (forall dd, In dd (w_fs w0) -> length (slashed (de_path dd)) + d_insize d <= d_pathmax d) ->
  20 <= d_outsize d -> 1 < d_pathmax d -> (forall f, file_of w0 f -> listable d f) -> d_exec d = None ->
  (forall h f k, file_of w0 f -> f_get f = Some k ->
     delivers (x_app x h) k f /\ dumpable d (data_of (x_app x h) k f) /\ g_calls (e_get (x_app x h) k (f_name f)) = []) ->
  (forall h f k t, file_of w0 f -> f_set f = Some k -> e_set (x_app x h) k (f_name f) t = []) ->
  (forall h f k ws, file_of w0 f -> f_exec f = Some (XUser k) ->
     Forall (printing_call ws) (e_exec (x_app x h) k (Some (f_name f)) ws) \/ e_exec (x_app x h) k (Some (f_name f)) ws = [AReset]) ->
  snug own x (same_tree w0).
Proof.
  intros own x w0 d St Pm Os Pl Ls Hk Gt Se Ex [fs gs cwd] (F & G & dd0 & I0 & C). cbn [w_fs w_groups w_cwd] in *. subst fs gs cwd.
  set (w := mkWorld (w_fs w0) (w_groups w0) (Some (de_path dd0))).
  assert (Hc : forall e ws, hook_calls e (x_desc x) ws = []) by (intros e ws; unfold hook_calls; fold d; rewrite Hk; reflexivity).
  assert (Sw : same_tree w0 w) by (split; [reflexivity|]; split; [reflexivity|]; exists dd0; split; [exact I0|reflexivity]).
  assert (Rm : forall l, room_for (x_desc x) l) by (intros l; left; exact Os).
  split; [exact St|]. split; [exact Pm|]. split; [exact (Pm dd0 I0)|]. split; [fold d; lia|]. split; [exact Ls|].
  split; [intros dd I; split; [reflexivity|]; split; [reflexivity|]; exists dd; split; [exact I|reflexivity]|].
  intros h. cbv zeta. split; [|split; [|split]].
  - intros f k ws Fo Fg. destruct (Gt h f k Fo Fg) as (G1 & G2 & G3). unfold after_get. rewrite G3. split; [exact G1|]. split; [exact G2|].
    split; [constructor|]. split; [split; [constructor|]; split; [apply Rm|]; split; [exact I|discriminate]|]. split; [exact Sw|]. intros n U. exact U.
  - intros ws. unfold after_hook. rewrite Hc. split; [split; [constructor|]; split; [apply Rm|]; split; [exact I|discriminate]|exact Sw].
  - intros f k ws t Fo Fs. rewrite (Se h f k t Fo Fs), Hc. split; [constructor|]. split; [split; [constructor|]; split; [apply Rm|]; split; [exact I|discriminate]|exact Sw].
  - intros f k ws Fo Fx. destruct (Ex h f k ws Fo Fx) as [P|P].
    + unfold calls_well. rewrite (printing_no_tree _ _ P). split; [split; [apply printing_proper; exact P|]; split; [apply Rm|]; split; [exact I|discriminate]|exact Sw].
    + rewrite P. unfold calls_well. change (tree_calls [AReset]) with [TChdir (lit "/")].
      assert (E : exists dd, In dd (w_fs w0) /\ snd (spec_ops [TChdir (lit "/")] w) = mkWorld (w_fs w0) (w_groups w0) (Some (de_path dd))).
      { cbn. destruct (find _ (w_fs w0)) as [r|] eqn:D; [|exists dd0; split; [exact I0|reflexivity]].
        apply find_some in D as (Ir & _). exists r. split; [exact Ir|reflexivity]. }
      destruct E as (r & Ir & E). rewrite E. split; [|split; [reflexivity|]; split; [reflexivity|]; exists r; split; [exact Ir|reflexivity]].
      split; [repeat constructor|]. split; [apply Rm|]. split; [|discriminate].
      split; [|exact I]. split; [cbn; intuition discriminate|]. split; [exact Pl|discriminate].
Qed.

(** ** Names *)
Definition all_names (w : world) : list bytes :=
  map f_name (flat_map snd (w_groups w)) ++ flat_map (fun d => map f_name (de_files d)) (w_fs w) ++ map dir_name (w_fs w).
Definition short_name (k : nat) (n : bytes) : bool :=
  (length n <=? k) && negb (existsb (fun c => ceq c SL || ceq c NUL || ceq c CR || ceq c LF || ceq c "."%char && match n with "."%char :: _ => true | _ => false end) n).
Definition short_names (k : nat) (w : world) : bool := forallb (short_name k) (all_names w).

Lemma short_name_spec : forall k n, short_name k n = true -> length n <= k /\ plain_comp n /\ eol_free n /\ forall r, n <> "."%char :: r.
Proof.
  intros k n H. apply andb_true_iff in H as (L & H). apply Nat.leb_le in L. split; [exact L|]. apply negb_true_iff in H.
  assert (No : forall c, In c n -> (ceq c SL || ceq c NUL || ceq c CR || ceq c LF || ceq c "."%char && match n with "."%char :: _ => true | _ => false end) = true -> False).
  { intros c I E. assert (X : existsb (fun c => ceq c SL || ceq c NUL || ceq c CR || ceq c LF || ceq c "."%char && match n with "."%char :: _ => true | _ => false end) n = true) by (apply existsb_exists; eauto). congruence. }
  split; [|split].
  - split; intros I; exact (No _ I eq_refl).
  - split; intros I; exact (No _ I eq_refl).
  - intros r ->. exact (No "."%char (or_introl eq_refl) eq_refl).
Qed.

Lemma candidate_name : forall w cwd v n, In n (candidates w cwd v) -> In n (all_names w).
Proof.
  intros w cwd v n I. apply filter_In in I as (I & _). unfold names_in in I. unfold all_names. apply in_app_or in I as [I|I]; [apply in_or_app; left; exact I|].
  apply in_or_app. right. apply in_app_or in I as [I|I]; apply in_or_app; [left|right].
  - destruct (dir_at cwd (w_fs w)) as [dd|] eqn:D; [|destruct I]. apply dir_at_some in D as (D & _). apply in_flat_map. eauto.
  - apply in_map_iff in I as (dd & <- & I). apply in_map. apply filter_In in I. apply I.
Qed.

Lemma short_tab : forall own x w0 a k, snug own x (same_tree w0) -> same_tree w0 (se_world a) -> short_names k w0 = true ->
  ~ In NUL (se_line a) -> 2 + length (se_line a) + k <= d_insize (x_desc x) -> tab_ready a /\ tab_short x a.
Proof.
  intros own x w0 a k Sn Sm Sh N L.
  assert (Al : all_names (se_world a) = all_names w0) by (destruct Sm as (F & G & _); unfold all_names; rewrite F, G; reflexivity).
  assert (Ok : forall n, In n (all_names (se_world a)) -> length n <= k /\ plain_comp n /\ eol_free n /\ forall r, n <> "."%char :: r).
  { intros n I. rewrite Al in I. apply short_name_spec. exact (proj1 (forallb_forall _ _) Sh n I). }
  split.
  - split; [|split; [|exact N]].
    + split; [|split].
      * intros f I. apply Ok. apply in_or_app. left. apply in_map. exact I.
      * intros d f I J. apply Ok. apply in_or_app. right. apply in_or_app. left. apply in_flat_map. exists d. split; [exact I|apply in_map; exact J].
      * intros d r I. apply Ok. apply in_or_app. right. apply in_or_app. right. apply in_map. exact I.
    + apply Forall_forall. intros n I. apply Ok. eapply candidate_name; eauto.
  - apply (tab_snug own x (same_tree w0) a k Sn Sm).
    + intros n I. apply Ok. eapply candidate_name; eauto.
    + lia.
    + pose proof (before_last (se_line a)) as E. apply (f_equal (@length byte)) in E. rewrite app_length in E. lia.
Qed.

Lemma set_up_eq : forall d n calls s0 xs s1, ush_init d (repeat NUL (d_insize d)) (repeat NUL (d_outsize d)) (st_zero d 0 (repeat NUL (d_insize d)) (repeat NUL (d_outsize d)) (nodes_blank n) []) = Ok s0 ->
  do_ops calls s0 = Ok (xs, s1) -> set_up d n calls = Ok s1.
Proof. intros d n calls s0 xs s1 E0 E1. unfold set_up. rewrite E0. cbn [bind]. rewrite E1. reflexivity. Qed.

Definition sound (own : list nat) (x : setting) (n : nat) (calls : list treeop) (k : nat) : Prop :=
  let d := x_desc x in
  2 <= d_insize d /\ 4 <= d_outsize d /\ (cfg_commands (d_cfg d) = true -> buildin_commands (d_cfg d) <> []) /\ In 0 own /\ (forall i, In i own -> i < n) /\
  all_allowed (d_pathmax d) own calls (mkWorld [] (if cfg_commands (d_cfg d) then [(0, buildin_commands (d_cfg d))] else []) None) /\
  w_cwd (world_of d calls) = Some [] /\ same_tree (world_of d calls) (world_of d calls) /\ snug own x (same_tree (world_of d calls)) /\ short_names k (world_of d calls) = true.

Lemma sound_boot : forall own x n calls k, sound own x n calls k -> let d := x_desc x in let a := mkSess (world_of d calls) [] 0 [] in
  exists s0 xs s1 s2, ush_init d (repeat NUL (d_insize d)) (repeat NUL (d_outsize d)) (st_zero d 0 (repeat NUL (d_insize d)) (repeat NUL (d_outsize d)) (nodes_blank n) []) = Ok s0 /\
    do_ops calls s0 = Ok (xs, s1) /\ shows own x a s2 /\ forall cs, tabs_early x a k cs -> run_limits own x a cs.
Proof.
  intros own [d f] n calls k (H1 & H2 & H3 & H4 & H5 & Al & Wc & Sm & Sn & Nm). cbn [x_desc] in *. cbv zeta.
  assert (Hz : forall i, In i own -> nth_error (nodes_blank n) i = Some node_zero) by (intros i I; apply nth_error_repeat; apply H5; exact I).
  assert (Li : length (repeat NUL (d_insize d)) = d_insize d) by apply repeat_length. assert (Lo : length (repeat NUL (d_outsize d)) = d_outsize d) by apply repeat_length.
  destruct (boot_proof d d 0 (repeat NUL (d_insize d)) (repeat NUL (d_outsize d)) (nodes_blank n) [] _ _ own calls f H1 H2 Li Lo H3 H4 Hz Al [] Wc) as (s0 & s1 & s2 & E0 & E1 & _ & Sh & _).
  eexists s0, _, s1, s2. split; [exact E0|]. split; [exact E1|]. split; [exact Sh|]. intros cs Nt.
  apply (tabs_run own (mkSetting d f) _ cs (mkSess (world_of d calls) [] 0 []) s2 Sn Sm Sh). intros _ p q E. destruct (Nt p q E) as (N & L).
  exact (short_tab own (mkSetting d f) (world_of d calls) _ k Sn (snug_walk own (mkSetting d f) _ p (mkSess (world_of d calls) [] 0 []) Sn Sm) Nm N L).
Qed.

Lemma sound_runs : forall own x n calls k, sound own x n calls k -> runs x n calls k.
Proof.
  intros own [d f] n calls k Sd. destruct (sound_boot own _ n calls k Sd) as (s0 & xs & s1 & _ & E0 & E1 & _ & Rl).
  destruct Sd as (H1 & H2 & H3 & H4 & H5 & Al & Wc & _). cbn [x_desc] in *.
  assert (Hz : forall i, In i own -> nth_error (nodes_blank n) i = Some node_zero) by (intros i I; apply nth_error_repeat; apply H5; exact I).
  assert (Li : length (repeat NUL (d_insize d)) = d_insize d) by apply repeat_length. assert (Lo : length (repeat NUL (d_outsize d)) = d_outsize d) by apply repeat_length.
  exists s1. split; [exact (set_up_eq d n calls s0 _ s1 E0 E1)|]. intros cs Nt.
  destruct (C41_from_init d d 0 (repeat NUL (d_insize d)) (repeat NUL (d_outsize d)) (nodes_blank n) [] _ _ own calls f H1 H2 Li Lo H3 H4 Hz Al [] cs Wc (Rl cs Nt)) as (t0 & t1 & F0 & F1 & A & B).
  rewrite E0 in F0. injection F0 as <-. rewrite E1 in F1. injection F1 as _ <-. split; [|exact B].
  intros l. destruct (A l) as (q & s3 & D & P). exists q, s3. split; [exact D|]. intros Po. destruct (P Po) as (p & E & _ & L). exists p. split; [exact E|exact L].
Qed.

Lemma sound_runs_named : forall h own x n calls k, sound own x n calls k -> (forall r, fair (x_app x r)) -> h [] = d_host (x_desc x) -> runs_named h x n calls k.
Proof.
  intros h own [d f] n calls k Sd F Hh. destruct (sound_boot own _ n calls k Sd) as (s0 & xs & s1 & _ & E0 & E1 & _ & Rl).
  destruct Sd as (H1 & H2 & H3 & H4 & H5 & Al & Wc & _). cbn [x_desc x_app] in *.
  assert (Hz : forall i, In i own -> nth_error (nodes_blank n) i = Some node_zero) by (intros i I; apply nth_error_repeat; apply H5; exact I).
  assert (Li : length (repeat NUL (d_insize d)) = d_insize d) by apply repeat_length. assert (Lo : length (repeat NUL (d_outsize d)) = d_outsize d) by apply repeat_length.
  exists s1. split; [exact (set_up_eq d n calls s0 _ s1 E0 E1)|]. intros cs Nt.
  destruct (C61_init_proof d d 0 (repeat NUL (d_insize d)) (repeat NUL (d_outsize d)) (nodes_blank n) [] _ _ own calls f h H1 H2 Li Lo H3 H4 Hz Al F Hh [] cs Wc (Rl cs Nt)) as (t0 & t1 & F0 & F1 & A & B).
  rewrite E0 in F0. injection F0 as <-. rewrite E1 in F1. injection F1 as _ <-. split; [|exact B].
  intros l. destruct (A l) as (q & s3 & D & P). exists q, s3. split; [exact D|]. intros Po. destruct (P Po) as (p & E & L & _). exists p. split; [exact E|exact L].
Qed.

(** ** The programs *)
Lemma gives_data : forall e k f t, e_get e k (f_name f) = gives t -> delivers e k f /\ data_of e k f = t /\ g_calls (e_get e k (f_name f)) = [].
Proof.
  intros e k f t E. assert (D : data_of e k f = t) by (unfold data_of; rewrite E; cbn [gives]; rewrite firstn_app, firstn_all, Nat.sub_diag, app_nil_r; reflexivity).
  split; [exists [NUL], []; rewrite D; exact E|]. split; [exact D|]. rewrite E. reflexivity.
Qed.
Lemma holds_data : forall e k f t, e_get e k (f_name f) = holds_all t -> delivers e k f /\ data_of e k f = t /\ g_calls (e_get e k (f_name f)) = [].
Proof.
  intros e k f t E. assert (D : data_of e k f = t) by (unfold data_of; rewrite E; cbn [holds_all]; apply firstn_all).
  split; [exists [], []; rewrite D, app_nil_r; exact E|]. split; [exact D|]. rewrite E. reflexivity.
Qed.

Lemma small_dumpable : forall d t, d_cfg d = cfg_posix -> 26 <= d_outsize d -> length t <= 4096 -> dumpable d t.
Proof.
  intros d t C O L. unfold dumpable. rewrite C. change (cfg_cols cfg_posix) with 8. split; [lia|]. split; [|lia].
  change (2 ^ 32)%N with 4294967296%N. apply N.le_trans with (N.of_nat 4096); [lia|]. vm_compute. discriminate.
Qed.
Local Ltac one_of I := cbn in I; repeat (destruct I as [<-|I]); [..|destruct I].

Definition basic_world : world :=
  mkWorld [mkDir [lit "bin"] 4 [toggle_file; set_file]; mkDir [lit "dev"] 3 [led_file; time_file]; mkDir [] 2 [info_file]]
    [(1, [reboot_file]); (0, buildin_commands cfg_posix)] (Some []).
Lemma basic_world_eq : forall i o p, world_of (basic_desc i o p) basic_calls = basic_world.
Proof. intros i o p. vm_compute. reflexivity. Qed.
Definition basic_files : list file := buildin_commands cfg_posix ++ [reboot_file; toggle_file; set_file; led_file; time_file; info_file].

Lemma basic_file : forall f, file_of basic_world f -> In f basic_files.
Proof.
  intros f [I|(dd & I & J)].
  - cbn [basic_world w_groups flat_map snd app] in I. rewrite app_nil_r in I. destruct I as [<-|I]; apply in_or_app; [right; cbn; tauto|left; exact I].
  - apply in_or_app. right. cbn in I. destruct I as [<-|[<-|[<-|[]]]]; cbn in J; cbn; tauto.
Qed.

Lemma names_listable : forall d fl, d_cfg d = cfg_posix -> 26 <= d_outsize d ->
  forallb (fun f => (name_room cfg_posix f <? 26) && negb (existsb (fun c => ceq c NUL) (f_name f))) fl = true -> forall f, In f fl -> listable d f.
Proof.
  intros d fl C O H f I. apply (proj1 (forallb_forall _ _) H) in I. apply andb_true_iff in I as (I1 & I2). apply Nat.ltb_lt in I1. split; [rewrite C; lia|].
  intros J. apply negb_true_iff in I2. assert (X : existsb (fun c => ceq c NUL) (f_name f) = true); [|congruence].
  apply existsb_exists. exists NUL. split; [exact J|reflexivity].
Qed.

Lemma basic_sound : forall i o p led ms, 2 <= i -> 26 <= o -> i + 4 <= p -> 12 <= p ->
  sound basic_own (mkSetting (basic_desc i o p) (fun h => basic_env (led h) (ms h))) 5 basic_calls 8.
Proof.
  intros i o p led ms Hi Ho Hp Hq. set (x := mkSetting _ _).
  unfold sound. split; [|split; [|split; [|split; [|split; [|split; [|split; [|split; [|split]]]]]]]]; cbn [x x_desc basic_desc d_insize d_outsize d_pathmax d_cfg].
  - exact Hi.
  - lia.
  - intros _. discriminate.
  - cbn. tauto.
  - intros k I. one_of I; repeat constructor.
  - change (cfg_commands cfg_arduino) with true. cbv iota. unfold basic_calls. cbn [all_allowed allowed].
    repeat match goal with |- _ /\ _ => split end; try exact I; try discriminate; try (cbn; tauto); try (cbn [show slashed flat_map app length lit list_ascii_of_string]; lia);
      try (repeat constructor; try discriminate; cbn; intuition discriminate); intros [U|U]; cbn in U; intuition discriminate.
  - rewrite basic_world_eq. reflexivity.
  - rewrite basic_world_eq. split; [reflexivity|]. split; [reflexivity|]. exists (mkDir [] 2 [info_file]). split; [cbn; tauto|reflexivity].
  - rewrite basic_world_eq. apply steady_snug; cbn [x x_desc x_app basic_desc d_insize d_outsize d_pathmax d_cfg d_exec].
    + split; [|split].
      * intros f cb I E. assert (J : In f (reboot_file :: buildin_commands cfg_posix)) by (cbn [basic_world w_groups flat_map snd app] in I; rewrite app_nil_r in I; exact I).
        clear I. one_of J; injection E as <-; reflexivity || exact I.
      * intros dd f cb I J E. cbn in I. destruct I as [<-|[<-|[<-|[]]]]; one_of J; try discriminate E; injection E as <-; eauto.
      * intros dd f I J. cbn in I. destruct I as [<-|[<-|[<-|[]]]]; one_of J; (split; [split; cbn; intuition discriminate|cbn; lia]).
    + intros dd I. cbn in I. destruct I as [<-|[<-|[<-|[]]]]; cbn; lia.
    + lia.
    + lia.
    + intros f Fo. apply (names_listable _ basic_files); [reflexivity|exact Ho|vm_compute; reflexivity|apply basic_file; exact Fo].
    + reflexivity.
    + intros h f k Fo Fg. assert (G : exists t, length t <= 4096 /\ e_get (basic_env (led h) (ms h)) k (f_name f) = gives t).
      { clear Fo Fg. destruct k as [|[|k]]; cbn [basic_env e_get]; eexists; (split; [|reflexivity]).
        - apply Nat.leb_le. vm_compute. reflexivity.
        - destruct (led h); apply Nat.leb_le; vm_compute; reflexivity.
        - unfold time_text. rewrite firstn_length. etransitivity; [apply Nat.le_min_l|apply Nat.leb_le; vm_compute; reflexivity]. }
      destruct G as (t & Lt & G). destruct (gives_data _ _ _ _ G) as (G1 & G2 & G3). split; [exact G1|]. split; [|exact G3]. rewrite G2.
      apply small_dumpable; [reflexivity|exact Ho|exact Lt].
    + reflexivity.
    + intros h f k ws _ _. left. destruct k as [|[|k]]; cbn [basic_env e_exec]; [constructor| |repeat constructor].
      destruct ws as [|w0 [|v [|? ?]]]; [repeat constructor..|destruct (_ || _); repeat constructor|repeat constructor].
  - rewrite basic_world_eq. vm_compute. reflexivity.
Qed.

Definition init_world : world := mkWorld [mkDir [] 1 []] [(0, buildin_commands cfg_posix)] (Some []).
Lemma init_world_eq : forall i o p, world_of (basic_desc i o p) init_calls = init_world.
Proof. intros i o p. vm_compute. reflexivity. Qed.

Lemma init_sound : forall i o p f, 2 <= i -> 26 <= o -> i <= p -> sound init_own (mkSetting (basic_desc i o p) f) 2 init_calls 4.
Proof.
  intros i o p ap Hi Ho Hp. set (x := mkSetting _ _).
  assert (Fl : forall f, file_of init_world f -> In f (buildin_commands cfg_posix)).
  { intros f [I|(dd & I & J)]; [cbn [init_world w_groups flat_map snd app] in I; rewrite app_nil_r in I; exact I|]. cbn in I. destruct I as [<-|[]]. destruct J. }
  unfold sound. split; [|split; [|split; [|split; [|split; [|split; [|split; [|split; [|split]]]]]]]]; cbn [x x_desc basic_desc d_insize d_outsize d_pathmax d_cfg].
  - exact Hi.
  - lia.
  - intros _. discriminate.
  - cbn. tauto.
  - intros k I. one_of I; repeat constructor.
  - split; [|exact I]. split; [constructor|]. split; [cbn; lia|]. split; [cbn; tauto|]. intros [U|U]; cbn in U; intuition discriminate.
  - rewrite init_world_eq. reflexivity.
  - rewrite init_world_eq. split; [reflexivity|]. split; [reflexivity|]. exists (mkDir [] 1 []). split; [cbn; tauto|reflexivity].
  - rewrite init_world_eq. apply steady_snug; cbn [x x_desc x_app basic_desc d_insize d_outsize d_pathmax d_cfg d_exec].
    + split; [|split].
      * intros f cb I E. assert (J : In f (buildin_commands cfg_posix)) by (apply Fl; left; exact I). clear I. one_of J; injection E as <-; reflexivity.
      * intros dd f cb I J E. cbn in I. destruct I as [<-|[]]. destruct J.
      * intros dd f I J. cbn in I. destruct I as [<-|[]]. destruct J.
    + intros dd I. cbn in I. destruct I as [<-|[]]. cbn. lia.
    + lia.
    + lia.
    + intros f Fo. apply (names_listable _ (buildin_commands cfg_posix)); [reflexivity|exact Ho|vm_compute; reflexivity|apply Fl; exact Fo].
    + reflexivity.
    + intros h f k Fo Fg. apply Fl in Fo. one_of Fo; discriminate Fg.
    + intros h f k t Fo Fg. apply Fl in Fo. one_of Fo; discriminate Fg.
    + intros h f k ws Fo Fg. apply Fl in Fo. one_of Fo; discriminate Fg.
  - rewrite init_world_eq. vm_compute. reflexivity.
Qed.

Definition linux_world : world :=
  mkWorld [mkDir [lit "bin"] 7 [uptime_file; print_file]; mkDir [lit "dev"; lit "mem"] 6 [ram_file; eeprom_file; rom_file];
           mkDir [lit "dev"; lit "bus"] 5 [spi_file; uart_file]; mkDir [lit "dev"] 4 [null_file; random_file];
           mkDir [lit "etc"] 3 [config_file; hostname_file]; mkDir [] 2 [readme_file]]
    [(1, [reset_file]); (0, buildin_commands cfg_posix)] (Some []).
Lemma linux_world_eq : forall i o p, world_of (linux_desc i o p) linux_calls = linux_world.
Proof. intros i o p. vm_compute. reflexivity. Qed.
Definition linux_files : list file :=
  buildin_commands cfg_posix ++ [reset_file; uptime_file; print_file; ram_file; eeprom_file; rom_file; spi_file; uart_file; null_file; random_file; config_file; hostname_file; readme_file].

Lemma linux_file : forall f, file_of linux_world f -> In f linux_files.
Proof.
  intros f [I|(dd & I & J)].
  - cbn [linux_world w_groups flat_map snd app] in I. rewrite app_nil_r in I. destruct I as [<-|I]; apply in_or_app; [right; cbn; tauto|left; exact I].
  - apply in_or_app. right. cbn in I. repeat (destruct I as [<-|I]; [cbn in J; cbn; tauto|]). destruct I.
Qed.

Lemma digits_no_nul : forall u, no_nul (lit (NilEmpty.string_of_uint u)).
Proof. induction u; cbn; [intros []|intros [H|H]; [discriminate H|contradiction]..]. Qed.

Lemma linux_sound : forall i o p null m, 2 <= i -> 26 <= o -> i + 8 <= p -> 16 <= p -> (forall h, machine_ok (m h)) ->
  sound linux_own (mkSetting (linux_desc i o p) (fun h => linux_env (GData null) (m h))) 8 linux_calls 10.
Proof.
  intros i o p null m Hi Ho Hp Hq Hm. set (x := mkSetting _ _).
  unfold sound. split; [|split; [|split; [|split; [|split; [|split; [|split; [|split; [|split]]]]]]]]; cbn [x x_desc linux_desc d_insize d_outsize d_pathmax d_cfg].
  - exact Hi.
  - lia.
  - intros _. discriminate.
  - cbn. tauto.
  - intros k I. one_of I; repeat constructor.
  - change (cfg_commands cfg_posix) with true. cbv iota. unfold linux_calls. cbn [all_allowed allowed].
    repeat match goal with |- _ /\ _ => split end; try exact I; try discriminate; try (cbn; tauto); try (cbn [show slashed flat_map app length lit list_ascii_of_string]; lia);
      try (repeat constructor; try discriminate; cbn; intuition discriminate); intros [U|U]; cbn in U; intuition discriminate.
  - rewrite linux_world_eq. reflexivity.
  - rewrite linux_world_eq. split; [reflexivity|]. split; [reflexivity|]. exists (mkDir [] 2 [readme_file]). split; [cbn; tauto|reflexivity].
  - rewrite linux_world_eq. apply steady_snug; cbn [x x_desc x_app linux_desc d_insize d_outsize d_pathmax d_cfg d_exec].
    + split; [|split].
      * intros f cb I E. assert (J : In f (reset_file :: buildin_commands cfg_posix)) by (cbn [linux_world w_groups flat_map snd app] in I; rewrite app_nil_r in I; exact I).
        clear I. one_of J; injection E as <-; reflexivity || exact I.
      * intros dd f cb I J E. cbn in I. repeat (destruct I as [<-|I]; [one_of J; try discriminate E; injection E as <-; eauto|]). destruct I.
      * intros dd f I J. cbn in I. repeat (destruct I as [<-|I]; [one_of J; (split; [split; cbn; intuition discriminate|cbn; lia])|]). destruct I.
    + intros dd I. cbn in I. repeat (destruct I as [<-|I]; [cbn; lia|]). destruct I.
    + lia.
    + lia.
    + intros f Fo. apply (names_listable _ linux_files); [reflexivity|exact Ho|vm_compute; reflexivity|apply linux_file; exact Fo].
    + reflexivity.
    + intros h f k Fo Fg. destruct (Hm h) as (M1 & M2 & M3 & M4 & M5).
      assert (G : exists t, length t <= 4096 /\ (e_get (linux_env (GData null) (m h)) k (f_name f) = gives t \/ e_get (linux_env (GData null) (m h)) k (f_name f) = holds_all t \/
                    t = [] /\ e_get (linux_env (GData null) (m h)) k (f_name f) = mkGet (GData null) 0 [])).
      { clear Fo Fg. assert (Hr : length (m_rom (m h)) <= 4096) by (apply Nat.leb_le; rewrite <- (Nnat.Nat2N.id (length (m_rom (m h)))), M4; vm_compute; reflexivity).
        destruct k as [|[|[|[|[|[|[|k]]]]]]]; cbn [linux_env e_get].
        - eexists. split; [|left; reflexivity]. apply Nat.leb_le. vm_compute. reflexivity.
        - eexists. split; [|left; reflexivity]. apply Nat.leb_le. vm_compute. reflexivity.
        - eexists. split; [|left; reflexivity]. apply (Nat.le_trans _ 16); [exact M5|]. apply Nat.leb_le. vm_compute. reflexivity.
        - exists []. split; [apply Nat.le_0_l|right; right; split; reflexivity].
        - eexists. split; [|right; left; reflexivity]. rewrite M1. apply Nat.leb_le. vm_compute. reflexivity.
        - eexists. split; [|right; left; reflexivity]. rewrite M2. apply Nat.leb_le. vm_compute. reflexivity.
        - eexists. split; [|right; left; reflexivity]. rewrite M3. apply Nat.leb_le. vm_compute. reflexivity.
        - eexists. split; [|right; left; reflexivity]. exact Hr. }
      destruct G as (t & Lt & G).
      assert (R : delivers (linux_env (GData null) (m h)) k f /\ data_of (linux_env (GData null) (m h)) k f = t /\ g_calls (e_get (linux_env (GData null) (m h)) k (f_name f)) = []).
      { destruct G as [G|[G|(-> & G)]]; [exact (gives_data _ _ _ _ G)|exact (holds_data _ _ _ _ G)|].
        assert (D : data_of (linux_env (GData null) (m h)) k f = []) by (unfold data_of; rewrite G; reflexivity).
        split; [exists null, []; rewrite D; exact G|]. split; [exact D|]. rewrite G. reflexivity. }
      destruct R as (G1 & G2 & G3). split; [exact G1|]. split; [|exact G3]. rewrite G2. apply small_dumpable; [reflexivity|exact Ho|exact Lt].
    + reflexivity.
    + intros h f k ws _ _. destruct k as [|[|k]]; cbn [linux_env e_exec]; [right; reflexivity|left|left].
      * destruct ws as [|w0 [|? ?]]; repeat constructor. cbn [printing_call]. intros J. unfold uptime_text in J.
        apply in_app_or in J as [J|J]; [cbn in J; intuition discriminate|]. apply in_app_or in J as [J|J]; [exact (digits_no_nul _ J)|cbn in J; intuition discriminate].
      * destruct ws as [|w0 [|v [|? ?]]]; repeat constructor.
  - rewrite linux_world_eq. vm_compute. reflexivity.
Qed.

Lemma linux_setters : forall i o p null m, 2 <= i -> 26 <= o -> i + 8 <= p -> 16 <= p -> (forall h, machine_ok (m h)) ->
  let x := mkSetting (linux_desc i o p) (fun h => linux_env (GData null) (m h)) in
  forall cs cb n t r, tabs_early x (mkSess (world_of (x_desc x) linux_calls) [] 0 []) 10 cs -> In (EvSet cb n t) (fst (sess_run x (mkSess (world_of (x_desc x) linux_calls) [] 0 []) cs)) ->
  setter_room cb = Some r -> i <= 10 + r -> length t <= r.
Proof.
  intros i o p null m Hi Ho Hp Hq Hm x cs cb n t r Nt I _ L. destruct (sound_boot _ _ _ _ _ (linux_sound i o p null m Hi Ho Hp Hq Hm)) as (_ & _ & _ & s2 & _ & _ & Sh & Rl).
  pose proof (C24_size_proof _ _ cs _ s2 cb n t Sh (Rl cs Nt) I) as B. cbn [x_desc linux_desc d_insize] in B. lia.
Qed.

Lemma linux_ram : forall o p null m, 26 <= o -> 264 <= p -> (forall h, machine_ok (m h)) ->
  let x := mkSetting (linux_desc 256 o p) (fun h => linux_env (GData null) (m h)) in
  forall cs t, tabs_early x (mkSess (world_of (x_desc x) linux_calls) [] 0 []) 10 cs ->
  In (EvSet 2 (lit "ram") t) (fst (sess_run x (mkSess (world_of (x_desc x) linux_calls) [] 0 []) cs)) ->
  exists r, setter_room 2 = Some r /\ length t <= r.
Proof.
  intros o p null m Ho Hp Hm x cs t Nt I. eexists. split; [reflexivity|].
  refine (linux_setters 256 o p null m _ Ho _ _ Hm cs 2 (lit "ram") t _ Nt I eq_refl _); lia.
Qed.

Lemma linux_fair : forall null m, fair (linux_env null m).
Proof.
  intros null m. split; [|split; [|split]].
  - intros k n ws. destruct k as [|[|k]]; cbn [linux_env e_exec]; [|destruct ws as [|? [|? ?]]|destruct ws as [|? [|? [|? ?]]]]; repeat constructor.
  - intros k n t. constructor.
  - intros k n. destruct k as [|[|[|[|[|[|[|k]]]]]]]; constructor.
  - intros k n. constructor.
Qed.
