(** * PrintfProofs: ush_printf. *)
From Coq Require Import Arith.
From Verif Require Import Shell BaseFacts Sched ServiceFacts SchedFacts Macro Editor EditFacts Words LineFacts Line SchedProofs Tree Cmds CmdFacts PrintfFacts HookFacts CmdProofs.

Definition printfs (us : list bytes) : list action := map (fun u => APrintf (FmtOk u)) us.

Lemma spoken_printfs : forall d ws us full p t, spoken d ws (Some (full, p)) t (printfs us) =
  match us with [] => t | _ => skipn p (printf_text (d_outsize d) (full ++ concat us)) end.
Proof.
  intros d ws us. induction us as [|u us IH]; intros full p t; [reflexivity|]. cbn [printfs map spoken]. rewrite IH.
  destruct us as [|v us]; cbn [concat]; rewrite ?app_nil_r, <- ?app_assoc; reflexivity.
Qed.

Lemma printfs_formatted : forall us, formatted (printfs us) = concat us.
Proof. unfold formatted. induction us as [|u us IH]; [reflexivity|]. cbn [printfs map flat_map concat]. rewrite <- IH. reflexivity. Qed.

Lemma printfs_calls : forall ws us, Forall no_nul us -> Forall (printing_call ws) (printfs us).
Proof. intros ws us F. apply Forall_map. exact F. Qed.

Lemma C31_fits_proof : forall e own w cwd l ws f s c k us, called e own w cwd l ws f s -> c = CR \/ c = LF -> ws <> [] -> f_exec f = Some (XUser k) ->
  e_exec e k (Some (f_name f)) ws = map (fun u => APrintf (FmtOk u)) us -> Forall no_nul us -> hook_calls e (o_desc s) ws = [] -> 2 + length (concat us) < d_outsize (o_desc s) ->
  exists s', does e c s (XUser k) f ws [] (concat us) cwd s' /\ core s' = core s.
Proof.
  intros e own w cwd l ws f s c k us H Hc Ne Fx E N Hk L. fold (printfs us) in E.
  destruct (C46_proof e own w cwd l ws f s c k H Hc Ne Fx) as (s' & D & K); rewrite ?Hk, E in *; cbn [app] in *; [apply printfs_calls; exact N|right; rewrite printfs_formatted; exact L|].
  exists s'. split; [|exact K]. replace (concat us) with (said (o_desc s) c ws (printfs us)); [exact D|]. unfold said. rewrite spoken_printfs. destruct us as [|u us]; [reflexivity|].
  unfold printf_text. apply eol_length in Hc as Le. replace (length (eol_echo c ++ concat (u :: us)) <? d_outsize (o_desc s)) with true by (symmetry; apply Nat.ltb_lt; rewrite app_length; lia).
  rewrite skipn_app, skipn_all, Nat.sub_diag. reflexivity.
Qed.

Lemma C31_over_proof : forall e own w cwd l ws f s c k us, called e own w cwd l ws f s -> c = CR \/ c = LF -> ws <> [] -> f_exec f = Some (XUser k) ->
  e_exec e k (Some (f_name f)) ws = map (fun u => APrintf (FmtOk u)) us -> Forall no_nul us -> hook_calls e (o_desc s) ws = [] ->
  22 <= d_outsize (o_desc s) -> d_outsize (o_desc s) <= length (eol_echo c ++ concat us) ->
  exists s', does e c s (XUser k) f ws [] (firstn (d_outsize (o_desc s) - 20 - length (eol_echo c)) (concat us) ++ overflow_message ++ [NUL]) cwd s' /\ core s' = core s.
Proof.
  intros e own w cwd l ws f s c k us H Hc Ne Fx E N Hk L Ov. fold (printfs us) in E.
  destruct (C46_proof e own w cwd l ws f s c k H Hc Ne Fx) as (s' & D & K); rewrite ?Hk, E in *; cbn [app] in *; [apply printfs_calls; exact N|left; lia|].
  exists s'. split; [|exact K]. set (size := d_outsize (o_desc s)) in *. apply eol_length in Hc as Le.
  replace (firstn (size - 20 - length (eol_echo c)) (concat us) ++ overflow_message ++ [NUL]) with (said (o_desc s) c ws (printfs us)); [exact D|].
  unfold said. rewrite spoken_printfs. destruct us as [|u us].
  - cbn [concat] in Ov. rewrite app_nil_r in Ov. lia.
  - fold size. unfold printf_text. replace (length (eol_echo c ++ concat (u :: us)) <? size) with false by (symmetry; apply Nat.ltb_ge; exact Ov).
    rewrite firstn_app, (firstn_all2 (eol_echo c)) by lia. rewrite <- app_assoc, skipn_app, skipn_all, Nat.sub_diag. reflexivity.
Qed.

(** ** Interleaved with servicing *)
Definition in_time_op (x : list io * bytes) : list op := services (fst x) ++ [OpApi (APrintf (FmtOk (snd x)))].

Definition flowing (s0 s : st) (full : bytes) (p : nat) : Prop :=
  core s = core s0 /\ inb s = inb s0 /\ length (outb s) = length (outb s0) /\ holds s full p /\ pending s (skipn p full) /\ o_wnext s = S_RESET_PROMPT /\
  length full < d_outsize (o_desc s0) /\ lg s = lg s0 ++ map EvOut (firstn p full).

Lemma firstn_more : forall A (l : list A) p k, firstn p l ++ firstn k (skipn p l) = firstn (p + k) l.
Proof. intros A l p. revert l. induction p as [|p IH]; intros l k; [reflexivity|]. destruct l as [|x l]; cbn [firstn skipn app Nat.add]; [rewrite firstn_nil; reflexivity|]. rewrite IH. reflexivity. Qed.

Lemma flow_service : forall s0 s full p l, flowing s0 s full p -> o_cur s0 <> None -> l = [] \/ p + ready_calls l < length full ->
  exists s', run (services l) s = Ok s' /\ flowing s0 s' full (p + ready_calls l).
Proof.
  intros s0 s full p l F C H. pose proof F as (K & I & Lo & (Wb & Nf & Ob & Wp & Pl & Ws & Sz) & P & N & Lf & L). destruct H as [->|H].
  - exists s. unfold ready_calls. cbn [filter length]. rewrite Nat.add_0_r. split; [reflexivity|exact F].
  - assert (Cs : o_cur s <> None) by (unfold core in K; injection K as ? ? ? K4 ? ?; congruence).
    exists (delivered s (firstn (ready_calls l) (skipn p full))). split; [apply pending_run_short; auto; rewrite skipn_length; lia|].
    set (k := ready_calls l) in *. assert (Lk : length (firstn k (skipn p full)) = k) by (rewrite firstn_length, skipn_length; lia).
    split; [exact K|]. split; [exact I|]. split; [exact Lo|]. split; [|split; [|split; [exact N|split; [exact Lf|]]]].
    + unfold holds in *. change (o_desc (delivered _ _)) with (o_desc s). split; [exact Wb|]. split; [exact Nf|]. split; [exact Ob|].
      split; [cbn [delivered set_wpos o_wpos]; rewrite Lk, Wp; reflexivity|]. pose proof (core_desc _ _ K) as Dk. split; [rewrite Dk, printf_length by (right; exact Lf); lia|]. split; [exact Ws|exact Sz].
    + pose proof (firstn_skipn k (skipn p full)) as E. rewrite <- E in P. apply (pending_delivered s (firstn k (skipn p full)) (skipn k (skipn p full))) in P.
      rewrite BaseFacts.skipn_add in P. exact P.
    + cbn [delivered set_wpos set_lg lg]. rewrite L, <- app_assoc, <- map_app, firstn_more. reflexivity.
Qed.

Lemma flow_printf : forall s0 s full p u, flowing s0 s full p -> bufs_ok s0 -> no_nul u -> length (full ++ u) < d_outsize (o_desc s0) ->
  exists s', do_action [] (APrintf (FmtOk u)) s = Ok s' /\ flowing s0 s' (full ++ u) p.
Proof.
  intros s0 s full p u (K & I & Lo & H & P & N & Lf & L) B Nu Lu. set (s1 := set_lg (lg s0) s0).
  assert (Sp : speaks s s (Some (full, p)) (skipn p full)) by (split; [reflexivity|]; split; [reflexivity|]; split; [reflexivity|]; split; [reflexivity|]; split; [exact H|right; left; auto]).
  assert (Bs : bufs_ok s) by (unfold bufs_ok in *; rewrite (core_desc _ _ K), I, Lo; exact B). pose proof (core_desc _ _ K) as D.
  destruct (printf_speaks s s full p _ u Sp Bs Nu) as (s' & E & S' & Pn & Nx); [right; rewrite D; exact Lu|]. exists s'. split; [exact E|].
  destruct S' as (K' & I' & Lo' & L' & H' & _). rewrite printf_eq, D in Pn. rewrite cut_fits in Pn by exact Lu. apply Nat.ltb_lt in Lu as Lu'. rewrite Lu', app_nil_r in Pn.
  assert (Lp : p <= length full). { destruct H as (_ & _ & _ & _ & Pl & _). rewrite D, printf_length in Pl by (right; exact Lf). lia. }
  split; [congruence|]. split; [congruence|]. split; [congruence|]. split; [exact H'|].
  split; [exact Pn|]. split; [exact Nx|]. split; [exact Lu|]. rewrite L', L. rewrite firstn_app. replace (p - length full) with 0 by lia. cbn [firstn]. rewrite app_nil_r. reflexivity.
Qed.

(** A first ush_printf when the output buffer is not in use. *)
Lemma flow_start : forall s u, o_wbuf s <> Some WOut -> bufs_ok s -> no_nul u -> length u < d_outsize (o_desc s) ->
  exists s', do_action [] (APrintf (FmtOk u)) s = Ok s' /\ flowing s s' u 0.
Proof.
  intros s u W B Nu Lu. assert (No : outb s <> []). { intros X. destruct B as (_ & B2 & _ & B4). rewrite X in B2. cbn in B2. lia. }
  pose proof (printf_fresh s (FmtOk u) W No) as Ef. set (s1 := ush_write_pointer_bin WOut 0 S_RESET_PROMPT (set_outb (NUL :: tl (outb s)) s)) in *.
  assert (Lz : 0 < d_outsize (o_desc s)) by lia.
  assert (F1 : flowing s s1 [] 0).
  { split; [reflexivity|]. split; [reflexivity|]. split; [change (outb s1) with (NUL :: tl (outb s)); destruct (outb s); [congruence|reflexivity]|].
    split; [|split; [split; [reflexivity|split; [reflexivity|intros [|j] c X; discriminate X]]|split; [reflexivity|split; [exact Lz|rewrite app_nil_r; reflexivity]]]].
    unfold holds. change (o_desc s1) with (o_desc s). rewrite printf_eq, cut_fits by exact Lz. cbn [length app]. apply Nat.ltb_lt in Lz as Lz'. rewrite Lz'.
    split; [reflexivity|]. split; [intros []|]. split; [exists (tl (outb s)); reflexivity|]. split; [reflexivity|]. split; [lia|]. split; [reflexivity|right; exact Lz]. }
  clearbody s1. destruct (flow_printf s s1 [] 0 u F1 B Nu Lu) as (s' & E & F'). exists s'. split; [|exact F']. cbn [do_action] in *. rewrite Ef. exact E.
Qed.

Lemma flow_run : forall s0 l s full p, flowing s0 s full p -> o_cur s0 <> None -> bufs_ok s0 -> in_time p (length full) l -> Forall no_nul (map snd l) ->
  length (full ++ concat (map snd l)) < d_outsize (o_desc s0) ->
  exists s' p', run (flat_map in_time_op l) s = Ok s' /\ flowing s0 s' (full ++ concat (map snd l)) p'.
Proof.
  intros s0 l. induction l as [|(x, u) l IH]; intros s full p F C B T N L; cbn [flat_map map concat snd in_time] in *.
  - exists s, p. rewrite app_nil_r. split; [reflexivity|exact F].
  - destruct T as (T1 & T2). inversion N as [|? ? Nu Nl]; subst. destruct (flow_service s0 s full p x F C T1) as (s1 & E1 & F1).
    rewrite app_assoc in L. destruct (flow_printf s0 s1 full _ u F1 B Nu) as (s2 & E2 & F2); [rewrite app_length in L; lia|].
    destruct (IH s2 (full ++ u) _ F2 C B) as (s' & p' & E & F'); auto; [rewrite app_length; exact T2|].
    exists s', p'. rewrite app_assoc. split; [|exact F']. unfold in_time_op at 1. cbn [fst snd]. rewrite !run_app, E1. cbn [bind run step]. rewrite E2. cbn [bind]. exact E.
Qed.

Lemma C31_interleaved_proof : forall e s cw u l, cwd_is s cw -> bufs_ok s -> o_wbuf s <> Some WOut -> Forall no_nul (u :: map snd l) ->
  length (u ++ concat (map snd l)) < d_outsize (o_desc s) -> in_time 0 (length u) l ->
  exists s1 s', run (OpApi (APrintf (FmtOk u)) :: flat_map (fun x => services (fst x) ++ [OpApi (APrintf (FmtOk (snd x)))]) l) s = Ok s1 /\
    quiet e s1 s' /\ editing 0 [] s' /\ bufs_ok s' /\ core s' = core s /\
    lg s' = lg s ++ map EvOut (u ++ concat (map snd l) ++ prompt (o_desc s) cw).
Proof.
  intros e s cw u l W B Wb N L T. inversion N as [|? ? Nu Nl]; subst. destruct (flow_start s u Wb B Nu) as (s0 & E0 & F0); [rewrite app_length in L; lia|].
  destruct (flow_run s l s0 u 0 F0 (cwd_cur _ _ W) B T Nl L) as (s1 & p & E1 & (K & I & Lo & H & P & Nx & _ & Lg)).
  set (full := u ++ concat (map snd l)) in *. pose proof (core_desc _ _ K) as D.
  destruct (quiet_reset_prompt e (set_state (o_wnext s1) (delivered s1 (skipn p full))) cw) as (s' & Q & Ed & K' & B' & L').
  - exact Nx.
  - exact (core_cwd _ _ _ K W).
  - unfold bufs_ok in *. cbn [set_state delivered set_wpos set_lg inb outb o_desc]. rewrite D, I, Lo. exact B.
  - exists s1, s'. split; [cbn [run step]; rewrite E0; exact E1|]. split.
    { eapply quiet_pending; [exact (cwd_cur _ _ (core_cwd _ _ _ K W))|exact P|exact Q]. }
    split; [exact Ed|]. split; [exact B'|]. split; [rewrite K'; exact K|].
    rewrite L'. change (lg (set_state _ (delivered s1 ?t))) with (lg s1 ++ map EvOut t). change (o_desc (set_state _ (delivered s1 _))) with (o_desc s1).
    rewrite Lg, D, <- !app_assoc. f_equal. rewrite app_assoc, <- map_app, <- map_app. rewrite firstn_skipn. unfold full. rewrite <- app_assoc. reflexivity.
Qed.

(** ** Limits *)
Definition fmt_text (x : fmt) : bytes := match x with FmtOk t => t | FmtErr t => t end.
Definition fmt_bad (x : fmt) (n : nat) : bool := match x with FmtErr _ => true | FmtOk t => n <? length t end.
Definition fmt_msg (x : fmt) : bytes := match x with FmtErr _ => error_format | FmtOk _ => error_overflow end.

Lemma printf_first : forall s x, o_wbuf s <> Some WOut -> bufs_ok s -> no_nul (fmt_text x) -> let size := d_outsize (o_desc s) in
  let t := firstn (size - 1) (fmt_text x) in
  exists b s1, ush_write_pointer_bin WOut 0 S_RESET_PROMPT (set_outb b s) = s1 /\ length b = size /\
  ush_printf x s =
    if fmt_bad x (length t) then
      if length (fmt_msg x) <=? size - length t then
        b' <- c_strcpy (t ++ NUL :: skipn (S (length t)) b) (length t) (fmt_msg x) ;; n <- c_strlen b' (length t) ;; Ok (set_wsize (length t + n) (set_outb b' s1))
      else if size <? length (fmt_msg x) + 1 then Err EWrap
      else b' <- c_strcpy (t ++ NUL :: skipn (S (length t)) b) (size - (length (fmt_msg x) + 1)) (fmt_msg x) ;; Ok (set_wsize size (set_outb b' s1))
    else Ok (set_wsize (length t) (set_outb (t ++ NUL :: skipn (S (length t)) b) s1)).
Proof.
  intros s x W B N size t. destruct B as (_ & B2 & _ & B4). fold size in B2, B4. assert (No : outb s <> []) by (intros X; rewrite X in B2; cbn in B2; lia).
  rewrite (printf_fresh s _ W No). exists (NUL :: tl (outb s)). destruct (outb s) as [|y o] eqn:Eo; [congruence|]. cbn [tl length] in *.
  set (s1 := ush_write_pointer_bin WOut 0 S_RESET_PROMPT (set_outb (NUL :: o) s)). exists s1. split; [reflexivity|]. split; [exact B2|].
  assert (Nt : no_nul t) by (intros X; apply N; eapply In_firstn; exact X).
  assert (Lt : length t <= length o) by (unfold t; rewrite firstn_length; lia).
  unfold ush_printf. change (o_wbuf s1) with (Some WOut). cbn [bind]. change (d_outsize (o_desc s1)) with size. set (s2 := set_wnext _ (set_state _ s1)).
  change (outb s2) with ([] ++ NUL :: o). rewrite c_strlen_0 by (intros []). cbn [bind length app]. rewrite Nat.sub_0_r. unfold c_vsnprintf. fold (fmt_text x). fold t.
  pose proof (strcpy_at [] o t Lt) as E1. cbn [app length] in E1. rewrite E1. cbn [bind]. clear E1. pose proof (c_strlen_0 t (skipn (length t) o) Nt) as E2. rewrite E2. cbn [bind].
  change (o_wsize s2) with 0. cbn [Nat.add skipn]. fold (fmt_bad x (length t)). fold (fmt_msg x). destruct (fmt_bad x (length t)); [|reflexivity].
  change (outb (set_wsize _ (set_outb ?b _))) with b. rewrite E2. cbn [bind]. destruct (_ <=? _); [|destruct (_ <? _); [reflexivity|]].
  - destruct (c_strcpy _ _ _); cbn [bind]; [|reflexivity]. destruct (c_strlen _ _); cbn [bind]; reflexivity.
  - destruct (c_strcpy _ _ _); cbn [bind]; reflexivity.
Qed.

Lemma C31_small_proof : forall s u, o_wbuf s <> Some WOut -> bufs_ok s -> no_nul u -> d_outsize (o_desc s) < 20 -> d_outsize (o_desc s) <= length u ->
  ush_printf (FmtOk u) s = Err EWrap.
Proof.
  intros s u W B Nu Lz Lu. destruct (printf_first s (FmtOk u) W B Nu) as (b & s1 & _ & Lb & ->). destruct B as (_ & _ & _ & B4). cbn [fmt_text fmt_bad fmt_msg]. rewrite firstn_length, Nat.min_l by lia.
  replace (d_outsize (o_desc s) - 1 <? length u) with true by (symmetry; apply Nat.ltb_lt; lia). change (length error_overflow) with 19.
  replace (19 <=? d_outsize (o_desc s) - (d_outsize (o_desc s) - 1)) with false by (symmetry; apply Nat.leb_gt; lia).
  replace (d_outsize (o_desc s) <? 19 + 1) with true by (symmetry; apply Nat.ltb_lt; lia). reflexivity.
Qed.

Lemma C31_format_proof : forall e s cw u, cwd_is s cw -> bufs_ok s -> o_wbuf s <> Some WOut -> no_nul u -> length u + 17 < d_outsize (o_desc s) ->
  exists s1 s', ush_printf (FmtErr u) s = Ok s1 /\ quiet e s1 s' /\ editing 0 [] s' /\ bufs_ok s' /\ core s' = core s /\
    lg s' = lg s ++ map EvOut (u ++ (lit "...format error" ++ crlf) ++ prompt (o_desc s) cw).
Proof.
  intros e s cw u W B Wb Nu L. destruct (printf_first s (FmtErr u) Wb B Nu) as (b & s1 & E1 & Lb & E). cbn [fmt_text fmt_bad fmt_msg] in E.
  set (size := d_outsize (o_desc s)) in *. rewrite firstn_all2 in E by lia. change (length error_format) with 17 in E.
  replace (17 <=? size - length u) with true in E by (symmetry; apply Nat.leb_le; lia).
  rewrite strcpy_at in E by (rewrite skipn_length, Lb; change (length error_format) with 17; lia). cbn [bind] in E.
  rewrite strlen_at in E by (vm_compute; intuition discriminate). cbn [bind] in E. set (b' := u ++ error_format ++ _) in E. set (s2 := set_wsize _ _) in E.
  assert (Lb' : length b' = size).
  { unfold b'. rewrite !app_length. cbn [length]. rewrite !skipn_length, Lb. change (length error_format) with 17. lia. }
  assert (P : pending s2 (u ++ error_format)).
  { apply (pending_out s2 (u ++ error_format) _ 0).
    - subst s2 s1. reflexivity.
    - subst s2 s1. reflexivity.
    - subst s2 s1. reflexivity.
    - cbn [s2 set_wsize o_wsize]. rewrite app_length. reflexivity.
    - lia.
    - eexists. cbn [s2 set_wsize set_outb outb]. unfold b'. rewrite app_assoc. reflexivity.
    - reflexivity. }
  destruct (quiet_reset_prompt e (set_state (o_wnext s2) (delivered s2 (u ++ error_format))) cw) as (s' & Q & Ed & K' & B' & L').
  - subst s2 s1. reflexivity.
  - subst s2 s1. exact W.
  - destruct B as (Bi & Bo & B2 & B4). subst s2 s1. split; [exact Bi|]. split; [exact Lb'|]. split; assumption.
  - exists s2, s'. split; [exact E|]. split; [eapply quiet_pending; [|exact P|exact Q]; subst s2 s1; exact (cwd_cur _ _ W)|].
    split; [exact Ed|]. split; [exact B'|]. split; [rewrite K'; subst s2 s1; reflexivity|].
    rewrite L'. change (lg (set_state _ (delivered s2 ?t))) with (lg s2 ++ map EvOut t). change (o_desc (set_state _ (delivered s2 _))) with (o_desc s2).
    replace (lg s2) with (lg s) by (subst s2 s1; reflexivity). replace (o_desc s2) with (o_desc s) by (subst s2 s1; reflexivity).
    rewrite <- app_assoc, <- map_app. rewrite <- app_assoc. reflexivity.
Qed.

Lemma C31_format_edge_proof : forall s u, o_wbuf s <> Some WOut -> bufs_ok s -> no_nul u -> length u + 17 = d_outsize (o_desc s) -> ush_printf (FmtErr u) s = Err EOob.
Proof.
  intros s u W B Nu L. destruct (printf_first s (FmtErr u) W B Nu) as (b & s1 & _ & Lb & ->). cbn [fmt_text fmt_bad fmt_msg].
  set (size := d_outsize (o_desc s)) in *. rewrite firstn_all2 by lia. change (length error_format) with 17.
  replace (17 <=? size - length u) with true by (symmetry; apply Nat.leb_le; lia).
  rewrite c_strcpy_err; [reflexivity|]. rewrite app_length. cbn [length]. rewrite skipn_length, Lb. change (length error_format) with 17. lia.
Qed.

Lemma C31_series_proof : forall e s cw us, cwd_is s cw -> bufs_ok s -> o_wbuf s <> Some WOut -> us <> [] -> Forall no_nul us ->
  20 <= d_outsize (o_desc s) \/ length (concat us) < d_outsize (o_desc s) ->
  exists s1 s', do_actions [] (map (fun u => APrintf (FmtOk u)) us) s = Ok s1 /\ quiet e s1 s' /\ editing 0 [] s' /\ bufs_ok s' /\ core s' = core s /\
    lg s' = lg s ++ map EvOut (printf_text (d_outsize (o_desc s)) (concat us) ++ prompt (o_desc s) cw).
Proof.
  intros e s cw us W B Wb Ne N Rm. fold (printfs us). destruct us as [|u us]; [congruence|]. inversion N as [|? ? Nu Nl]; subst. cbn [concat] in Rm. rewrite app_length in Rm.
  set (s0 := write_str [] S_RESET_PROMPT s).
  assert (H : speaks s0 s0 None []).
  { split; [reflexivity|]. split; [reflexivity|]. split; [reflexivity|]. split; [reflexivity|]. split; [discriminate|]. right. left. split; [|reflexivity].
    split; [reflexivity|]. split; [reflexivity|]. intros [|j] c X; discriminate X. }
  destruct (calls_speak [] [] (printfs (u :: us)) s0 s0 None [] H) as (s1 & buf & E & H1 & _); [exact B|reflexivity|apply printfs_calls; exact N| |].
  { change (o_desc s0) with (o_desc s). rewrite printfs_formatted. cbn [buf_text concat length]. rewrite app_length. exact Rm. }
  destruct (speaks_quiet e s0 s1 buf _ cw H1 W B) as (s' & Q & Ed & B' & K' & L').
  exists s1, s'. split; [|split; [exact Q|split; [exact Ed|split; [exact B'|split; [exact K'|]]]]].
  - rewrite <- E. cbn [printfs map do_actions do_action].
    assert (No : outb s <> []). { intros X. destruct B as (_ & B2 & _ & B4). rewrite X in B2. cbn in B2. lia. }
    rewrite (printf_fresh s _ Wb No), (printf_fresh s0 _ ltac:(discriminate) No). reflexivity.
  - rewrite L'. f_equal. f_equal. f_equal. cbn [printfs map spoken]. fold (printfs us). rewrite spoken_printfs. change (o_desc s0) with (o_desc s). cbn [concat].
    destruct us as [|v us]; cbn [concat skipn]; rewrite ?app_nil_r; reflexivity.
Qed.
