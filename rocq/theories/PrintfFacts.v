(** * PrintfFacts: series of printing calls. *)
From Coq Require Import Arith.
From Verif Require Import Shell BaseFacts Sched ServiceFacts SchedFacts Macro Editor EditFacts Words LineFacts Line SchedProofs Cmds CmdFacts.

(** The string in the output buffer when the text [t] has been formatted. *)
Definition cut_text (size : nat) (t : bytes) : bytes :=
  if length t <? size then t else firstn (size - 20) t ++ overflow_message.

Lemma msg_eq : error_overflow = overflow_message.
Proof. reflexivity. Qed.
Lemma msg_length : length overflow_message = 19.
Proof. reflexivity. Qed.

Lemma cut_fits : forall size t, length t < size -> cut_text size t = t.
Proof. intros size t H. unfold cut_text. apply Nat.ltb_lt in H. rewrite H. reflexivity. Qed.
Lemma cut_over : forall size t, size <= length t -> cut_text size t = firstn (size - 20) t ++ overflow_message.
Proof. intros size t H. unfold cut_text. apply Nat.ltb_ge in H. rewrite H. reflexivity. Qed.
Lemma cut_length : forall size t, 20 <= size -> size <= length t -> length (cut_text size t) = size - 1.
Proof. intros size t H1 H2. rewrite cut_over by exact H2. rewrite app_length, firstn_length, msg_length. lia. Qed.

Lemma printf_eq : forall size t, printf_text size t = cut_text size t ++ (if length t <? size then [] else [NUL]).
Proof. intros size t. unfold printf_text, cut_text. destruct (length t <? size); [rewrite app_nil_r|rewrite <- app_assoc]; reflexivity. Qed.

Lemma In_firstn : forall A n (l : list A) x, In x (firstn n l) -> In x l.
Proof. intros A n l x I. rewrite <- (firstn_skipn n l). apply in_or_app. left. exact I. Qed.

Lemma cut_no_nul : forall size t, no_nul t -> no_nul (cut_text size t).
Proof.
  intros size t N. unfold cut_text. destruct (_ <? _); [exact N|]. apply no_nul_app. split.
  - intros I. apply N. eapply In_firstn. exact I.
  - intros I. revert I. vm_compute. intuition discriminate.
Qed.

Lemma printf_length : forall size t, 20 <= size \/ length t < size -> length (printf_text size t) = min (length t) size.
Proof.
  intros size t H. rewrite printf_eq, app_length. destruct (le_lt_dec size (length t)) as [O|O].
  - rewrite cut_length by lia. replace (length t <? size) with false by (symmetry; apply Nat.ltb_ge; exact O). cbn [length]. lia.
  - rewrite cut_fits by exact O. apply Nat.ltb_lt in O as O'. rewrite O'. cbn [length]. lia.
Qed.

(** The output buffer holds the formatted text [full], of which [p] bytes are printed. *)
Definition holds (s : st) (full : bytes) (p : nat) : Prop :=
  let size := d_outsize (o_desc s) in
  o_wbuf s = Some WOut /\ no_nul full /\ (exists r, outb s = cut_text size full ++ NUL :: r) /\
  o_wpos s = p /\ p <= length (printf_text size full) /\ o_wsize s = length (printf_text size full) /\
  (20 <= size \/ length full < size).

Lemma strcpy_at : forall a r t, length t <= length r -> c_strcpy (a ++ NUL :: r) (length a) t = Ok (a ++ t ++ NUL :: skipn (length t) r).
Proof. intros a r t L. rewrite c_strcpy_app by (auto; cbn [length]; lia). reflexivity. Qed.

Lemma strlen_at : forall a t r, no_nul t -> c_strlen (a ++ t ++ NUL :: r) (length a) = Ok (length t).
Proof. intros. apply c_strlen_app; auto. Qed.

(** Appending. *)
Lemma printf_append : forall s full p u, holds s full p -> length (outb s) = d_outsize (o_desc s) -> no_nul u ->
  20 <= d_outsize (o_desc s) \/ length (full ++ u) < d_outsize (o_desc s) ->
  exists b, length b = length (outb s) /\
    ush_printf (FmtOk u) s = Ok (set_wsize (length (printf_text (d_outsize (o_desc s)) (full ++ u))) (set_outb b (set_wnext S_RESET_PROMPT (set_state S_WRITE_CHAR s)))) /\
    exists r, b = cut_text (d_outsize (o_desc s)) (full ++ u) ++ NUL :: r.
Proof.
  intros s full p u (Wb & Nf & (r & Ob) & Wp & Pl & Ws & Sz) Lo Nu Rm. set (size := d_outsize (o_desc s)) in *.
  assert (Nc : no_nul (cut_text size full)) by (apply cut_no_nul; exact Nf).
  assert (Lr : S (length r) = size - length (cut_text size full)) by (rewrite Ob, app_length in Lo; cbn [length] in Lo; lia).
  unfold ush_printf. fold size. rewrite Wb. cbn [bind]. change (outb (set_wnext S_RESET_PROMPT (set_state S_WRITE_CHAR s))) with (outb s).
  rewrite Ob. rewrite c_strlen_0 by exact Nc. cbn [bind]. unfold c_vsnprintf.
  rewrite <- Lr. cbn [Nat.sub]. rewrite Nat.sub_0_r.
  rewrite strcpy_at by apply firstn_le_length. cbn [bind].
  rewrite strlen_at by (intros I; apply Nu; eapply In_firstn; exact I). cbn [bind].
  change (o_wsize (set_wnext S_RESET_PROMPT (set_state S_WRITE_CHAR s))) with (o_wsize s). rewrite Ws.
  destruct (le_lt_dec (length u) (length r)) as [Fit|Over].
  - rewrite firstn_all2 by exact Fit. rewrite Nat.ltb_irrefl. destruct (le_lt_dec size (length full)) as [Of|Uf].
    + destruct Sz as [Sz|]; [|lia]. rewrite (cut_length size full Sz Of) in Lr. destruct u as [|x u]; [|cbn [length] in Fit; lia].
      eexists. split; [|split; [rewrite app_nil_r; cbn [length]; rewrite Nat.add_0_r; reflexivity|rewrite app_nil_r; exists r; reflexivity]].
      cbn [app length skipn]. reflexivity.
    + rewrite (cut_fits size full Uf) in *. assert (Lu : length (full ++ u) < size) by (rewrite app_length; lia).
      rewrite (cut_fits size (full ++ u) Lu), !printf_eq, (cut_fits size full Uf), (cut_fits size (full ++ u) Lu).
      apply Nat.ltb_lt in Lu as Lu'. rewrite Lu'. apply Nat.ltb_lt in Uf as Uf'. rewrite Uf', !app_nil_r.
      eexists. split; [|split; [rewrite app_length; reflexivity|eexists; rewrite <- app_assoc; reflexivity]].
      rewrite !app_length. cbn [length]. rewrite skipn_length. lia.
  - rewrite firstn_length, Nat.min_l by lia. replace (length r <? length u) with true by (symmetry; apply Nat.ltb_lt; exact Over).
    change (outb (set_wsize _ (set_outb ?b _))) with b.
    assert (Nx : no_nul (cut_text size full ++ firstn (length r) u)).
    { apply no_nul_app. split; [exact Nc|]. intros I; apply Nu; eapply In_firstn; exact I. }
    assert (Lx : length (cut_text size full ++ firstn (length r) u) = size - 1) by (rewrite app_length, firstn_length; lia).
    rewrite app_assoc. rewrite c_strlen_0 by exact Nx. cbn [bind]. rewrite Lx.
    assert (Big : size <= length (full ++ u)).
    { rewrite app_length. destruct (le_lt_dec size (length full)); [lia|]. rewrite (cut_fits size full) in Lr by lia. lia. }
    destruct Rm as [S20|]; [|lia]. rewrite msg_eq, msg_length.
    replace (19 <=? size - (size - 1)) with false by (symmetry; apply Nat.leb_gt; lia).
    replace (size <? 19 + 1) with false by (symmetry; apply Nat.ltb_ge; lia). cbn [Nat.add].
    rewrite c_strcpy_ok by (rewrite msg_length, app_length, Lx; cbn [length]; lia). cbn [bind].
    rewrite msg_length. rewrite (skipn_all2 ((cut_text size full ++ firstn (length r) u) ++ NUL :: skipn (length r) r)) by (rewrite app_length, Lx; cbn [length]; rewrite skipn_length; lia).
    assert (Fx : firstn (size - 20) ((cut_text size full ++ firstn (length r) u) ++ NUL :: skipn (length r) r) = firstn (size - 20) (full ++ u)).
    { rewrite firstn_app, Lx. replace (size - 20 - (size - 1)) with 0 by lia. cbn [firstn]. rewrite app_nil_r.
      destruct (le_lt_dec size (length full)) as [Of|Uf].
      - rewrite (cut_over size full Of). rewrite <- app_assoc, !firstn_app, firstn_length. rewrite firstn_firstn, Nat.min_id.
        replace (size - 20 - min (size - 20) (length full)) with 0 by lia. replace (size - 20 - length full) with 0 by lia. reflexivity.
      - rewrite (cut_fits size full Uf) in *. rewrite !firstn_app, firstn_firstn. rewrite Nat.min_l by lia. reflexivity. }
    rewrite Fx. eexists. split; [|split].
    2:{ assert (Lp : length (printf_text size (full ++ u)) = size).
        { rewrite (printf_eq size (full ++ u)), (cut_over size (full ++ u) Big), !app_length, firstn_length, msg_length.
          rewrite app_length in *. replace (length full + length u <? size) with false by (symmetry; apply Nat.ltb_ge; exact Big). cbn [length]. lia. }
        rewrite Lp. reflexivity. }
    + rewrite !app_length, firstn_length, msg_length. rewrite Ob, app_length in Lo. cbn [length] in *. lia.
    + rewrite (cut_over size (full ++ u) Big). exists []. rewrite <- app_assoc. reflexivity.
Qed.

(** After some printing calls: what is going to be printed. *)
Definition speaks (s0 s : st) (buf : option (bytes * nat)) (t : bytes) : Prop :=
  core s = core s0 /\ inb s = inb s0 /\ length (outb s) = length (outb s0) /\ lg s = lg s0 /\
  match buf with Some (full, p) => holds s full p | None => o_wbuf s <> Some WOut end /\
  ((o_state s = S_RESET_PROMPT /\ t = []) \/ (pending s t /\ o_wnext s = S_RESET_PROMPT) \/
   (exists t0, t = t0 ++ crlf /\ pending s t0 /\ o_wnext s = S_RESET)).

Definition buf_text (buf : option (bytes * nat)) : bytes := match buf with Some (full, _) => full | None => [] end.

Lemma pending_out : forall s x t p, o_state s = S_WRITE_CHAR -> o_wbuf s = Some WOut -> o_wpos s = p -> o_wsize s = length x -> p <= length x ->
  (exists r, outb s = x ++ r) -> t = skipn p x -> pending s t.
Proof.
  intros s x t p St Wb Wp Ws Lp (r & Ob) ->. split; [exact St|]. split; [rewrite Ws, Wp, skipn_length; lia|].
  intros j c N. unfold wbuf_rd. rewrite Wb, Wp. rewrite nth_error_skipn in N. unfold rd. rewrite Ob.
  assert (p + j < length x) by (apply nth_error_Some; congruence). rewrite nth_error_app1 by lia. rewrite N. reflexivity.
Qed.

Lemma printf_speaks : forall s0 s full p t u, speaks s0 s (Some (full, p)) t -> bufs_ok s0 -> no_nul u ->
  20 <= d_outsize (o_desc s0) \/ length (full ++ u) < d_outsize (o_desc s0) ->
  exists s', ush_printf (FmtOk u) s = Ok s' /\ speaks s0 s' (Some (full ++ u, p)) (skipn p (printf_text (d_outsize (o_desc s0)) (full ++ u))) /\
    pending s' (skipn p (printf_text (d_outsize (o_desc s0)) (full ++ u))) /\ o_wnext s' = S_RESET_PROMPT.
Proof.
  intros s0 s full p t u (K & I & Lo & L & H & _) B Nu Rm. pose proof (core_desc _ _ K) as D. pose proof H as (Wb & Nf & _ & Wp & Pl & _ & Sz).
  destruct (printf_append s full p u H) as (b & Lb & E & (r & Eb)).
  - rewrite Lo, D. apply B.
  - exact Nu.
  - rewrite D. exact Rm.
  - rewrite D in *. set (size := d_outsize (o_desc s0)) in *. eexists. split; [exact E|]. set (s' := set_wsize _ _).
    assert (Pl' : p <= length (printf_text size (full ++ u))).
    { rewrite printf_length in * by assumption. rewrite app_length. lia. }
    assert (H' : holds s' (full ++ u) p).
    { unfold holds. change (o_desc s') with (o_desc s). rewrite D. fold size. split; [exact Wb|]. split; [apply no_nul_app; split; assumption|].
      split; [exists r; exact Eb|]. split; [exact Wp|]. split; [exact Pl'|]. split; [reflexivity|exact Rm]. }
    assert (Pn : pending s' (skipn p (printf_text size (full ++ u)))).
    { apply (pending_out s' (printf_text size (full ++ u)) _ p); [reflexivity|exact Wb|exact Wp|reflexivity| | |reflexivity].
    + exact Pl'.
    + rewrite printf_eq. change (outb s') with b. rewrite Eb. destruct (_ <? _); [rewrite app_nil_r; eauto|]. exists r. rewrite <- app_assoc. reflexivity. }
    split; [|split; [exact Pn|reflexivity]].
    split; [exact K|]. split; [exact I|]. split; [rewrite <- Lo; exact Lb|]. split; [exact L|]. split; [exact H'|]. right. left. split; [exact Pn|reflexivity].
Qed.

Lemma printf_fresh : forall s x, o_wbuf s <> Some WOut -> outb s <> [] ->
  ush_printf x s = ush_printf x (ush_write_pointer_bin WOut 0 S_RESET_PROMPT (set_outb (NUL :: tl (outb s)) s)).
Proof.
  intros s x W N. unfold ush_printf at 1. destruct (outb s) as [|y o] eqn:Eo; [congruence|].
  assert (E : (b <- wr (y :: o) 0 NUL ;; ush_write_pointer WOut S_RESET_PROMPT (set_outb b s)) = Ok (ush_write_pointer_bin WOut 0 S_RESET_PROMPT (set_outb (NUL :: o) s))).
  { change (wr (y :: o) 0 NUL) with (Ok (NUL :: o)). cbn [bind]. unfold ush_write_pointer. cbn [wptr_strlen]. change (outb (set_outb (NUL :: o) s)) with ([] ++ NUL :: o). rewrite c_strlen_0 by (intros []). reflexivity. }
  destruct (o_wbuf s) as [[off| |u]|]; try congruence; rewrite E; cbn [bind]; unfold ush_printf; reflexivity.
Qed.

Lemma plain_speaks : forall s0 s p t next, speaks s0 s None t \/ (exists buf, speaks s0 s buf t) -> p <> WOut -> wptr_str p s = Ok next ->
  forall st', st' = S_RESET \/ st' = S_RESET_PROMPT ->
  exists s', ush_write_pointer p st' s = Ok s' /\ speaks s0 s' None (next ++ match st' with S_RESET => crlf | _ => [] end).
Proof.
  intros s0 s p t next H Np P st' Hs. assert (H' : exists buf, speaks s0 s buf t) by (destruct H; eauto). destruct H' as (buf & K & I & Lo & L & _).
  exists (ush_write_pointer_bin p (length next) st' s). split; [apply wp_eq; exact P|].
  split; [exact K|]. split; [exact I|]. split; [exact Lo|]. split; [exact L|]. split; [cbn; congruence|].
  destruct Hs as [->| ->].
  - right. right. exists next. split; [reflexivity|]. split; [apply pending_wpb; apply points_str; exact P|reflexivity].
  - right. left. rewrite app_nil_r. split; [apply pending_wpb; apply points_str; exact P|reflexivity].
Qed.

Lemma call_speaks : forall args ws a s0 s buf t, speaks s0 s buf t -> bufs_ok s0 -> arg_values (inb s0) args = Ok ws -> printing_call ws a ->
  20 <= d_outsize (o_desc s0) \/ length (buf_text buf) + length (formatted [a]) < d_outsize (o_desc s0) ->
  exists s' buf' t', do_action args a s = Ok s' /\ speaks s0 s' buf' t' /\
    length (buf_text buf') <= length (buf_text buf) + length (formatted [a]) /\
    (forall r, spoken (o_desc s0) ws buf t (a :: r) = spoken (o_desc s0) ws buf' t' r).
Proof.
  intros args ws a s0 s buf t H B Av Pc Rm. pose proof H as (K & I & Lo & _ & Hb & _). pose proof (core_desc _ _ K) as D.
  assert (Plain : forall p next st', p <> WOut -> wptr_str p s = Ok next -> st' = S_RESET \/ st' = S_RESET_PROMPT ->
     exists s', ush_write_pointer p st' s = Ok s' /\ speaks s0 s' None (next ++ match st' with S_RESET => crlf | _ => [] end)).
  { intros. eapply plain_speaks; eauto. }
  destruct a; cbn [printing_call] in Pc; try contradiction.
  - destruct (Plain (WStr s1) s1 S_RESET) as (s' & E & H'); [discriminate|reflexivity|auto|]. exists s', None, (s1 ++ crlf). split; [exact E|]. split; [exact H'|]. split; [cbn; lia|reflexivity].
  - destruct (Plain (WStr s1) s1 S_RESET_PROMPT) as (s' & E & H'); [discriminate|reflexivity|auto|]. rewrite app_nil_r in H'. exists s', None, s1. split; [exact E|]. split; [exact H'|]. split; [cbn; lia|reflexivity].
  - destruct (Plain (WStr (status_text (d_cfg (o_desc s)) x)) _ S_RESET ltac:(discriminate) eq_refl (or_introl eq_refl)) as (s' & E & H').
    unfold ush_write_pointer in E. cbn [wptr_strlen bind] in E. exists s', None, (status_text (d_cfg (o_desc s)) x ++ crlf).
    split; [exact E|]. split; [exact H'|]. split; [cbn; lia|]. intros r. rewrite D. reflexivity.
  - destruct (nth_error ws i) as [w|] eqn:Ni; [|apply nth_error_None in Ni; lia].
    destruct (arg_values_nth _ _ _ i w Av Ni) as (off & Ra & Cs). unfold rd in Ra. cbn [do_action]. destruct (nth_error args i) as [o|]; [|discriminate]. injection Ra as ->.
    destruct (Plain (WIn off) w S_RESET) as (s' & E & H'); [discriminate|cbn [wptr_str]; rewrite I; exact Cs|auto|]. exists s', None, (w ++ crlf). split; [exact E|]. split; [exact H'|].
    split; [cbn; lia|]. intros r. cbn [spoken print_text]. rewrite (nth_error_nth _ _ _ Ni). reflexivity.
  - destruct x as [u|u]; [|contradiction]. cbn [formatted flat_map] in Rm. rewrite app_nil_r in Rm. cbn [do_action]. destruct buf as [(full, p)|]; cbn [buf_text] in Rm.
    + destruct (printf_speaks s0 s full p t u H B Pc) as (s' & E & H' & _); [rewrite app_length; exact Rm|]. eexists _, _, _. split; [exact E|]. split; [exact H'|].
      split; [cbn [buf_text formatted flat_map]; rewrite !app_length; lia|]. intros r. reflexivity.
    + destruct H as (_ & _ & _ & L & Wb & _). assert (No : outb s <> []). { intros X. rewrite X in Lo. destruct B as (_ & B2 & _ & B4). cbn in Lo. lia. }
      rewrite (printf_fresh s _ Wb No). set (s1 := ush_write_pointer_bin WOut 0 S_RESET_PROMPT (set_outb (NUL :: tl (outb s)) s)).
      assert (H1 : speaks s0 s1 (Some ([], 0)) []).
      { split; [exact K|]. split; [exact I|]. split.
        { change (outb s1) with (NUL :: tl (outb s)). rewrite <- Lo. destruct (outb s); [congruence|reflexivity]. }
        split; [exact L|]. assert (Hh : holds s1 [] 0).
        { unfold holds. change (o_desc s1) with (o_desc s). assert (0 < d_outsize (o_desc s)) by (rewrite D; destruct B as (_ & B2 & _ & B4); lia).
          rewrite printf_eq. rewrite cut_fits by exact H. cbn [length app]. apply Nat.ltb_lt in H as H'. rewrite H'.
          split; [reflexivity|]. split; [intros []|]. split; [exists (tl (outb s)); reflexivity|]. split; [reflexivity|]. split; [lia|]. split; [reflexivity|right; exact H]. }
        split; [exact Hh|]. right. left. split; [|reflexivity]. split; [reflexivity|]. split; [reflexivity|]. intros [|j] c N; discriminate N. }
      destruct (printf_speaks s0 s1 [] 0 [] u H1 B Pc Rm) as (s' & E & H' & _). eexists _, _, _. split; [exact E|]. split; [exact H'|].
      split; [cbn [buf_text formatted flat_map app]; rewrite app_nil_r; cbn [length]; lia|]. intros r. reflexivity.
Qed.

Lemma calls_speak : forall args ws l s0 s buf t, speaks s0 s buf t -> bufs_ok s0 -> arg_values (inb s0) args = Ok ws -> Forall (printing_call ws) l ->
  20 <= d_outsize (o_desc s0) \/ length (buf_text buf) + length (formatted l) < d_outsize (o_desc s0) ->
  exists s' buf', do_actions args l s = Ok s' /\ speaks s0 s' buf' (spoken (o_desc s0) ws buf t l) /\
    length (buf_text buf') <= length (buf_text buf) + length (formatted l) /\
    (forall r, spoken (o_desc s0) ws buf t (l ++ r) = spoken (o_desc s0) ws buf' (spoken (o_desc s0) ws buf t l) r).
Proof.
  intros args ws l. induction l as [|a l IH]; intros s0 s buf t H B Av Pc Rm; [exists s, buf; split; [reflexivity|split; [exact H|split; [lia|reflexivity]]]|].
  inversion Pc as [|? ? Pa Pl]; subst. change (formatted (a :: l)) with (match a with APrintf (FmtOk u) => u | _ => [] end ++ formatted l) in *. rewrite app_length in *.
  assert (Fa : length (formatted [a]) = length (match a with APrintf (FmtOk u) => u | _ => [] end)) by (unfold formatted; cbn [flat_map]; rewrite app_nil_r; reflexivity).
  destruct (call_speaks args ws a s0 s buf t H B Av Pa) as (s1 & buf1 & t1 & E & H1 & Lb & Sp); [lia|].
  destruct (IH s0 s1 buf1 t1 H1 B Av Pl) as (s' & buf' & E' & H' & Lb' & Sp'); [lia|]. exists s', buf'. cbn [do_actions]. rewrite E. cbn [bind]. split; [exact E'|].
  rewrite Sp. split; [exact H'|]. split; [lia|]. intros r. change ((a :: l) ++ r) with (a :: l ++ r). rewrite Sp. apply Sp'.
Qed.

Lemma speaks_quiet : forall e s0 s buf t cw, speaks s0 s buf t -> cwd_is s0 cw -> bufs_ok s0 ->
  exists s', quiet e s s' /\ editing 0 [] s' /\ bufs_ok s' /\ core s' = core s0 /\ lg s' = lg s0 ++ map EvOut (t ++ prompt (o_desc s0) cw).
Proof.
  intros e s0 s buf t cw (K & I & Lo & L & _ & H) W B. pose proof (core_desc _ _ K) as D.
  assert (Ws : cwd_is s cw) by (eapply core_cwd; eauto). assert (Bs : bufs_ok s) by (unfold bufs_ok in *; rewrite D, I, Lo; exact B).
  destruct H as [(St & ->)|[(P & N)|(t0 & -> & P & N)]].
  - destruct (quiet_reset_prompt e s cw St Ws Bs) as (s' & Q & Ed & K' & B' & L'). exists s'. rewrite L', L, D. cbn [app]. split; [exact Q|]. split; [exact Ed|]. split; [exact B'|]. split; [congruence|reflexivity].
  - destruct (quiet_reset_prompt e (set_state (o_wnext s) (delivered s t)) cw N Ws Bs) as (s' & Q & Ed & K' & B' & L'). exists s'.
    split; [eapply quiet_pending; [exact (cwd_cur _ _ Ws)|exact P|exact Q]|]. split; [exact Ed|]. split; [exact B'|]. split; [rewrite K'; exact K|].
    rewrite L'. change (lg (set_state _ (delivered s t))) with (lg s ++ map EvOut t). change (o_desc (set_state _ (delivered s t))) with (o_desc s).
    rewrite L, D, map_app, <- app_assoc. reflexivity.
  - destruct (quiet_reset e (set_state (o_wnext s) (delivered s t0)) cw N Ws Bs) as (s' & Q & Ed & K' & B' & L'). exists s'.
    split; [eapply quiet_pending; [exact (cwd_cur _ _ Ws)|exact P|exact Q]|]. split; [exact Ed|]. split; [exact B'|]. split; [rewrite K'; exact K|].
    rewrite L'. change (lg (set_state _ (delivered s t0))) with (lg s ++ map EvOut t0). change (o_desc (set_state _ (delivered s t0))) with (o_desc s).
    rewrite L, D, !map_app, <- !app_assoc. reflexivity.
Qed.

Lemma eol_no_nul : forall c, c = CR \/ c = LF -> no_nul (eol_echo c).
Proof. intros c [->| ->]; vm_compute; intuition discriminate. Qed.
Lemma eol_length : forall c, c = CR \/ c = LF -> length (eol_echo c) <= 2.
Proof. intros c [->| ->]; vm_compute; repeat constructor. Qed.

(** At the start of a line's callbacks. *)
Lemma wrote_speaks : forall c s, c = CR \/ c = LF -> bufs_ok s -> o_state s = S_RESET_PROMPT -> wrote s (eol_echo c) ->
  speaks s s (Some (eol_echo c, length (eol_echo c))) [].
Proof.
  intros c s Hc B St (Wb & Cs & Wsz & Wp). apply eol_length in Hc as Le. apply eol_no_nul in Hc as Ne.
  assert (Lo : length (eol_echo c) < d_outsize (o_desc s)) by (destruct B as (_ & _ & _ & B4); lia).
  split; [reflexivity|]. split; [reflexivity|]. split; [reflexivity|]. split; [reflexivity|]. split; [|left; auto].
  unfold holds. rewrite printf_eq, cut_fits by exact Lo. apply Nat.ltb_lt in Lo as Lo'. rewrite Lo', app_nil_r.
  apply c_str_inv in Cs as (_ & a & r & Eo & La). destruct a; [|discriminate].
  split; [exact Wb|]. split; [exact Ne|]. split; [exists r; exact Eo|]. split; [exact Wp|]. split; [lia|]. split; [exact Wsz|right; exact Lo].
Qed.
