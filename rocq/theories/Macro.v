(** * Macro: sequences of service calls. *)
From Verif Require Import Shell BaseFacts LogFacts Sched ServiceFacts SchedFacts.

Lemma quiet_svc : forall e s b s1 s2, o_cur s <> None -> ~ polling s ->
  svc (tick e None) s = Ok (b, s1) -> quiet e s1 s2 -> quiet e s s2.
Proof.
  intros e s b s1 s2 C P H Q. eapply quiet_step; eauto. rewrite service_eq.
  destruct (o_cur s); [exact H|congruence].
Qed.

(** ** Writing *)

Lemma delivered_nil : forall s, delivered s [] = set_wpos (o_wpos s) s.
Proof. intros. unfold delivered. cbn [length map]. rewrite Nat.add_0_r, app_nil_r. reflexivity. Qed.

Lemma set_wpos_id : forall s, set_wpos (o_wpos s) s = s.
Proof. intros []; reflexivity. Qed.

Lemma set_lg_id : forall s, set_lg (lg s) s = s.
Proof. intros []; reflexivity. Qed.

Lemma delivered_app : forall s a b, delivered (delivered s a) b = delivered s (a ++ b).
Proof.
  intros. unfold delivered. cbn [o_wpos set_wpos set_lg lg]. rewrite map_app, app_length, app_assoc.
  replace (o_wpos s + length a + length b) with (o_wpos s + (length a + length b)) by lia. reflexivity.
Qed.

Lemma wbuf_rd_delivered : forall s a p, wbuf_rd (delivered s a) p = wbuf_rd s p.
Proof. reflexivity. Qed.

Lemma pending_delivered : forall s a b, pending s (a ++ b) -> pending (delivered s a) b.
Proof.
  intros s a b (P1 & P2 & P3). split; [exact P1|]. rewrite app_length in P2. split.
  - cbn [delivered o_wsize o_wpos set_wpos set_lg]. unfold delivered. cbn. lia.
  - intros j c H. rewrite wbuf_rd_delivered. unfold delivered; cbn [o_wpos set_wpos].
    rewrite <- Nat.add_assoc. apply P3. rewrite nth_error_app2 by lia.
    replace (length a + j - length a) with j by lia. exact H.
Qed.

Lemma pending_step : forall i s c t, o_cur s <> None -> pending s (c :: t) ->
  ush_service i s = Ok (true, if io_wr i then delivered s [c] else s).
Proof.
  intros i s c t C (P1 & P2 & P3). rewrite service_eq. destruct (o_cur s); [|congruence].
  unfold svc, ush_write_char. rewrite P1. cbn [length] in P2.
  destruct (Nat.leb_spec (o_wsize s) (o_wpos s)); [lia|].
  pose proof (P3 0 c eq_refl) as R. rewrite Nat.add_0_r in R. rewrite R. cbn [bind].
  destruct (io_wr i); [|reflexivity]. cbn [bind]. unfold delivered, emit. cbn [length map lg set_lg o_wpos].
  replace (o_wpos s + 1) with (S (o_wpos s)) by lia. reflexivity.
Qed.

Lemma pending_end : forall i s, o_cur s <> None -> pending s [] ->
  ush_service i s = Ok (true, set_state (o_wnext s) s).
Proof.
  intros i s C (P1 & P2 & P3). rewrite service_eq. destruct (o_cur s); [|congruence].
  unfold svc, ush_write_char. rewrite P1. cbn [length] in P2.
  destruct (Nat.leb_spec (o_wsize s) (o_wpos s)); [|lia]. reflexivity.
Qed.

Lemma ready_cons : forall i l, ready_calls (i :: l) = (if io_wr i then 1 else 0) + ready_calls l.
Proof. intros. unfold ready_calls. cbn [filter]. destruct (io_wr i); reflexivity. Qed.

Lemma run_services_cons : forall i l s, run (services (i :: l)) s =
  ('(_, s1) <- ush_service i s ;; run (services l) s1).
Proof.
  intros. cbn [services map run step]. destruct (ush_service i s) as [[b s1]|]; reflexivity.
Qed.

Lemma run_app : forall a b s, run (a ++ b) s = (s1 <- run a s ;; run b s1).
Proof.
  induction a as [|o a IH]; intros b s; [reflexivity|]. cbn [app run].
  destruct (step o s); cbn [bind]; auto.
Qed.

Lemma pending_run_short : forall l s t, o_cur s <> None -> pending s t -> ready_calls l < length t ->
  run (services l) s = Ok (delivered s (firstn (ready_calls l) t)).
Proof.
  induction l as [|i l IH]; intros s t C P L.
  - unfold ready_calls. cbn [filter length firstn]. rewrite delivered_nil, set_wpos_id. reflexivity.
  - rewrite run_services_cons. rewrite ready_cons in *. destruct t as [|c t]; [cbn [length] in L; lia|].
    rewrite (pending_step i s c t C P). cbn [bind]. destruct (io_wr i); cbn [length] in L.
    + rewrite (IH (delivered s [c]) t).
      * rewrite delivered_app. reflexivity.
      * exact C.
      * apply (pending_delivered s [c] t P).
      * lia.
    + apply IH; auto.
Qed.

Lemma pending_run_all : forall l s t, o_cur s <> None -> pending s t -> length t <= ready_calls l ->
  exists l1 l2, l = l1 ++ l2 /\ run (services l1) s = Ok (delivered s t) /\ ready_calls l1 = length t.
Proof.
  induction l as [|i l IH]; intros s t C P L.
  - exists [], []. unfold ready_calls in L. cbn [filter length] in L. destruct t; [|cbn [length] in L; lia].
    rewrite delivered_nil, set_wpos_id. repeat split.
  - destruct t as [|c t].
    + exists [], (i :: l). rewrite delivered_nil, set_wpos_id. repeat split.
    + rewrite ready_cons in L. destruct (io_wr i) eqn:W; cbn [length] in L.
      * destruct (IH (delivered s [c]) t) as (l1 & l2 & -> & R & N); auto using (pending_delivered s [c] t P); [lia|].
        exists (i :: l1), l2. repeat split.
        -- rewrite run_services_cons, (pending_step i s c t C P), W. cbn [bind]. rewrite R, delivered_app. reflexivity.
        -- rewrite ready_cons, W. cbn [length]. lia.
      * destruct (IH s (c :: t)) as (l1 & l2 & -> & R & N); auto.
        exists (i :: l1), l2. repeat split.
        -- rewrite run_services_cons, (pending_step i s c t C P), W. cbn [bind]. exact R.
        -- rewrite ready_cons, W. exact N.
Qed.

Lemma pending_not_polling : forall s t, pending s t -> ~ polling s.
Proof. intros s t (P & _) Q. unfold polling in Q. congruence. Qed.

Lemma quiet_pending : forall e t s s', o_cur s <> None -> pending s t ->
  quiet e (set_state (o_wnext s) (delivered s t)) s' -> quiet e s s'.
Proof.
  intros e t. induction t as [|c t IH]; intros s s' C P Q.
  - eapply quiet_step; [eapply pending_not_polling; eauto|apply pending_end; auto|].
    rewrite delivered_nil, set_wpos_id in Q. exact Q.
  - eapply quiet_step; [eapply pending_not_polling; eauto|apply (pending_step _ s c t C P)|].
    cbn [tick io_wr]. apply IH; auto.
    + apply (pending_delivered s [c] t P).
    + rewrite delivered_app. exact Q.
Qed.

(** State after the text [t] handed over through pointer [p] has been written. *)
Definition after_write (p : wptr) (t : bytes) (next : fsm) (s : st) : st :=
  set_state next (set_wnext next (set_wbuf (Some p) (set_wsize (length t) (set_wpos (length t)
    (set_lg (lg s ++ map EvOut t) s))))).

(** What a pointer points to. *)
Definition points (s : st) (p : wptr) (t : bytes) : Prop :=
  match p with
  | WIn off => forall j c, nth_error t j = Some c -> rd (inb s) (off + j) = Ok c
  | WOut => forall j c, nth_error t j = Some c -> rd (outb s) j = Ok c
  | WStr u => forall j c, nth_error t j = Some c -> rd u j = Ok c
  end.

Lemma pending_wpb : forall p t next s, points s p t ->
  pending (ush_write_pointer_bin p (length t) next s) t.
Proof.
  intros p t next s H. split; [reflexivity|]. split; [reflexivity|].
  cbn. intros j c N. unfold wbuf_rd. cbn. destruct p; cbn in *; auto.
Qed.

Lemma quiet_wpb : forall e p t next s s', o_cur s <> None -> points s p t ->
  quiet e (after_write p t next s) s' -> quiet e (ush_write_pointer_bin p (length t) next s) s'.
Proof.
  intros e p t next s s' C H Q. eapply quiet_pending with (t := t); [exact C|apply pending_wpb; auto|].
  exact Q.
Qed.

Lemma points_WStr : forall s t, points s (WStr t) t.
Proof. intros s t j c H. unfold rd. rewrite H. reflexivity. Qed.

Lemma quiet_write_str : forall e t next s s', o_cur s <> None ->
  quiet e (after_write (WStr t) t next s) s' -> quiet e (write_str t next s) s'.
Proof. intros. apply quiet_wpb; auto using points_WStr. Qed.

Lemma c_str0_nth : forall b t, c_str0 b = Ok t -> forall j c, nth_error t j = Some c -> nth_error b j = Some c.
Proof.
  induction b as [|x b IH]; intros t H j c N; [discriminate|]. cbn [c_str0] in H.
  destruct (ceq x NUL).
  - injection H as <-. destruct j; discriminate.
  - destruct (c_str0 b) as [u|] eqn:E; [|discriminate]. injection H as <-.
    destruct j as [|j]; [exact N|]. cbn [nth_error] in *. eauto.
Qed.

Lemma nth_error_skipn : forall A (l : list A) o j, nth_error (skipn o l) j = nth_error l (o + j).
Proof.
  intros A l o. revert l. induction o as [|o IH]; intros l j; [reflexivity|].
  destruct l as [|x l]; cbn [skipn Nat.add nth_error]; [destruct j; reflexivity|apply IH].
Qed.

Lemma c_str_nth : forall b o t, c_str b o = Ok t -> forall j c, nth_error t j = Some c -> rd b (o + j) = Ok c.
Proof.
  intros b o t H j c N. unfold c_str in H. eapply c_str0_nth in N; eauto.
  rewrite nth_error_skipn in N. unfold rd. rewrite N. reflexivity.
Qed.

Lemma points_str : forall p s t, wptr_str p s = Ok t -> points s p t.
Proof.
  intros [off| |u] s t H; cbn in *.
  - intros. eapply c_str_nth; eauto.
  - intros j c N. apply (c_str_nth (outb s) 0 t H j c N).
  - injection H as ->. intros j c N. unfold rd. rewrite N. reflexivity.
Qed.

Lemma wp_eq : forall p next s t, wptr_str p s = Ok t ->
  ush_write_pointer p next s = Ok (ush_write_pointer_bin p (length t) next s).
Proof.
  intros p next s t H. unfold ush_write_pointer. unfold wptr_strlen, c_strlen.
  destruct p; unfold wptr_str in H; [rewrite H; reflexivity|rewrite H; reflexivity|].
  injection H as ->. reflexivity.
Qed.

Lemma quiet_wp : forall e p t next s s1 s', o_cur s <> None -> wptr_str p s = Ok t ->
  ush_write_pointer p next s = Ok s1 ->
  quiet e (after_write p t next s) s' -> quiet e s1 s'.
Proof.
  intros e p t next s s1 s' C P H Q. rewrite (wp_eq p next s t P) in H. injection H as <-.
  apply quiet_wpb; auto using points_str.
Qed.

(** ** The prompt *)

Lemma last_loop_snoc : forall p c n, n <= length p -> path_last_loop (p ++ [c]) n = path_last_loop p n.
Proof. intros p c n. induction n as [|n IH]; intros H; [reflexivity|]. cbn [path_last_loop]. rewrite nth_error_app1 by lia. rewrite IH by lia. reflexivity. Qed.
Lemma last_loop_le : forall p n, path_last_loop p n <= n.
Proof. intros p n. induction n as [|n IH]; cbn [path_last_loop]; [lia|]. destruct (nth_error p n); [destruct (ceq _ _)|]; lia. Qed.
Lemma after_slashes_snoc : forall p c, after_slashes (p ++ [c]) = if ceq c SL then [] else after_slashes p ++ [c].
Proof.
  intros p c. induction p as [|x p IH].
  - cbn. destruct (ceq c SL); reflexivity.
  - cbn [app after_slashes]. cbn [existsb]. rewrite existsb_app. cbn [existsb]. rewrite orb_false_r. destruct (ceq c SL) eqn:E.
    + rewrite !orb_true_r. exact IH.
    + rewrite orb_false_r. destruct (ceq x SL || existsb _ p); [exact IH|reflexivity].
Qed.
Lemma skip_last_loop : forall p, skipn (path_last_loop p (length p)) p = after_slashes p.
Proof.
  intros p. induction p as [|c p IH] using rev_ind; [reflexivity|]. rewrite after_slashes_snoc, app_length, Nat.add_1_r. cbn [path_last_loop].
  rewrite nth_error_app2, Nat.sub_diag by lia. cbn [nth_error]. destruct (ceq c SL).
  - apply skipn_all2. rewrite app_length. cbn. lia.
  - rewrite last_loop_snoc by lia. pose proof (last_loop_le p (length p)). rewrite skipn_app, IH. f_equal. replace (_ - _) with 0 by lia. reflexivity.
Qed.
Lemma path_last_label : forall p, ush_utils_path_last p = label p.
Proof.
  intros [|c [|x p]]; [reflexivity|reflexivity|]. unfold ush_utils_path_last. cbn [length Nat.eqb]. apply (skip_last_loop (c :: x :: p)).
Qed.

Lemma cwd_cur : forall s p, cwd_is s p -> o_cur s <> None.
Proof. intros s p (nd & G & _). destruct (o_cur s); [discriminate|discriminate G]. Qed.

Lemma np : forall s, o_state s <> S_READ_CHAR -> ~ polling s.
Proof. auto. Qed.

(** From PROMPT_PREFIX to the state after the prompt. *)
Definition after_prompt (p : bytes) (s : st) : st :=
  let c := d_cfg (o_desc s) in
  after_write (WStr (lit "]$ " ++ sty_reset c)) (lit "]$ " ++ sty_reset c) (o_pnext s)
    (set_lg (lg s ++ map EvOut (sty_magenta c ++ lit "[" ++ d_host (o_desc s) ++ lit " " ++ ush_utils_path_last p)) s).

Lemma quiet_prompt : forall e s p s', o_state s = S_PROMPT_PREFIX -> cwd_is s p ->
  quiet e (after_prompt p s) s' -> quiet e s s'.
Proof.
  intros e s p s' E W Q. pose proof (cwd_cur _ _ W) as C.
  eapply quiet_svc; [exact C|apply np; rewrite E; discriminate|unfold svc, ush_prompt_service; rewrite E; reflexivity|].
  apply quiet_write_str; [exact C|].
  eapply quiet_svc; [exact C|apply np; discriminate|reflexivity|].
  apply quiet_write_str; [exact C|].
  eapply quiet_svc; [exact C|apply np; discriminate|reflexivity|].
  apply quiet_write_str; [exact C|].
  destruct W as (nd & G & P).
  eapply quiet_svc; [exact C|apply np; discriminate| |].
  { cbn [svc o_state after_write set_state]. unfold svc. cbn [o_state after_write set_state].
    unfold ush_prompt_service. cbn [o_state after_write set_state hp o_cur set_wnext set_wbuf set_wsize set_wpos set_lg].
    cbn. rewrite G. cbn [bind]. unfold path_of. rewrite P. cbn [bind]. reflexivity. }
  apply quiet_write_str; [exact C|].
  eapply quiet_svc; [exact C|apply np; discriminate|reflexivity|].
  apply quiet_write_str; [exact C|].
  match goal with |- quiet _ ?x _ => replace x with (after_prompt p s); [exact Q|] end.
  unfold after_prompt, after_write, write_str, ush_write_pointer_bin.
  cbn [o_desc o_state o_wnext o_pnext o_wbuf o_wsize o_wpos lg set_state set_wnext set_wbuf set_wsize set_wpos set_lg].
  rewrite !map_app, <- !app_assoc. reflexivity.
Qed.

(** From RESET_PROMPT to the next poll. *)
Lemma quiet_reset_prompt : forall e s p, o_state s = S_RESET_PROMPT -> cwd_is s p -> bufs_ok s ->
  exists s', quiet e s s' /\ editing 0 [] s' /\ core s' = core s /\ bufs_ok s' /\
    lg s' = lg s ++ map EvOut (prompt (o_desc s) p).
Proof.
  intros e s p E W B. pose proof (cwd_cur _ _ W) as C. destruct B as (B1 & B2 & B3 & B4).
  assert (HB : wr (inb s) 0 NUL = Ok (upd (inb s) 0 NUL)) by (apply wr_ok; lia).
  eexists. split; [|].
  - eapply quiet_svc; [exact C|apply np; rewrite E; discriminate|unfold svc, ush_reset_service; rewrite E; reflexivity|].
    eapply quiet_prompt with (p := p); [reflexivity|exact W|].
    eapply quiet_svc; [exact C|apply np; discriminate| |].
    { unfold svc. cbn [o_state after_prompt after_write set_state o_pnext ush_prompt_start set_pnext set_lg].
      unfold ush_read_start. cbn [inb after_prompt after_write set_state set_wnext set_wbuf set_wsize set_wpos set_lg ush_prompt_start set_pnext].
      rewrite HB. cbn [bind]. reflexivity. }
    apply quiet_here. reflexivity.
  - split; [|split; [reflexivity|split]].
    + split; [reflexivity|]. split; [reflexivity|]. split; [reflexivity|].
      destruct (inb s) as [|x r]; [cbn in B1; lia|]. exists r. reflexivity.
    + split; [|repeat split; assumption]. cbn. rewrite upd_length. exact B1.
    + cbn [lg set_esc set_state set_inpos set_inb after_prompt after_write set_wnext set_wbuf set_wsize set_wpos set_lg
           ush_prompt_start set_pnext o_desc].
      unfold after_prompt, after_write. cbn [lg set_esc set_state set_inpos set_inb set_wnext set_wbuf set_wsize set_wpos set_lg
           ush_prompt_start set_pnext o_desc].
      unfold prompt. rewrite <- path_last_label, !map_app, <- !app_assoc. reflexivity.
Qed.

(** From RESET: the line break first. *)
Lemma quiet_reset : forall e s p, o_state s = S_RESET -> cwd_is s p -> bufs_ok s ->
  exists s', quiet e s s' /\ editing 0 [] s' /\ core s' = core s /\ bufs_ok s' /\
    lg s' = lg s ++ map EvOut (CRLF ++ prompt (o_desc s) p).
Proof.
  intros e s p E W B. pose proof (cwd_cur _ _ W) as C.
  destruct (quiet_reset_prompt e (after_write (WStr CRLF) CRLF S_RESET_PROMPT s) p) as (s' & Q & I & K & B' & L); auto.
  exists s'. split; [|split; [exact I|split; [exact K|split; [exact B'|]]]].
  - eapply quiet_svc; [exact C|apply np; rewrite E; discriminate|unfold svc, ush_reset_service; rewrite E; reflexivity|].
    apply quiet_write_str; auto.
  - rewrite L. cbn [after_write lg set_state set_wnext set_wbuf set_wsize set_wpos set_lg o_desc].
    rewrite <- app_assoc, <- map_app. reflexivity.
Qed.

(** ** Working without reading *)

(** [works e s s']: some service calls with a ready output lead from [s] to [s'],
    none of them in a polling state. *)
Inductive works (e : env) : st -> st -> Prop :=
| works_refl : forall s, works e s s
| works_step : forall s b s1 s2,
    ~ polling s -> ush_service (tick e None) s = Ok (b, s1) -> works e s1 s2 -> works e s s2.

Lemma works_trans : forall e s1 s2 s3, works e s1 s2 -> works e s2 s3 -> works e s1 s3.
Proof. intros e s1 s2 s3 H. induction H; intros; auto. econstructor; eauto. Qed.

Lemma works_quiet : forall e s s2, works e s s2 -> forall s', quiet e s s' <-> quiet e s2 s'.
Proof.
  intros e s s2 H s'. induction H as [s|s b s1 s2 N H1 H2 IH]; [tauto|]. split; intros Q.
  - apply IH. inversion Q as [? P|? b' s1' ? N' H1' Q']; subst; [contradiction|].
    assert (s1' = s1) by congruence. subst. exact Q'.
  - econstructor; eauto. apply IH. exact Q.
Qed.

Lemma works_svc : forall e s b s1 s2, o_cur s <> None -> ~ polling s ->
  svc (tick e None) s = Ok (b, s1) -> works e s1 s2 -> works e s s2.
Proof.
  intros e s b s1 s2 C P H Q. eapply works_step; eauto. rewrite service_eq.
  destruct (o_cur s); [exact H|congruence].
Qed.

Lemma works_pending : forall e t s, o_cur s <> None -> pending s t ->
  works e s (set_state (o_wnext s) (delivered s t)).
Proof.
  intros e t. induction t as [|c t IH]; intros s C P.
  - eapply works_step; [eapply pending_not_polling; eauto|apply pending_end; auto|].
    rewrite delivered_nil, set_wpos_id. apply works_refl.
  - eapply works_step; [eapply pending_not_polling; eauto|apply (pending_step _ s c t C P)|].
    cbn [tick io_wr]. change (c :: t) with ([c] ++ t). rewrite <- delivered_app.
    apply (IH (delivered s [c])); auto. apply (pending_delivered s [c] t P).
Qed.

Lemma works_wpb : forall e p t next s, o_cur s <> None -> points s p t ->
  works e (ush_write_pointer_bin p (length t) next s) (after_write p t next s).
Proof.
  intros e p t next s C H.
  exact (works_pending e t (ush_write_pointer_bin p (length t) next s) C (pending_wpb p t next s H)).
Qed.

Lemma works_write_str : forall e t next s, o_cur s <> None ->
  works e (write_str t next s) (after_write (WStr t) t next s).
Proof. intros. apply works_wpb; auto using points_WStr. Qed.

(** Reading one byte and working on it. *)
Definition took (e : env) (c : byte) (s s' : st) : Prop :=
  polling s /\ exists b s1, ush_service (tick e (Some c)) s = Ok (b, s1) /\ works e s1 s'.

Lemma took_fed : forall e c s s2, took e c s s2 -> forall s', fed e [c] s s' <-> quiet e s2 s'.
Proof.
  intros e c s s2 (P & b & s1 & H & W) s'. rewrite <- (works_quiet _ _ _ W). split.
  - intros F. inversion F as [|? ? ? b' s1' s2' ? P' H' Q F']; subst. inversion F'; subst.
    assert (s1' = s1) by congruence. subst. exact Q.
  - intros Q. econstructor; eauto. constructor. apply quiet_esteps in Q. destruct Q as (_ & _ & _ & Q). exact Q.
Qed.

Lemma took_works : forall e c s s1 s2, took e c s s1 -> works e s1 s2 -> took e c s s2.
Proof. intros e c s s1 s2 (P & b & s0 & H & W) W2. split; auto. exists b, s0. split; auto. eapply works_trans; eauto. Qed.
