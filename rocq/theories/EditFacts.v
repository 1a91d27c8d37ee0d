(** * EditFacts: one received byte while a line is being typed. *)
From Verif Require Import Shell BaseFacts LogFacts Sched ServiceFacts SchedFacts Macro Editor.

Lemma fed_one : forall e c s b s1 s', polling s -> o_cur s <> None ->
  ush_read_char (tick e (Some c)) s = Ok (b, s1) -> quiet e s1 s' -> fed e [c] s s'.
Proof.
  intros e c s b s1 s' P C H Q. econstructor; eauto.
  - rewrite service_eq. destruct (o_cur s); [|congruence]. unfold svc. rewrite P. exact H.
  - constructor. apply quiet_esteps in Q as (os & _ & _ & Q). exact Q.
Qed.

(** Ordinary bytes. *)
Lemma plain_key_ne : forall c, plain_key c = true ->
  ceq c ETX = false /\ ceq c BS = false /\ ceq c DEL = false /\ ceq c TAB = false /\
  ceq c ESC = false /\ ceq c CR = false /\ ceq c LF = false.
Proof.
  intros c H. unfold plain_key in H. apply negb_true_iff in H. cbn [existsb] in H.
  repeat (apply orb_false_iff in H as [? H]). auto 10.
Qed.

Lemma echo_str : forall c r, c_str (c :: NUL :: r) 0 = Ok (echo_of c).
Proof.
  intros c r. unfold c_str, echo_of. cbn [skipn c_str0]. destruct (ceq c NUL); reflexivity.
Qed.

Lemma buf4 : forall (b : bytes) n, length b = n -> 4 <= n ->
  exists x0 x1 x2 x3 r, b = x0 :: x1 :: x2 :: x3 :: r.
Proof.
  intros b n L H. destruct b as [|x0 [|x1 [|x2 [|x3 r]]]]; cbn [length] in L; try lia. eauto 10.
Qed.

Lemma store_char : forall n l r c, length (l ++ NUL :: r) = n -> 2 <= n ->
  exists r' b1, wr (l ++ NUL :: r) (length l) c = Ok b1 /\
    let p := if n <=? S (length l) then 0 else S (length l) in
    wr b1 p NUL = Ok (stored_line n l c ++ NUL :: r') /\ p = length (stored_line n l c) /\
    (n <=? S (length l) = true -> stored_line n l c ++ NUL :: r' = NUL :: tl l ++ [c]) /\
    (n <=? S (length l) = false -> exists r'', stored_line n l c ++ NUL :: r' = l ++ c :: NUL :: r'').
Proof.
  intros n l r c L N. rewrite app_length in L. cbn [length] in L.
  unfold stored_line. destruct (Nat.leb_spec n (S (length l))) as [H|H].
  - destruct (Nat.ltb_spec (S (length l)) n); [lia|].
    assert (r = []) by (destruct r; [auto|cbn [length] in L; lia]). subst r.
    destruct l as [|x l]; [cbn [length] in *; lia|].
    exists (l ++ [c]), ((x :: l) ++ [c]). split.
    + rewrite wr_app by auto. reflexivity.
    + cbv zeta. split; [reflexivity|]. split; [reflexivity|]. split; [reflexivity|discriminate].
  - destruct (Nat.ltb_spec (S (length l)) n); [|lia].
    destruct r as [|x r]; [cbn [length] in L; lia|].
    exists r, (l ++ c :: x :: r). split; [rewrite wr_app by auto; reflexivity|]. cbv zeta. split.
    + change (l ++ c :: x :: r) with (l ++ [c] ++ x :: r). rewrite app_assoc, wr_app; [reflexivity|].
      rewrite app_length. cbn [length]. lia.
    + split; [rewrite app_length; cbn [length]; lia|]. split; [discriminate|].
      intros _. exists r. rewrite <- app_assoc. reflexivity.
Qed.

Ltac sfields := cbn [o_desc o_state o_wnext o_pnext o_wbuf o_wsize o_wpos o_esc o_inpos o_outpos o_argc o_escf
  o_cmds o_root o_cur o_buildin o_pnode o_pchild o_pfile o_pidx o_pitem o_pdata o_pdsize o_pstage o_acprev o_acin
  o_accand o_acname o_account o_acprevc o_acsuf inb outb hp lg
  set_desc set_state set_wnext set_pnext set_wbuf set_wsize set_wpos set_esc set_inpos set_outpos set_argc set_escf
  set_cmds set_root set_cur set_buildin set_pnode set_pchild set_pfile set_pidx set_pitem set_pdata set_pdsize set_pstage
  set_acprev set_acin set_accand set_acname set_account set_acprevc set_acsuf set_inb set_outb set_hp set_lg emit].

(** A stored byte: ordinary keys and line ends in escape state 0. *)
Lemma plain_store : forall e l s c, editing 0 l s -> o_cur s <> None -> bufs_ok s ->
  plain_key c = true ->
  exists s', fed e [c] s s' /\ editing 0 (stored_line (d_insize (o_desc s)) l c) s' /\
    core s' = core s /\ bufs_ok s' /\ lg s' = lg s ++ EvIn c :: map EvOut (echo_of c).
Proof.
  intros e l s c (P & K & IP & r & EB) C (B1 & B2 & B3 & B4) PK.
  destruct (plain_key_ne _ PK) as (N1 & N2 & N3 & N4 & N5 & N6 & N7).
  rewrite EB in B1.
  destruct (store_char _ _ _ c B1 B3) as (r' & b1 & W1 & W2 & W3 & _).
  destruct (buf4 _ _ B2 B4) as (x0 & x1 & x2 & x3 & q & EO).
  eexists. split.
  - eapply fed_one; [exact P|exact C| |].
    + unfold ush_read_char, tick. cbn [io_rd]. rewrite N1, N2, N3, N4, N5. cbn [orb].
      unfold ush_read_char_by_escape_state. sfields. rewrite K, IP, EB, W1. cbn [bind].
      rewrite W2. cbn [bind]. unfold ush_read_echo_service. rewrite N6, N2, N3, N7. cbn [orb].
      sfields. rewrite EO. cbn [bind]. rewrite wr_ok by (cbn [length]; lia). cbn [bind upd].
      rewrite wr_ok by (cbn [length]; lia). cbn [bind upd].
      rewrite (wp_eq WOut S_READ_CHAR _ (echo_of c)) by (cbn [wptr_str]; apply echo_str).
      cbn [bind]. reflexivity.
    + apply quiet_wpb; [exact C|apply points_str; cbn [wptr_str]; apply echo_str|].
      apply quiet_here. reflexivity.
  - split; [|split; [reflexivity|split]].
    + split; [reflexivity|]. split; [exact K|]. split; [exact W3|]. exists r'. reflexivity.
    + unfold bufs_ok. unfold after_write. sfields. split; [|split; [|split; assumption]].
      * apply wr_length in W1, W2. congruence.
      * rewrite EO in B2. exact B2.
    + unfold after_write. sfields. rewrite <- app_assoc. reflexivity.
Qed.

(** Backspace. *)
Lemma backspace : forall e k l s c, editing k l s -> o_cur s <> None -> bufs_ok s ->
  c = BS \/ c = DEL ->
  exists s', fed e [c] s s' /\ editing k (removelast l) s' /\
    core s' = core s /\ bufs_ok s' /\
    lg s' = lg s ++ EvIn c :: map EvOut (match l with [] => [] | _ => [BS; SP; BS] end).
Proof.
  intros e k l s c (P & K & IP & r & EB) C (B1 & B2 & B3 & B4) Hc.
  assert (N : ceq c ETX = false /\ (ceq c BS || ceq c DEL = true) /\ ceq c CR = false /\ ceq c LF = false).
  { destruct Hc as [->| ->]; repeat split; reflexivity. }
  destruct N as (N1 & N2 & N3 & N4).
  destruct (buf4 _ _ B2 B4) as (x0 & x1 & x2 & x3 & q & EO).
  destruct l as [|x l] using rev_ind.
  - eexists. split.
    + eapply fed_one; [exact P|exact C| |].
      * unfold ush_read_char, tick. cbn [io_rd]. rewrite N1, N2. sfields. rewrite IP. cbn [length bind]. reflexivity.
      * apply quiet_here. exact P.
    + split; [|split; [reflexivity|split]].
      * split; [exact P|]. split; [exact K|]. split; [exact IP|]. exists r. exact EB.
      * split; [exact B1|]. auto.
      * reflexivity.
  - clear IHl. rewrite app_length in IP. cbn [length] in IP. rewrite Nat.add_1_r in IP.
    rewrite <- app_assoc in EB. cbn [app] in EB.
    eexists. split.
    + eapply fed_one; [exact P|exact C| |].
      * unfold ush_read_char, tick. cbn [io_rd]. rewrite N1, N2. sfields. rewrite IP, EB. cbn [bind].
        rewrite wr_app by auto. cbn [bind].
        unfold ush_read_echo_service. rewrite N3, N2, N4. cbn [orb]. sfields. rewrite EO.
        rewrite wr_ok by (cbn [length]; lia). cbn [bind upd].
        rewrite wr_ok by (cbn [length]; lia). cbn [bind upd].
        rewrite wr_ok by (cbn [length]; lia). cbn [bind upd].
        rewrite wr_ok by (cbn [length]; lia). cbn [bind upd].
        rewrite (wp_eq WOut S_READ_CHAR _ [BS; SP; BS]) by reflexivity. cbn [bind]. reflexivity.
      * apply quiet_wpb; [exact C|apply points_str; reflexivity|]. apply quiet_here. reflexivity.
    + split; [|split; [reflexivity|split]].
      * rewrite removelast_last. split; [reflexivity|]. split; [exact K|]. split; [reflexivity|].
        exists (NUL :: r). reflexivity.
      * unfold bufs_ok, after_write. sfields. split; [|split; [|split; assumption]].
        -- rewrite EB in B1. rewrite app_length in *. cbn [length] in *. exact B1.
        -- rewrite EO in B2. exact B2.
      * unfold after_write. sfields. rewrite <- app_assoc. destruct l; reflexivity.
Qed.

(** Escape sequences: ESC, and any byte while inside one. *)
Lemma escape_key : forall e k l s, editing k l s -> o_cur s <> None -> bufs_ok s ->
  exists s', fed e [ESC] s s' /\ editing 1 l s' /\ core s' = core s /\ bufs_ok s' /\
    lg s' = lg s ++ [EvIn ESC].
Proof.
  intros e k l s (P & K & IP & r & EB) C B.
  eexists. split.
  - eapply fed_one; [exact P|exact C| |].
    + unfold ush_read_char, tick. cbn [io_rd ceq Ascii.eqb Bool.eqb ESC ETX BS DEL TAB orb]. cbn. reflexivity.
    + apply quiet_here. exact P.
  - split; [|split; [reflexivity|split; [exact B|reflexivity]]].
    split; [exact P|]. split; [reflexivity|]. split; [exact IP|]. exists r. exact EB.
Qed.

Lemma escaped_key : forall e k l s c, editing k l s -> o_cur s <> None -> bufs_ok s ->
  k = 1 \/ k = 2 -> (plain_key c = true \/ c = CR \/ c = LF) ->
  exists s', fed e [c] s s' /\ editing (esc_next k c) l s' /\ core s' = core s /\ bufs_ok s' /\
    lg s' = lg s ++ [EvIn c].
Proof.
  intros e k l s c (P & K & IP & r & EB) C B Hk Hc.
  assert (N : ceq c ETX = false /\ ceq c BS = false /\ ceq c DEL = false /\ ceq c TAB = false /\ ceq c ESC = false).
  { destruct Hc as [Hc|[->| ->]]; [|repeat split; reflexivity|repeat split; reflexivity].
    apply plain_key_ne in Hc. tauto. }
  destruct N as (N1 & N2 & N3 & N4 & N5).
  exists (set_esc (esc_next k c) (emit (EvIn c) s)). split.
  - apply fed_one with (b := true) (s1 := set_esc (esc_next k c) (emit (EvIn c) s)); [exact P|exact C| |].
    + unfold ush_read_char, tick. cbn [io_rd]. rewrite N1, N2, N3, N4, N5. cbn [orb].
      unfold ush_read_char_by_escape_state. sfields. rewrite K.
      destruct Hk as [->| ->]; [|reflexivity].
      change (esc_next 1 c) with (if ceq c "["%char || ceq c "O"%char then 2 else 0).
      destruct (ceq c "["%char || ceq c "O"%char) eqn:E; cbn [bind]; reflexivity.
    + apply quiet_here. exact P.
  - split; [|split; [reflexivity|split; [exact B|reflexivity]]].
    split; [exact P|]. split; [reflexivity|]. split; [exact IP|]. exists r. exact EB.
Qed.

(** TAB without autocompletion. *)
Lemma tab_disabled : forall e k l s, editing k l s -> o_cur s <> None -> bufs_ok s ->
  cfg_autocomp (d_cfg (o_desc s)) = false ->
  exists s', fed e [TAB] s s' /\ editing k l s' /\ core s' = core s /\ bufs_ok s' /\ lg s' = lg s ++ [EvIn TAB].
Proof.
  intros e k l s (P & K & IP & r & EB) C B A.
  exists (emit (EvIn TAB) s). split.
  - eapply fed_one; [exact P|exact C| |].
    + unfold ush_read_char, tick. cbn [io_rd]. change (ceq TAB ETX) with false.
      change (ceq TAB BS || ceq TAB DEL) with false. change (ceq TAB TAB) with true.
      sfields. rewrite A. reflexivity.
    + apply quiet_here. exact P.
  - split; [|split; [reflexivity|split; [exact B|reflexivity]]].
    split; [exact P|]. split; [exact K|]. split; [exact IP|]. exists r. exact EB.
Qed.

(** Ctrl-C. *)
Lemma cancel_key : forall e k l s p, editing k l s -> cwd_is s p -> bufs_ok s ->
  exists s', fed e [ETX] s s' /\ editing 0 [] s' /\ core s' = core s /\ bufs_ok s' /\
    lg s' = lg s ++ EvIn ETX :: map EvOut (lit "^C" ++ CRLF ++ prompt (o_desc s) p).
Proof.
  intros e k l s p (P & K & IP & r & EB) W B. pose proof (cwd_cur _ _ W) as C.
  destruct (quiet_reset e (after_write (WStr (lit "^C")) (lit "^C") S_RESET (emit (EvIn ETX) s)) p)
    as (s' & Q & I & K' & B' & L); auto.
  exists s'. split.
  - eapply fed_one; [exact P|exact C| |].
    + unfold ush_read_char, tick. cbn [io_rd]. change (ceq ETX ETX) with true. cbn [bind]. reflexivity.
    + apply quiet_write_str; [exact C|]. exact Q.
  - split; [exact I|]. split; [exact K'|]. split; [exact B'|]. rewrite L. unfold after_write. sfields.
    rewrite <- !app_assoc. cbn [app]. rewrite <- map_app. reflexivity.
Qed.

(** The text last written is the string in the output buffer. *)
Definition wrote (s : st) (t : bytes) : Prop :=
  o_wbuf s = Some WOut /\ c_str (outb s) 0 = Ok t /\ o_wsize s = length t /\ o_wpos s = length t.

(** End of line: echo, then parsing starts on the stored line. *)
Lemma enter_key : forall e l s c, editing 0 l s -> o_cur s <> None -> bufs_ok s ->
  c = CR \/ c = LF ->
  exists s2, took e c s s2 /\ wrote s2 (eol_echo c) /\
    o_state s2 = S_PARSE_PREPARE /\ core s2 = core s /\ bufs_ok s2 /\
    (exists r, inb s2 = kept_line (d_insize (o_desc s)) l ++ c :: r) /\
    lg s2 = lg s ++ EvIn c :: map EvOut (eol_echo c).
Proof.
  intros e l s c (P & K & IP & r & EB) C (B1 & B2 & B3 & B4) Hc.
  assert (N : ceq c ETX = false /\ ceq c BS = false /\ ceq c DEL = false /\ ceq c TAB = false /\ ceq c ESC = false /\
              (ceq c CR || ceq c LF = true)).
  { destruct Hc as [->| ->]; repeat split; reflexivity. }
  destruct N as (N1 & N2 & N3 & N4 & N5 & N6).
  pose proof B1 as B1'. rewrite EB in B1.
  destruct (store_char _ _ _ c B1 B3) as (r' & b1 & W1 & W2 & W3 & W4 & W5).
  destruct (buf4 _ _ B2 B4) as (x0 & x1 & x2 & x3 & q & EO).
  set (ob := if ceq c CR then CR :: LF :: NUL :: x3 :: q else LF :: NUL :: x2 :: x3 :: q).
  set (s0 := set_outb ob (set_inpos (length (stored_line (d_insize (o_desc s)) l c))
               (set_inb (stored_line (d_insize (o_desc s)) l c ++ NUL :: r') (emit (EvIn c) s)))).
  assert (O : c_str ob 0 = Ok (eol_echo c)).
  { unfold ob, eol_echo. destruct (ceq c CR); reflexivity. }
  exists (after_write WOut (eol_echo c) S_PARSE_PREPARE s0).
  assert (T : ush_read_char (tick e (Some c)) s = Ok (true, ush_write_pointer_bin WOut (length (eol_echo c)) S_PARSE_PREPARE s0)).
  { unfold ush_read_char, tick. cbn [io_rd]. rewrite N1, N2, N3, N4, N5. cbn [orb].
    unfold ush_read_char_by_escape_state. sfields. rewrite K, IP, EB, W1. cbn [bind].
    rewrite W2. cbn [bind]. unfold ush_read_echo_service. rewrite N2, N3, N6. cbn [orb].
    sfields. rewrite EO.
    assert (G : (if ceq c CR
      then b <- wr (x0 :: x1 :: x2 :: x3 :: q) 0 c ;; b <- wr b 1 LF ;; wr b 2 NUL
      else b <- wr (x0 :: x1 :: x2 :: x3 :: q) 0 c ;; wr b 1 NUL) = Ok ob).
    { unfold ob. destruct Hc as [->| ->]; cbn [ceq]; 
        rewrite wr_ok by (cbn [length]; lia); cbn [bind upd]; change (ceq CR CR) with true; change (ceq LF CR) with false;
        cbv iota; rewrite wr_ok by (cbn [length]; lia); cbn [bind upd]; try reflexivity;
        rewrite wr_ok by (cbn [length]; lia); cbn [bind upd]; reflexivity. }
    rewrite G. cbn [bind]. rewrite (wp_eq WOut S_PARSE_PREPARE _ (eol_echo c)) by exact O. cbn [bind].
    rewrite W3. reflexivity. }
  split; [|split; [|split; [reflexivity|split; [reflexivity|split; [|split]]]]].
  - split; [exact P|]. eexists true, _. split.
    + rewrite service_eq. destruct (o_cur s); [|congruence]. unfold svc. rewrite P. exact T.
    + apply works_wpb; [exact C|apply points_str; exact O].
  - split; [reflexivity|]. split; [exact O|]. split; reflexivity.
  - unfold bufs_ok, after_write, s0. sfields. split; [|split; [|split; assumption]].
    + apply wr_length in W1, W2. congruence.
    + rewrite EO in B2. unfold ob. destruct (ceq c CR); exact B2.
  - unfold after_write, s0. sfields. unfold kept_line.
    destruct (Nat.leb_spec (d_insize (o_desc s)) (S (length l))) as [H|H].
    + destruct (Nat.ltb_spec (S (length l)) (d_insize (o_desc s))); [lia|]. exists [].
      rewrite W4 by reflexivity. reflexivity.
    + destruct (Nat.ltb_spec (S (length l)) (d_insize (o_desc s))); [|lia].
      destruct W5 as (r'' & ->); [reflexivity|]. eauto.
  - unfold after_write, s0. sfields. rewrite <- app_assoc. reflexivity.
Qed.

(** ** Sequences of keys *)

Lemma editing_bound : forall k l s, editing k l s -> bufs_ok s -> length l < d_insize (o_desc s).
Proof.
  intros k l s (_ & _ & _ & r & E) (B & _). rewrite <- B, E, app_length. cbn [length]. lia.
Qed.

(** One key that does not end the line. *)
Lemma key_step : forall e k l s c p, editing k l s -> cwd_is s p -> bufs_ok s -> k <= 2 ->
  (k = 0 -> c <> CR /\ c <> LF) -> (c = TAB -> cfg_autocomp (d_cfg (o_desc s)) = false) ->
  let kl' := ed_step (d_insize (o_desc s)) (k, l) c in
  exists s', fed e [c] s s' /\ editing (fst kl') (snd kl') s' /\ core s' = core s /\ bufs_ok s' /\
    lg s' = lg s ++ EvIn c :: map EvOut (ed_out (CRLF ++ prompt (o_desc s) p) (k, l) c).
Proof.
  intros e k l s c p Ed W B K NE NT kl'. pose proof (cwd_cur _ _ W) as C. subst kl'.
  unfold ed_step, ed_out.
  destruct (ceq c ETX) eqn:C1. { apply ceq_true in C1. subst c. apply (cancel_key e k l s p); auto. }
  unfold erase_key, echo1. destruct (ceq c BS || ceq c DEL) eqn:C2.
  { destruct (backspace e k l s c) as (s' & F & E' & K' & B' & L'); auto.
    { apply orb_true_iff in C2 as [C2|C2]; apply ceq_true in C2; auto. }
    exists s'. unfold erase_key. rewrite C2. auto 10. }
  destruct (ceq c TAB) eqn:C3. { apply ceq_true in C3. subst c. apply (tab_disabled e k l s); auto. }
  destruct (ceq c ESC) eqn:C4. { apply ceq_true in C4. subst c. apply (escape_key e k l s); auto. }
  cbn [orb].
  assert (PK : plain_key c = true \/ c = CR \/ c = LF).
  { apply orb_false_iff in C2 as [C2 C2'].
    destruct (ceq c CR) eqn:C5; [apply ceq_true in C5; auto|]. destruct (ceq c LF) eqn:C6; [apply ceq_true in C6; auto|].
    left. unfold plain_key. cbn [existsb]. rewrite C1, C2, C2', C3, C4, C5, C6. reflexivity. }
  destruct k as [|k].
  - destruct PK as [PK|PK]; [|destruct NE as (NE1 & NE2); [reflexivity|destruct PK; contradiction]].
    apply plain_store; auto.
  - apply escaped_key; auto. lia.
Qed.

Lemma ed_step_le : forall n k l c, k <= 2 -> fst (ed_step n (k, l) c) <= 2.
Proof.
  intros n k l c H. unfold ed_step, esc_next.
  repeat match goal with |- context [if ?b then _ else _] => destruct b end; cbn [fst]; try lia;
  destruct k as [|[|k]]; cbn [fst]; try lia; destruct (_ || _); lia.
Qed.
