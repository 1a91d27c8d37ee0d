(** * ParseFacts: the in-place parser computes the words of the line. *)
From Verif Require Import Shell BaseFacts LogFacts Sched ServiceFacts SchedFacts Macro Editor EditFacts Words.

(** Parser states: [out] has been produced, [gap] is dead space, [rest] is to be read. *)
Definition pst (x : fsm) (out gap rest : bytes) (ac : nat) (ef : bool) (s : st) : st :=
  set_state x (set_inb (out ++ gap ++ rest) (set_inpos (length out + length gap)
    (set_outpos (length out) (set_argc ac (set_escf ef s))))).

Lemma out_char_pst : forall ch x out g gap rest ac ef s,
  out_char ch (pst x out (g :: gap) rest ac ef s) = Ok (pst x (out ++ [ch]) gap rest ac ef s).
Proof.
  intros. unfold out_char, pst. sfields. cbn [app]. rewrite wr_app by reflexivity. cbn [bind].
  rewrite <- app_assoc. cbn [app]. rewrite app_length. cbn [length].
  rewrite Nat.add_1_r, Nat.add_succ_r. reflexivity.
Qed.

Definition pstate (w : option bytes) (q : bool) : fsm :=
  match w with None => S_PARSE_SEARCH_ARG | Some _ => if q then S_PARSE_QUOTE_ARG else S_PARSE_STANDARD_ARG end.

(** [lex] when the previous byte was a backslash. *)
Definition lexe (esc q : bool) (l : bytes) : list item :=
  if esc then
    match l with
    | [] => []
    | d :: r => (if ceq d "x"%char then [Chr BSL; Chr d] else [Chr d]) ++ lex q r
    end
  else lex q l.

Lemma parse_svc : forall e w q out gap rest ac ef s, o_cur s <> None ->
  ush_service (tick e None) (pst (pstate w q) out gap rest ac ef s) =
  (s1 <- ush_parse_char e (pst (pstate w q) out gap rest ac ef s) ;; Ok (true, s1)).
Proof.
  intros. rewrite service_eq. cbn [pst o_cur set_state]. unfold pst at 1. sfields.
  destruct (o_cur s); [|congruence]. unfold svc, ush_parse_service.
  destruct w; [destruct q|]; reflexivity.
Qed.

Lemma parse_read : forall e x out gap c rest ac ef s,
  ush_parse_char e (pst x out gap (c :: rest) ac ef s) =
  (if ceq c LF || ceq c CR then
     s1 <- out_char NUL (pst x out (gap ++ [c]) rest ac ef s) ;; ush_parse_finish e (set_state S_RESET_PROMPT s1)
   else ush_parse_char_standard c (pst x out (gap ++ [c]) rest ac ef s)).
Proof.
  intros. unfold ush_parse_char. cbn [pst o_inpos inb]. unfold pst at 1 2. sfields.
  rewrite (app_assoc out gap). rewrite rd_app by (rewrite app_length; reflexivity). cbn [bind].
  match goal with |- context [ush_parse_char_standard c ?a] => replace a with (pst x out (gap ++ [c]) rest ac ef s) end.
  - destruct (ceq c LF || ceq c CR); reflexivity.
  - unfold pst. sfields. rewrite <- !app_assoc. cbn [app]. rewrite app_length. cbn [length]. rewrite Nat.add_1_r, Nat.add_succ_r. reflexivity.
Qed.

Lemma pst_state : forall y x out gap rest ac ef s, set_state y (pst x out gap rest ac ef s) = pst y out gap rest ac ef s.
Proof. intros. unfold pst. cbv [set_state]. sfields. reflexivity. Qed.
Lemma pst_escf : forall b x out gap rest ac ef s, set_escf b (pst x out gap rest ac ef s) = pst x out gap rest ac b s.
Proof. intros. unfold pst. sfields. reflexivity. Qed.

Lemma pst_ostate : forall x out gap rest ac ef s, o_state (pst x out gap rest ac ef s) = x.
Proof. intros. unfold pst. sfields. reflexivity. Qed.
Lemma pst_oescf : forall x out gap rest ac ef s, o_escf (pst x out gap rest ac ef s) = ef.
Proof. intros. unfold pst. sfields. reflexivity. Qed.
Ltac std := unfold ush_parse_char_standard; rewrite pst_ostate, pst_oescf; cbn [pstate];
  repeat match goal with |- context [ceq ?a ?b] => let v := eval vm_compute in (ceq a b) in change (ceq a b) with v end; cbv iota.
Lemma std_bsl : forall t q out gap rest ac s,
  ush_parse_char_standard BSL (pst (pstate (Some t) q) out gap rest ac false s) = Ok (pst (pstate (Some t) q) out gap rest ac true s).
Proof. intros t [|]; intros; std; rewrite pst_escf; reflexivity. Qed.
Lemma std_dq : forall t q out gap rest ac s,
  ush_parse_char_standard DQ (pst (pstate (Some t) q) out gap rest ac false s) = Ok (pst (pstate (Some t) (negb q)) out gap rest ac false s).
Proof. intros t [|]; intros; std; rewrite pst_state; reflexivity. Qed.
Lemma std_sp : forall t out g gap rest ac s,
  ush_parse_char_standard SP (pst (pstate (Some t) false) out (g :: gap) rest ac false s) = Ok (pst (pstate None false) (out ++ [NUL]) gap rest ac false s).
Proof. intros. std. rewrite out_char_pst. cbn [bind]. rewrite pst_state. reflexivity. Qed.

Lemma snoc_cons : forall A (l : list A) x, exists y r, l ++ [x] = y :: r.
Proof. intros A [|y r] x; cbn [app]; eauto. Qed.

Lemma snoc_cons2 : forall A (l : list A) x, l <> [] -> exists y z r, l ++ [x] = y :: z :: r.
Proof.
  intros A [|y r] x H; [congruence|]. cbn [app]. destruct (snoc_cons A r x) as (z & r' & ->). eauto.
Qed.

Lemma packed_app : forall a b, packed (a ++ b) = packed a ++ packed b.
Proof. intros. apply flat_map_app. Qed.

Ltac solve_len :=
  cbn [lexe] in *; rewrite ?packed_app, ?app_length in *; cbn [packed flat_map word_so_far flush_word length] in *;
  rewrite ?app_length in *; cbn [length] in *;
  repeat match goal with |- context [if ?b then _ else _] => destruct b | H : context [if ?b then _ else _] |- _ => destruct b end;
  cbn [length] in *; lia.

Lemma parse_run : forall e c r s, o_cur s <> None -> c = CR \/ c = LF ->
  forall l w q esc done gap, eol_free l -> (esc = true -> gap <> []) -> (w = None -> q = false /\ esc = false) ->
  exists s1 extra gap' ef, let ws := done ++ group w (lexe esc q l) in
    works e (pst (pstate w q) (packed done ++ word_so_far w) gap (l ++ c :: r) (length done + length (flush_word w)) esc s) s1 /\
    ~ polling s1 /\
    length (packed ws ++ extra) + length gap' = length (packed done ++ word_so_far w) + length gap + S (length l) /\
    ush_service (tick e None) s1 =
      (s3 <- ush_parse_finish e (pst S_RESET_PROMPT (packed ws ++ extra) gap' r (length ws) ef s) ;; Ok (true, s3)).
Proof.
  intros e c r s C Hc. induction l as [|d l IH]; intros w q esc done gap EF GE WN.
  - exists (pst (pstate w q) (packed done ++ word_so_far w) gap (c :: r) (length done + length (flush_word w)) esc s).
    destruct (snoc_cons _ gap c) as (g & gap' & G). pose proof (f_equal (@length _) G) as LG.
    assert (L : group w (lexe esc q []) = flush_word w) by (destruct esc; reflexivity).
    rewrite L.
    exists (match w with None => [NUL] | Some _ => [] end), gap', esc.
    cbv zeta. split; [apply works_refl|]. split; [destruct w; [destruct q|]; discriminate|].
    split; [rewrite packed_app; destruct w; cbn [packed flat_map flush_word word_so_far]; solve_len|].
    rewrite parse_svc by exact C. rewrite parse_read.
    assert (X : ceq c LF || ceq c CR = true) by (destruct Hc as [->| ->]; reflexivity). rewrite X.
    rewrite G, out_char_pst. cbn [bind]. rewrite app_length.
    destruct w as [t|]; cbn [word_so_far flush_word length].
    + rewrite packed_app. cbn [packed flat_map]. rewrite !app_nil_r, <- app_assoc. rewrite pst_state. reflexivity.
    + rewrite !app_nil_r. rewrite pst_state. reflexivity.
  - destruct EF as (EF1 & EF2).
    assert (EFl : eol_free l) by (split; intros X; [apply EF1|apply EF2]; right; exact X).
    assert (X : ceq d LF || ceq d CR = false).
    { rewrite !ceq_neq; [reflexivity| |]; intros ->; [apply EF1|apply EF2]; left; reflexivity. }
    assert (ST : forall s', ush_parse_char_standard d
         (pst (pstate w q) (packed done ++ word_so_far w) (gap ++ [d]) (l ++ c :: r) (length done + length (flush_word w)) esc s) = Ok s' ->
       forall s1, works e s' s1 ->
       works e (pst (pstate w q) (packed done ++ word_so_far w) gap ((d :: l) ++ c :: r) (length done + length (flush_word w)) esc s) s1).
    { intros s' H s1 W. eapply works_step; [|cbn [app]; rewrite parse_svc by exact C; rewrite parse_read, X, H; reflexivity|exact W].
      destruct w; [destruct q|]; discriminate. }
    destruct esc.
    + (* after a backslash *)
      destruct w as [t|]; [|destruct (WN eq_refl); discriminate].
      destruct (snoc_cons2 _ gap d (GE eq_refl)) as (g1 & g2 & gap' & G). pose proof (f_equal (@length _) G) as LG.
      rewrite G in ST.
      assert (O : exists gap'', length gap'' = length gap' + (if ceq d "x"%char then 0 else 1) /\
              out_escaped d (pst (pstate (Some t) q) (packed done ++ t) (g1 :: g2 :: gap') (l ++ c :: r) (length done + 1) true s)
                = Ok (pst (pstate (Some t) q) (packed done ++ (t ++ (if ceq d "x"%char then [BSL] else []) ++ [d])) gap'' (l ++ c :: r) (length done + 1) false s)).
      { unfold out_escaped. destruct (ceq d "x"%char).
        - rewrite out_char_pst. cbn [bind]. rewrite out_char_pst. cbn [bind]. exists gap'. split; [lia|]. rewrite <- !app_assoc. reflexivity.
        - cbn [bind]. rewrite out_char_pst. cbn [bind]. exists (g2 :: gap'). split; [cbn [length]; lia|]. rewrite <- !app_assoc. reflexivity. }
      destruct O as (gap'' & LG2 & O).
      destruct (IH (Some (t ++ (if ceq d "x"%char then [BSL] else []) ++ [d])) q false done gap'' EFl)
        as (s1 & extra & gap3 & ef & W1 & W2 & WL & W3); [discriminate|discriminate|].
      exists s1, extra, gap3, ef. cbv zeta in *.
      assert (L : group (Some t) (lexe true q (d :: l)) =
                  group (Some (t ++ (if ceq d "x"%char then [BSL] else []) ++ [d])) (lexe false q l)).
      { cbn [lexe]. destruct (ceq d "x"%char); cbn [app group word_so_far]; rewrite <- ?app_assoc; reflexivity. }
      rewrite L. split; [|split; [exact W2|split; [solve_len|exact W3]]].
      eapply ST; [|exact W1]. cbn [word_so_far flush_word length]. cbn [word_so_far flush_word length] in O.
      unfold ush_parse_char_standard. destruct q; cbn [pstate pst o_state set_state]; unfold pst at 1; sfields; exact O.
    + destruct (snoc_cons _ gap d) as (g & gap' & G). pose proof (f_equal (@length _) G) as LG.
      cbn [lexe] in *. cbn [lex].
      destruct w as [t|].
      * cbn [word_so_far flush_word length pstate] in *.
        (* inside a word *)
        destruct (ceq d BSL) eqn:EB.
        { apply ceq_true in EB. subst d.
          destruct (IH (Some t) q true done (gap ++ [BSL]) EFl) as (s1 & extra & gap3 & ef & W1 & W2 & WL & W3).
          { intros _ Y. destruct gap; discriminate. } { discriminate. }
          exists s1, extra, gap3, ef. cbv zeta in *.
          assert (L : group (Some t) match l with [] => [Mark] | d :: r' => (if ceq d "x"%char then [Chr BSL; Chr d] else [Chr d]) ++ lex q r' end
                      = group (Some t) (lexe true q l)) by (destruct l; reflexivity).
          rewrite L. split; [|split; [exact W2|split; [solve_len|exact W3]]].
          eapply ST; [|exact W1]. apply std_bsl. }
        destruct (ceq d DQ) eqn:EQ.
        { apply ceq_true in EQ. subst d.
          destruct (IH (Some t) (negb q) false done (gap ++ [DQ]) EFl) as (s1 & extra & gap3 & ef & W1 & W2 & WL & W3); [discriminate|discriminate|].
          exists s1, extra, gap3, ef. cbv zeta in *. cbn [group word_so_far].
          split; [|split; [exact W2|split; [solve_len|exact W3]]].
          eapply ST; [|exact W1]. apply std_dq. }
        destruct (ceq d SP && negb q) eqn:ES.
        { apply andb_true_iff in ES as (ES & ESq). destruct q; [discriminate|].
          apply ceq_true in ES. subst d.
          destruct (IH None false false (done ++ [t]) gap' EFl) as (s1 & extra & gap3 & ef & W1 & W2 & WL & W3); [discriminate|auto|].
          exists s1, extra, gap3, ef. cbv zeta in *. cbn [group flush_word].
          rewrite <- app_assoc in W3. cbn [lexe] in W3.
          split; [|split; [exact W2|split; [solve_len|exact W3]]].
          eapply ST; [|exact W1]. rewrite G. change (@pstate (Some t) false) with (pstate (Some t) false). rewrite (std_sp t).
          rewrite packed_app, app_length. cbn [packed flat_map word_so_far flush_word length].
          rewrite !app_nil_r, <- app_assoc, Nat.add_0_r. reflexivity. }
        { destruct (IH (Some (t ++ [d])) q false done gap' EFl) as (s1 & extra & gap3 & ef & W1 & W2 & WL & W3); [discriminate|discriminate|].
          exists s1, extra, gap3, ef. cbv zeta in *. cbn [group word_so_far].
          split; [|split; [exact W2|split; [solve_len|exact W3]]].
          eapply ST; [|exact W1]. rewrite G. cbn [word_so_far pstate flush_word length]. unfold ush_parse_char_standard.
          destruct q; unfold pst at 1 2; sfields; rewrite EQ, EB.
          - rewrite out_char_pst, <- app_assoc. reflexivity.
          - cbn [negb] in ES. rewrite andb_true_r in ES. rewrite ES. rewrite out_char_pst, <- app_assoc. reflexivity. }
      * (* between words *)
        destruct (WN eq_refl) as (-> & _). cbn [word_so_far flush_word length pstate negb andb] in *.
        destruct (ceq d SP) eqn:ES.
        { apply ceq_true in ES. subst d. change (ceq SP BSL) with false. change (ceq SP DQ) with false. cbv iota. cbn [andb].
          destruct (IH None false false done (gap ++ [SP]) EFl) as (s1 & extra & gap3 & ef & W1 & W2 & WL & W3); [discriminate|auto|].
          exists s1, extra, gap3, ef. cbv zeta in *. cbn [group flush_word app].
          split; [|split; [exact W2|split; [solve_len|exact W3]]].
          eapply ST; [|exact W1]. reflexivity. }
        destruct (ceq d BSL) eqn:EB.
        { apply ceq_true in EB. subst d.
          destruct (IH (Some []) false true done (gap ++ [BSL]) EFl) as (s1 & extra & gap3 & ef & W1 & W2 & WL & W3).
          { intros _ Y. destruct gap; discriminate. } { discriminate. }
          exists s1, extra, gap3, ef. cbv zeta in *.
          assert (L : group None match l with [] => [Mark] | d :: r' => (if ceq d "x"%char then [Chr BSL; Chr d] else [Chr d]) ++ lex false r' end
                      = group (Some []) (lexe true false l)).
          { destruct l as [|d l]; [reflexivity|]. cbn [lexe]. destruct (ceq d "x"%char); reflexivity. }
          rewrite L. split; [|split; [exact W2|split; [solve_len|exact W3]]].
          eapply ST; [|exact W1]. cbn [word_so_far pstate flush_word length]. rewrite Nat.add_0_r, Nat.add_1_r. reflexivity. }
        destruct (ceq d DQ) eqn:EQ.
        { apply ceq_true in EQ. subst d.
          destruct (IH (Some []) true false done (gap ++ [DQ]) EFl) as (s1 & extra & gap3 & ef & W1 & W2 & WL & W3); [discriminate|discriminate|].
          exists s1, extra, gap3, ef. cbv zeta in *. cbn [group word_so_far].
          split; [|split; [exact W2|split; [solve_len|exact W3]]].
          eapply ST; [|exact W1]. cbn [word_so_far pstate flush_word length]. rewrite Nat.add_0_r, Nat.add_1_r. reflexivity. }
        { destruct (IH (Some [d]) false false done gap' EFl) as (s1 & extra & gap3 & ef & W1 & W2 & WL & W3); [discriminate|discriminate|].
          exists s1, extra, gap3, ef. cbv zeta in *. cbn [andb group word_so_far app].
          split; [|split; [exact W2|split; [solve_len|exact W3]]].
          eapply ST; [|exact W1]. rewrite G. cbn [word_so_far pstate flush_word length]. unfold ush_parse_char_standard.
          unfold pst at 1; sfields; rewrite ES, EQ, EB. rewrite out_char_pst. cbn [bind]. rewrite !app_nil_r.
          rewrite Nat.add_0_r, Nat.add_1_r. reflexivity. }
Qed.

(** ** From the end-of-line byte to the dispatch *)

(** The state in which [ush_parse_finish] looks at the words [ws]. *)
Definition dispatch (ws : list bytes) (t : bytes) (s s2 : st) : Prop :=
  o_state s2 = S_RESET_PROMPT /\ o_argc s2 = length ws /\ core s2 = core s /\ bufs_ok s2 /\
  wrote s2 t /\ exists r, inb s2 = packed ws ++ r.

Lemma enter_line : forall e l s c, editing 0 l s -> o_cur s <> None -> bufs_ok s ->
  c = CR \/ c = LF -> eol_free l ->
  exists s1 s2, took e c s s1 /\ ~ polling s1 /\
    ush_service (tick e None) s1 = (s3 <- ush_parse_finish e s2 ;; Ok (true, s3)) /\
    dispatch (words (kept_line (d_insize (o_desc s)) l)) (eol_echo c) s s2 /\
    lg s2 = lg s ++ EvIn c :: map EvOut (eol_echo c).
Proof.
  intros e l s c Ed C B Hc EF.
  destruct (enter_key e l s c Ed C B Hc) as (s0 & T & Wr & ST & K & B0 & (r & EB) & L).
  set (k := kept_line (d_insize (o_desc s)) l) in *.
  assert (EFk : eol_free k).
  { unfold k, kept_line. destruct (_ <? _); [exact EF|]. destruct EF as (E1 & E2).
    split; intros [X|X]; try discriminate; [apply E1|apply E2]; destruct l; auto; right; exact X. }
  assert (C0 : o_cur s0 <> None). { unfold core in K. assert (o_cur s0 = o_cur s) by congruence. congruence. }
  destruct (parse_run e c r s0 C0 Hc k None false false [] [] EFk) as (s1 & extra & gap & ef & W & N & WL & S); [discriminate|auto|].
  cbv zeta in *. cbn [app packed flat_map word_so_far flush_word length Nat.add lexe pstate] in *.
  fold (words k) in S. fold (packed (words k)) in S.
  eexists s1, _. split; [|split; [exact N|split; [exact S|split]]].
  - eapply took_works; [exact T|].
    eapply works_svc; [exact C0|apply np; rewrite ST; discriminate|unfold svc, ush_parse_service; rewrite ST; reflexivity|].
    match goal with |- works e ?x _ => match type of W with works e ?y _ => replace x with y; [exact W|] end end.
    unfold pst, ush_parse_start. cbn [length Nat.add app]. rewrite <- EB. destruct s0; reflexivity.
  - split; [reflexivity|]. split; [reflexivity|]. split; [exact K|]. split; [|split].
    + destruct B0 as (B1 & B2 & B3 & B4). split; [|split; [exact B2|split; [exact B3|exact B4]]].
      unfold pst. sfields. rewrite <- B1, EB. fold (words k) in WL. fold (packed (words k)) in WL.
      rewrite !app_length in *. cbn [length]. lia.
    + exact Wr.
    + exists (extra ++ gap ++ r). unfold pst. sfields. rewrite <- app_assoc. reflexivity.
  - exact L.
Qed.
