(** * ScreenProofs: proofs of C71. *)
From Coq Require Import Arith Lia.
From Verif Require Import Shell BaseFacts LogFacts Spec Words Sched Line Editor Tree Cmds Complete CompleteProofs Session SessionProofs Interrupt Screen.

Definition blank_right (r : bytes) : Prop := Forall (fun c => c = SP) r.

Lemma display_app : forall t u s, display s (t ++ u) = display (display s t) u.
Proof. intros. apply fold_left_app. Qed.
Lemma display_cons : forall c t s, display s (c :: t) = display (receive s c) t.
Proof. reflexivity. Qed.

Lemma printable_not : forall c d, printable c = true -> printable d = false -> ceq c d = false.
Proof. intros c d A B. destruct (ceq c d) eqn:E; [|reflexivity]. apply ceq_true in E. subst. congruence. Qed.

Lemma recv_char : forall l r c, printable c = true -> receive (mkScreen Ground l r) c = mkScreen Ground (l ++ [c]) (tl r).
Proof.
  intros l r c P. unfold receive. rewrite (printable_not c ESC P eq_refl), (printable_not c CR P eq_refl), (printable_not c LF P eq_refl), (printable_not c BS P eq_refl), P. reflexivity.
Qed.
Lemma blank_tl : forall r, blank_right r -> blank_right (tl r).
Proof. intros r B. destruct B; [constructor|assumption]. Qed.

Lemma show_chars : forall t l r, forallb printable t = true -> blank_right r -> exists r', display (mkScreen Ground l r) t = mkScreen Ground (l ++ t) r' /\ blank_right r'.
Proof.
  induction t as [|c t IH]; intros l r P B; [exists r; rewrite app_nil_r; auto|]. cbn [forallb] in P. apply andb_true_iff in P as (P & Q).
  rewrite display_cons, (recv_char l r c P). destruct (IH (l ++ [c]) (tl r) Q (blank_tl r B)) as (r' & E & B'). exists r'. rewrite E, <- app_assoc. auto.
Qed.
Lemma show_crlf : forall l r, display (mkScreen Ground l r) CRLF = mkScreen Ground [] [].
Proof. reflexivity. Qed.
Lemma show_erase : forall l c r, display (mkScreen Ground (l ++ [c]) r) [BS; SP; BS] = mkScreen Ground l (SP :: r).
Proof.
  intros l c r. unfold display. cbn [fold_left]. unfold receive at 3. cbn [ceq].
  change (ceq BS ESC) with false. change (ceq BS CR) with false. change (ceq BS LF) with false. change (ceq BS BS) with true. cbv iota.
  destruct (l ++ [c]) as [|x y] eqn:E; [destruct l; discriminate|]. rewrite <- E, removelast_last, last_last.
  rewrite recv_char by reflexivity. cbn [tl]. unfold receive.
  change (ceq BS ESC) with false. change (ceq BS CR) with false. change (ceq BS LF) with false. change (ceq BS BS) with true. cbv iota.
  destruct (l ++ [SP]) as [|x' y'] eqn:E'; [destruct l; discriminate|]. rewrite <- E', removelast_last, last_last. reflexivity.
Qed.
Lemma show_seq : forall ds c l r, forallb parameter ds = true -> display (mkScreen InSequence l r) (ds ++ "m"%char :: c) = display (mkScreen Ground l r) c.
Proof.
  induction ds as [|d ds IH]; intros c l r P; [reflexivity|]. cbn [forallb] in P. apply andb_true_iff in P as (P & Q). cbn [app]. rewrite display_cons.
  unfold parameter in P. apply andb_true_iff in P as (P1 & P2). apply Nat.ltb_lt in P2. unfold receive at 1. destruct (Nat.leb_spec 64 (nat_of_ascii d)); [lia|]. apply IH, Q.
Qed.
Lemma show_colour : forall cf t l r, (t = "[35m"%string \/ t = "[0m"%string) -> display (mkScreen Ground l r) (colour cf t) = mkScreen Ground l r.
Proof. intros cf t l r [-> | ->]; unfold colour; destruct (cfg_styles cf); reflexivity. Qed.

Definition prompt_cells (d : desc) (p : bytes) : bytes := lit "[" ++ d_host d ++ lit " " ++ label p ++ lit "]$ ".
Lemma show_prompt : forall d p l r, forallb printable (d_host d) = true -> forallb printable (label p) = true -> blank_right r ->
  exists r', display (mkScreen Ground l r) (prompt d p) = mkScreen Ground (l ++ prompt_cells d p) r' /\ blank_right r'.
Proof.
  intros d p l r P1 P2 B. unfold prompt. rewrite display_app, show_colour by auto. rewrite !app_assoc, display_app, <- !app_assoc.
  destruct (show_chars (prompt_cells d p) l r) as (r' & E & B'); [|exact B|]; [unfold prompt_cells; rewrite !forallb_app, P1, P2; reflexivity|].
  unfold prompt_cells in E |- *. rewrite E. exists r'. split; [apply show_colour; auto|exact B'].
Qed.

Lemma plain_clean : forall t, plain_text t -> clean t.
Proof.
  intros t P. induction P as [|c t P Q IH|t Q IH|t Q IH|ds t P Q IH]; intros [m l r] (M & _ & B); cbn [sc_mode sc_right] in M, B; subst m.
  - split; [reflexivity|]. split; [exists l; symmetry; apply app_nil_r|exact B].
  - rewrite display_cons, recv_char by exact P. apply IH. split; [reflexivity|]. split; [eexists; symmetry; apply app_nil_r|apply blank_tl; exact B].
  - rewrite display_cons. apply IH. split; [reflexivity|]. split; [exists []; reflexivity|constructor].
  - rewrite !display_cons. apply IH. split; [reflexivity|]. split; [exists []; reflexivity|constructor].
  - change (row_ends [] (display (mkScreen InSequence l r) (ds ++ "m"%char :: t))).
    rewrite show_seq by exact P. apply IH. split; [reflexivity|]. split; [exists l; symmetry; apply app_nil_r|exact B].
Qed.

(** ** Sessions *)
Definition looks (x : setting) (a : sess) (sc : screen) : Prop :=
  row_ends (seen_line (x_desc x) a) sc /\ forallb printable (se_line a) = true.

Lemma seen_split : forall d a, seen_line d a = prompt_cells d (show (here (se_world a))) ++ se_line a.
Proof. intros. unfold seen_line, prompt_cells. rewrite <- !app_assoc. reflexivity. Qed.

Lemma row_of : forall t sc, row_ends t sc -> exists pre r, sc = mkScreen Ground (pre ++ t) r /\ blank_right r.
Proof. intros t [m l r] (M & (pre & E) & B). cbn in *. subst. exists pre, r. auto. Qed.
Lemma row_is : forall pre t r, blank_right r -> row_ends t (mkScreen Ground (pre ++ t) r).
Proof. intros. split; [reflexivity|]. split; [exists pre; reflexivity|assumption]. Qed.

Lemma forallb_removelast : forall l, forallb printable l = true -> forallb printable (removelast l) = true.
Proof.
  intros l H. rewrite forallb_forall in *. intros c I. apply H. clear H. induction l as [|a l IH]; [destruct I|]. cbn [removelast] in I. destruct l; [destruct I|]. destruct I as [<-|I]; [left; reflexivity|right; auto].
Qed.

(** The prompt on a new row, followed by printable text. *)
Lemma fresh_prompt : forall x w t h k l sc, visible_prompt (x_desc x) w -> forallb printable l = true -> row_ends [] (display sc t) ->
  row_ends (seen_line (x_desc x) (mkSess w h k l)) (display sc (t ++ prompt (x_desc x) (show (here w)) ++ l)).
Proof.
  intros x w t h k l sc (V1 & V2) P R. rewrite display_app. apply row_of in R as (pre & r & -> & B). rewrite app_nil_r.
  rewrite display_app. destruct (show_prompt (x_desc x) (show (here w)) pre r V1 V2 B) as (r1 & -> & B1). destruct (show_chars l (pre ++ prompt_cells (x_desc x) (show (here w))) r1 P B1) as (r2 & -> & B2).
  rewrite seen_split. cbn [se_world se_line]. rewrite <- app_assoc. apply row_is, B2.
Qed.

Lemma weaken_row : forall t sc, row_ends t sc -> row_ends [] sc.
Proof. intros t sc R. apply row_of in R as (pre & r & -> & B). split; [reflexivity|]. split; [exists (pre ++ t); cbn; rewrite app_nil_r; reflexivity|exact B]. Qed.

Lemma outs_of_bytes : forall t, outs (map EvOut t) = t.
Proof. induction t as [|c t IH]; [reflexivity|]. cbn. f_equal. exact IH. Qed.
Lemma outs_cat : forall a b, outs (a ++ b) = outs a ++ outs b.
Proof. intros. unfold outs. apply flat_map_app. Qed.

Lemma look_names : forall cs sc, row_ends [] sc -> Forall (fun n => forallb printable n = true) cs ->
  row_ends [] (display sc (flat_map (fun n => n ++ CRLF) cs)).
Proof.
  induction cs as [|n cs IH]; intros sc R F; [exact R|]. inversion F as [|? ? P F']; subst. cbn [flat_map]. rewrite display_app. apply IH; [|exact F'].
  rewrite display_app. apply row_of in R as (pre & r & -> & B). destruct (show_chars n (pre ++ []) r P B) as (r' & -> & B'). rewrite show_crlf. split; [reflexivity|]. split; [exists []; reflexivity|constructor].
Qed.

Lemma look_step : forall x a c sc, looks x a sc -> typable x a c ->
  looks x (snd (sess_step x a c)) (display sc (outs (fst (sess_step x a c)))).
Proof.
  intros x [w h k l] c sc (R & Pl) (V & V' & T). cbn [se_world se_line se_esc se_read] in *. revert V' T. unfold sess_step. cbn [se_world se_line se_esc se_read].
  destruct (ends_line (mkSess w h k l) c) eqn:En.
  - destruct (react (x_desc x) (env_at x (mkSess w h k l) c) w c (line_argv x (mkSess w h k l))) as [[evs t] w']. cbn [fst snd se_world]. intros V' T.
    split; [|reflexivity]. rewrite !outs_cat, !outs_of_bytes. rewrite <- (app_nil_r (prompt _ _)). rewrite !app_assoc, <- (app_assoc _ (prompt _ _) []).
    apply fresh_prompt; [exact V'|reflexivity|]. rewrite <- app_assoc, display_app. apply T. apply weaken_row in R. revert R. apply (plain_clean (eol_echo c)).
    unfold eol_echo. destruct (ceq c CR); [apply pt_crlf, pt_nil|apply pt_lf, pt_nil].
  - destruct (completes x c).
    + pose proof (before_last l) as Bl. unfold complete. set (cs := candidates w (here w) (last_word l)).
      assert (Px : forall n, In n cs -> exists z, n = last_word l ++ z).
      { intros n I. apply filter_In in I as (_ & I). apply prefixb_spec in I. exact I. }
      assert (Ext : forall n z, n = last_word l ++ z -> forallb printable n = true ->
        looks x (mkSess w (h ++ [c]) k (before_word l ++ n)) (display sc (skipn (length (last_word l)) n))).
      { intros n z -> Pn. rewrite forallb_app in Pn. apply andb_true_iff in Pn as (Pw & Pz).
        assert (Ll : before_word l ++ last_word l ++ z = l ++ z) by (rewrite app_assoc, <- Bl; reflexivity). rewrite Ll.
        split; [|cbn [se_line]; rewrite forallb_app, Pl, Pz; reflexivity]. rewrite skipn_app, skipn_all, Nat.sub_diag. cbn [skipn app].
        rewrite seen_split in *. cbn [se_world se_line] in *. apply row_of in R as (pre & r & -> & B).
        destruct (show_chars z (pre ++ prompt_cells (x_desc x) (show (here w)) ++ l) r Pz B) as (r' & -> & B').
        rewrite <- !app_assoc. apply row_is, B'. }
      assert (Cm : forall n1 n2 r, cs = n1 :: n2 :: r -> exists z, common cs = last_word l ++ z).
      { intros n1 n2 r E. apply prefixb_spec, common_greatest; [rewrite E; discriminate|]. intros n I. apply prefixb_spec, Px, I. }
      fold cs. intros V' T.
      destruct cs as [|n1 [|n2 r]] eqn:Ecs.
      * cbn [fst snd map outs flat_map]. split; [exact R|exact Pl].
      * cbn [fst snd]. rewrite outs_of_bytes. destruct (Px n1 (or_introl eq_refl)) as (z & Ez). exact (Ext n1 z Ez (Forall_inv T)).
      * rewrite <- Ecs in *. destruct (beq (common cs) (last_word l)) eqn:Eb; cbn [fst snd]; rewrite outs_of_bytes.
        -- split; [|exact Pl]. rewrite app_assoc. apply fresh_prompt; [exact V|exact Pl|]. rewrite display_app. apply look_names; [|exact T].
           apply row_of in R as (pre & r0 & -> & B). rewrite show_crlf. split; [reflexivity|]. split; [exists []; reflexivity|constructor].
        -- destruct (Cm n1 n2 r Ecs) as (z & Ez). apply (Ext _ z Ez).
           assert (In n1 cs) by (rewrite Ecs; left; reflexivity). pose proof (common_prefix cs n1 H) as Pc. apply prefixb_spec in Pc as (u & Pc).
           rewrite Forall_forall in T. specialize (T n1 H). rewrite Pc, forallb_app in T. apply andb_true_iff in T as (T & _). exact T.
    + cbn [fst snd se_world]. intros V' T. rewrite outs_of_bytes. unfold looks, seen_line. cbn [se_world se_line].
      unfold ed_step, ed_out. 
      destruct (ceq c ETX) eqn:E1.
      { cbn [fst snd]. split; [|reflexivity]. rewrite app_assoc, <- (app_nil_r (prompt _ _)). apply (fresh_prompt x w (lit "^C" ++ CRLF) h k []); [exact V|reflexivity|].
        rewrite display_app. apply weaken_row in R. apply row_of in R as (pre & r & -> & B). destruct (show_chars (lit "^C") (pre ++ []) r eq_refl B) as (r' & -> & B'). rewrite show_crlf.
        split; [reflexivity|]. split; [exists []; reflexivity|constructor]. }
      destruct (erase_key c) eqn:E2.
      { cbn [fst snd]. unfold echo1. rewrite E2. split; [|apply forallb_removelast, Pl]. destruct l as [|y l0]; [exact R|].
        destruct (@exists_last _ (y :: l0)) as (l1 & z & El); [discriminate|]. rewrite El in *. rewrite removelast_last.
        rewrite seen_split in R. cbn [se_world se_line] in R. apply row_of in R as (pre & r & -> & B). rewrite !app_assoc, show_erase, <- !app_assoc.
        assert (B' : blank_right (SP :: r)) by (constructor; [reflexivity|exact B]).
        pose proof (row_is pre (prompt_cells (x_desc x) (show (here w)) ++ l1) (SP :: r) B') as Q. unfold prompt_cells in *. repeat rewrite <- app_assoc in Q. repeat rewrite <- app_assoc. exact Q. }
      destruct (ceq c TAB) eqn:E3; [cbn [orb fst snd]; split; [exact R|exact Pl]|].
      destruct (ceq c ESC) eqn:E4; [cbn [orb fst snd]; split; [exact R|exact Pl]|]. cbn [orb].
      destruct k as [|k]; [|cbn [fst snd]; split; [exact R|exact Pl]].
      destruct T as [T|[T|(T & Sh)]]; [congruence| |].
      * exfalso. unfold plain_key in T. apply negb_false_iff in T. cbn [existsb] in T. unfold erase_key in E2. apply orb_false_iff in E2 as (E5 & E6).
        rewrite E1, E3, E4, E5, E6 in T. cbn [orb] in T. unfold ends_line in En. cbn [se_esc Nat.eqb andb] in En. rewrite orb_false_r in T. congruence.
      * cbn [fst snd]. unfold stored_line. destruct (Nat.ltb_spec (S (length l)) (d_insize (x_desc x))); [|lia].
        unfold echo_of. rewrite (printable_not c NUL T eq_refl). split; [|rewrite forallb_app, Pl; cbn; rewrite T; reflexivity].
        rewrite seen_split in R. cbn [se_world se_line] in R. apply row_of in R as (pre & r & -> & B). rewrite display_cons, recv_char by exact T. cbn [display fold_left].
        pose proof (row_is pre (prompt_cells (x_desc x) (show (here w)) ++ l ++ [c]) (tl r) (blank_tl r B)) as Q. unfold prompt_cells in *. repeat rewrite <- app_assoc in Q. repeat rewrite <- app_assoc. exact Q.
Qed.

Lemma look_run : forall x cs a sc, looks x a sc -> all_typable x a cs ->
  looks x (snd (sess_run x a cs)) (display sc (outs (fst (sess_run x a cs)))).
Proof.
  intros x cs. induction cs as [|c r IH]; intros a sc L T; [exact L|]. cbn [all_typable] in T. destruct T as (T & T').
  pose proof (look_step x a c sc L T) as L1. cbn [sess_run]. destruct (sess_step x a c) as [ev a1]. cbn [fst snd] in *.
  pose proof (IH a1 _ L1 T') as L2. destruct (sess_run x a1 r) as [ev2 a2]. cbn [fst snd] in *.
  change (outs (EvIn c :: ev ++ ev2)) with (outs (ev ++ ev2)). rewrite outs_cat, display_app. exact L2.
Qed.

Lemma typable_prefix : forall x p q a, all_typable x a (p ++ q) -> all_typable x a p.
Proof. intros x p. induction p as [|c p IH]; intros q a H; [exact I|]. cbn [app all_typable] in *. destruct H as (A & B). split; [exact A|exact (IH _ _ B)]. Qed.

Lemma C71_screen_proof : forall own x a s cs l q s' sc, shows own x a s -> run_limits own x a cs -> all_typable x a cs ->
  row_ends (seen_line (x_desc x) a) (display sc (outs (lg s))) -> forallb printable (se_line a) = true ->
  drive (app_of x) cs l s = Ok (q, s') -> polling s' ->
  exists b, shows own x b s' /\ row_ends (seen_line (x_desc x) b) (display sc (outs (lg s'))) /\ forallb printable (se_line b) = true.
Proof.
  intros own x a s cs l q s' sc Hs Ls T R P D Po.
  destruct (schedule_proof own x cs a s s l q s' (quiet_by_here _ _ (shows_polling _ _ _ _ Hs)) Hs Ls D) as (p & s2 & E & Q & Sh & Lg).
  rewrite (polling_quiet _ _ _ Po Q) in Sh, Lg. exists (snd (sess_run x a p)). split; [exact Sh|]. rewrite E in T. apply typable_prefix in T.
  pose proof (look_run x p a _ (conj R P) T) as (A & B). rewrite Lg, outs_cat, display_app. split; [exact A|exact B].
Qed.

Lemma C71_first_proof : forall d w sc, row_ends [] sc -> visible_prompt d w ->
  row_ends (seen_line d (mkSess w [] 0 [])) (display sc (greeting ++ prompt d (show (here w)))).
Proof.
  intros d w sc R V. rewrite <- (app_nil_r (prompt _ _)). apply (fresh_prompt (mkSetting d (fun _ => mkEnv (fun _ _ _ => []) (fun _ _ => mkGet GUnset 0 []) (fun _ _ _ => []) (fun _ _ => []))) w greeting [] 0 []); [exact V|reflexivity|].
  assert (G : clean greeting) by (apply plain_clean; repeat (apply pt_char; [reflexivity|]); apply pt_crlf, pt_nil). exact (G sc R).
Qed.

(** ** Deciding [clean] and [all_typable] *)
Fixpoint plainb (m : nat) (t : bytes) : bool :=
  match t with
  | [] => m =? 0
  | c :: r =>
      match m with
      | 0 => if printable c then plainb 0 r else if ceq c LF then plainb 0 r else if ceq c CR then plainb 1 r else ceq c ESC && plainb 2 r
      | 1 => ceq c LF && plainb 0 r
      | 2 => ceq c "["%char && plainb 3 r
      | _ => if parameter c then plainb 3 r else ceq c "m"%char && plainb 0 r
      end
  end.
Definition in_mode (m : nat) (sc : screen) : Prop :=
  match m with
  | 0 => row_ends [] sc
  | 1 => sc_mode sc = Ground
  | 2 => sc_mode sc = AfterEsc /\ blank_right (sc_right sc)
  | _ => sc_mode sc = InSequence /\ blank_right (sc_right sc)
  end.
Lemma plainb_ends : forall t m sc, plainb m t = true -> in_mode m sc -> row_ends [] (display sc t).
Proof.
  induction t as [|c t IH]; intros m sc P I; cbn [plainb] in P.
  - apply Nat.eqb_eq in P. subst. exact I.
  - rewrite display_cons. destruct m as [|[|[|m]]].
    + apply row_of in I as (pre & r & -> & B). destruct (printable c) eqn:Pc.
      { rewrite recv_char by exact Pc. apply (IH 0 _ P). split; [reflexivity|]. split; [eexists; symmetry; apply app_nil_r|apply blank_tl; exact B]. }
      destruct (ceq c LF) eqn:E1; [apply ceq_true in E1; subst; apply (IH 0 _ P); split; [reflexivity|split; [exists []; reflexivity|constructor]]|].
      destruct (ceq c CR) eqn:E2; [apply ceq_true in E2; subst; apply (IH 1 _ P); reflexivity|].
      apply andb_true_iff in P as (E3 & P). apply ceq_true in E3. subst. apply (IH 2 _ P). split; [reflexivity|exact B].
    + apply andb_true_iff in P as (E & P). apply ceq_true in E. subst. apply (IH 0 _ P). destruct sc as [m l r]. cbn in I. subst m. split; [reflexivity|split; [exists []; reflexivity|constructor]].
    + apply andb_true_iff in P as (E & P). apply ceq_true in E. subst. apply (IH 3 _ P). destruct sc as [m l r]. destruct I as (M & B). cbn in M, B. subst m. split; [reflexivity|exact B].
    + destruct sc as [m' l r]. destruct I as (M & B). cbn in M, B. subst m'. destruct (parameter c) eqn:Pc.
      * apply (IH 3 _ P). unfold parameter in Pc. apply andb_true_iff in Pc as (_ & Pc). apply Nat.ltb_lt in Pc. unfold receive. destruct (Nat.leb_spec 64 (nat_of_ascii c)); [lia|]. split; [reflexivity|exact B].
      * apply andb_true_iff in P as (E & P). apply ceq_true in E. subst. apply (IH 0 _ P). split; [reflexivity|split; [exists l; symmetry; apply app_nil_r|exact B]].
Qed.
Lemma plainb_clean : forall t, plainb 0 t = true -> clean t.
Proof. intros t P sc R. exact (plainb_ends t 0 sc P R). Qed.

Definition typableb (x : setting) (a : sess) (c : byte) : bool :=
  let d := x_desc x in let w := se_world a in
  let vis w := forallb printable (d_host d) && forallb printable (label (show (here w))) in
  vis w && vis (se_world (snd (sess_step x a c))) &&
  if ends_line a c then let '(evs, t, _) := react d (env_at x a c) w c (line_argv x a) in plainb 0 (outs evs ++ t)
  else if completes x c then forallb (forallb printable) (candidates w (here w) (last_word (se_line a)))
  else negb (se_esc a =? 0) || negb (plain_key c) || (printable c && (S (length (se_line a)) <? d_insize d)).
Fixpoint all_typableb (x : setting) (a : sess) (cs : bytes) : bool :=
  match cs with
  | [] => true
  | c :: r => typableb x a c && all_typableb x (snd (sess_step x a c)) r
  end.
Lemma typableb_ok : forall x a c, typableb x a c = true -> typable x a c.
Proof.
  intros x a c H. unfold typableb in H. apply andb_true_iff in H as (V & H). apply andb_true_iff in V as (V & V').
  apply andb_true_iff in V, V'. unfold typable. split; [exact V|]. split; [exact V'|]. destruct (ends_line a c).
  - destruct (react (x_desc x) (env_at x a c) (se_world a) c (line_argv x a)) as [[evs t] w']. apply plainb_clean, H.
  - destruct (completes x c).
    + apply Forall_forall. intros n I. rewrite forallb_forall in H. exact (H n I).
    + apply orb_true_iff in H as [H|H]; [apply orb_true_iff in H as [H|H]|].
      * left. apply negb_true_iff, Nat.eqb_neq in H. exact H.
      * right; left. apply negb_true_iff in H. exact H.
      * right; right. apply andb_true_iff in H as (A & B). apply Nat.ltb_lt in B. auto.
Qed.
Lemma all_typableb_ok : forall x cs a, all_typableb x a cs = true -> all_typable x a cs.
Proof.
  intros x cs. induction cs as [|c r IH]; intros a H; [exact I|]. cbn [all_typableb all_typable] in *. apply andb_true_iff in H as (A & B). split; [apply typableb_ok, A|apply IH, B].
Qed.

(** ** Answers *)
Lemma plain_app : forall a b, plain_text a -> plain_text b -> plain_text (a ++ b).
Proof.
  intros a b P Q. induction P as [|c t P R IH|t R IH|t R IH|ds t P R IH]; cbn [app]; [exact Q|constructor; assumption..|].
  rewrite <- app_assoc. cbn [app]. constructor; assumption.
Qed.
Lemma plain_chars : forall t, forallb printable t = true -> plain_text t.
Proof. induction t as [|c t IH]; intros H; [constructor|]. cbn [forallb] in H. apply andb_true_iff in H as (A & B). constructor; auto. Qed.
Lemma plain_flat : forall {A} (f : A -> bytes) l, (forall x, In x l -> plain_text (f x)) -> plain_text (flat_map f l).
Proof. intros A f l. induction l as [|x l IH]; intros H; [constructor|]. cbn [flat_map]. apply plain_app; [apply H; left; reflexivity|apply IH; intros y I; apply H; right; exact I]. Qed.
Lemma plain_crlf : plain_text crlf.
Proof. apply pt_crlf. constructor. Qed.
Lemma plain_colour : forall c k, (k = "[32m"%string \/ k = "[33m"%string \/ k = "[0m"%string) -> plain_text (colour c k).
Proof.
  intros c k H. unfold colour. destruct (cfg_styles c); [|constructor].
  destruct H as [->|[->| ->]]; [exact (pt_colour (lit "32") [] eq_refl pt_nil)|exact (pt_colour (lit "33") [] eq_refl pt_nil)|exact (pt_colour (lit "0") [] eq_refl pt_nil)].
Qed.
Lemma plain_blanks : forall n, plain_text (blanks n).
Proof. induction n as [|n IH]; [constructor|]. apply pt_char; [reflexivity|exact IH]. Qed.
Lemma plain_name_text : forall c f, plain_file f -> plain_text (name_text c f).
Proof.
  intros c f (A & B & _). unfold name_text. destruct (f_desc f) as [t|]; [|exact A].
  apply plain_app; [exact A|]. apply plain_app; [apply plain_blanks|]. apply plain_app; [apply plain_chars; reflexivity|]. apply plain_app; [apply plain_colour; auto|].
  apply plain_app; [apply plain_chars; reflexivity|]. apply plain_app; [apply B; reflexivity|apply plain_colour; auto].
Qed.
Lemma plain_help : forall c fl, (forall f, In f fl -> plain_file f) -> plain_text (help_text c fl).
Proof. intros c fl H. apply plain_flat. intros f I. apply plain_app; [apply plain_name_text, H, I|exact plain_crlf]. Qed.
Lemma plain_dir_line : forall c n, plain_text n -> plain_text (dir_line c n).
Proof.
  intros c n H. unfold dir_line. apply plain_app; [apply plain_chars; reflexivity|]. apply plain_app; [apply plain_colour; auto|]. apply plain_app; [exact H|]. apply plain_app; [apply plain_colour; auto|exact plain_crlf].
Qed.
Lemma plain_flags : forall f, plain_text (file_flags f).
Proof. intros f. unfold file_flags, flag. apply plain_chars. destruct (f_get f), (f_set f), (f_exec f), (f_help f); reflexivity. Qed.
Lemma plain_ls : forall d w dd, plain_names d w -> In dd (w_fs w) -> plain_text (ls_dir (d_cfg d) dd (w_fs w)).
Proof.
  intros d w dd (F & N & _) I. unfold ls_dir, ls_text. apply plain_app; [apply plain_dir_line, plain_chars; reflexivity|].
  apply plain_app; [destruct (is_root dd); [constructor|apply plain_dir_line, plain_chars; reflexivity]|]. apply plain_app.
  - apply plain_flat. intros n J. apply plain_dir_line. apply plain_app; [|apply plain_chars; reflexivity].
    apply in_map_iff in J as (d2 & <- & J). apply filter_In in J as (J & _). unfold dir_name. apply plain_chars.
    destruct (de_path d2) as [|p q] eqn:E; [reflexivity|]. apply (N d2); [exact J|]. rewrite E. apply last_in. discriminate.
  - apply plain_flat. intros f J. apply plain_app; [apply plain_flags|]. apply plain_app; [|exact plain_crlf]. apply plain_name_text, F. right. exists dd. auto.
Qed.
Lemma hexd_print : forall n, printable (hexd n) = true.
Proof.
  intros n. unfold hexd. destruct (nth_in_or_default (N.to_nat n) (lit "0123456789ABCDEF") "0"%char) as [I|E]; [|rewrite E; reflexivity].
  assert (A : forallb printable (lit "0123456789ABCDEF") = true) by reflexivity. rewrite forallb_forall in A. exact (A _ I).
Qed.
Lemma hex_digits_print : forall k n, forallb printable (hex_digits k n) = true.
Proof. induction k as [|k IH]; intros n; [reflexivity|]. cbn [hex_digits]. rewrite forallb_app, IH. cbn [forallb]. rewrite hexd_print. reflexivity. Qed.
Lemma visible_print : forall x, printable (visible x) = true.
Proof. intros x. destruct x as [b0 b1 b2 b3 b4 b5 b6 b7]. destruct b0, b1, b2, b3, b4, b5, b6, b7; reflexivity. Qed.
Lemma plain_xxd : forall cols data, plain_text (xxd_dump cols data).
Proof.
  intros cols data. apply plain_flat. intros k _. unfold xxd_line. apply plain_app; [apply plain_chars, hex_digits_print|].
  apply plain_app; [apply plain_chars; reflexivity|]. apply plain_app.
  { apply plain_flat. intros x _. unfold hex2. apply plain_chars. cbn [app forallb]. rewrite !hexd_print. reflexivity. }
  apply plain_app; [apply plain_blanks|]. apply plain_app; [apply plain_chars; reflexivity|]. apply plain_app.
  { apply plain_chars, forallb_forall. intros y I. apply in_map_iff in I as (x & <- & _). apply visible_print. }
  apply plain_app; [apply plain_blanks|exact plain_crlf].
Qed.
Lemma plain_msg : forall d w x, plain_names d w -> plain_text (msg d x).
Proof.
  intros d w x (_ & _ & _ & E & M). unfold msg. apply plain_app; [|exact plain_crlf]. unfold status_text.
  destruct x; try apply M; (apply plain_app; [exact E|apply plain_app; [apply plain_chars; reflexivity|apply M]]).
Qed.
Lemma dir_named_in : forall t fs dd, dir_named t fs = Some dd -> In dd fs.
Proof. intros t fs dd H. destruct t; apply find_some in H; apply H. Qed.
Lemma plain_show : forall p, (forall n, In n p -> forallb printable n = true) -> plain_text (show p).
Proof.
  intros p H. destruct p as [|n p]; [apply plain_chars; reflexivity|]. unfold show, slashed. apply plain_flat. intros x I. apply pt_char; [reflexivity|]. apply plain_chars, H, I.
Qed.
Lemma plain_read_all : forall e, (forall cb f, plain_text (data_of e cb f)) -> forall names w, plain_text (outs (fst (read_all e w names))).
Proof.
  intros e D. induction names as [|n r IH]; intros w; [constructor|]. cbn [read_all]. destruct (denotes w n) as [f|]; [|constructor]. destruct (f_get f) as [cb|]; [|constructor].
  specialize (IH (after_get e w cb f)). destruct (read_all e (after_get e w cb f) r) as [evs w']. cbn [fst] in *.
  change (plain_text (outs (map EvOut (data_of e cb f) ++ evs))). rewrite outs_cat, outs_of_bytes. apply plain_app; [apply D|exact IH].
Qed.

Definition all_plain (r : reaction) : Prop := plain_text (outs (fst (fst r)) ++ snd (fst r)).
Lemma plain_prints : forall w t, plain_text t -> all_plain (prints_only w t).
Proof. intros w t H. exact H. Qed.
Lemma plain_exec : forall d e w c cb f ws, plain_names d w -> plain_talk d e c ws -> plain_echo ws -> all_plain (do_exec d e w c cb f ws).
Proof.
  intros d e w c cb f ws P (T1 & T2 & T3 & T4) E. unfold do_exec. pose proof (fun x => plain_msg d w x P) as M. pose proof P as (F & N & H & _).
  destruct (accepts cb (length ws)) eqn:Ac; [|apply plain_prints, M]. destruct cb as [| | | | | | |k].
  - apply plain_prints. destruct (tl ws) as [|name r].
    + apply plain_help. intros g I. apply F. left. exact I.
    + destruct (denotes w name) as [g|] eqn:Dn; [|apply M]. destruct (f_help g) as [t|] eqn:Hp; [|apply M]. apply (F g (denotes_file w name g Dn)), Hp.
  - apply plain_prints. destruct (tl ws) as [|path r].
    + unfold list_dir. destruct (dir_at (here w) (w_fs w)) as [dd|] eqn:Da; [|constructor]. apply plain_ls; [exact P|]. apply find_some in Da. apply Da.
    + destruct (dir_named _ (w_fs w)) as [dd|] eqn:Da; [|apply M]. apply plain_ls; [exact P|exact (dir_named_in _ _ _ Da)].
  - unfold do_cd. destruct (nth 1 ws []) as [|p0 p]; [apply plain_prints, M|]. destruct (dir_named _ (w_fs w)) as [dd|]; [exact T2|apply plain_prints, M].
  - apply plain_prints. apply plain_app; [apply plain_show, H|exact plain_crlf].
  - unfold do_cat. destruct (first_unreadable w (tl ws)) as [x|]; [apply plain_prints, M|].
    pose proof (plain_read_all e T1 (tl ws) w) as R. destruct (read_all e w (tl ws)) as [evs w']. unfold all_plain. cbn [fst snd] in *. rewrite app_nil_r. exact R.
  - unfold do_xxd. destruct (denotes w _) as [g|]; [|apply plain_prints, M]. destruct (f_get g) as [cb|]; [|apply plain_prints, M]. apply plain_xxd.
  - unfold do_echo. destruct ws as [|w0 [|w1 [|w2 [|w3 [|w4 ws]]]]]; cbn [tl]; try (apply plain_prints, plain_crlf).
    + apply plain_prints. apply plain_app; [exact (E w0 w1 eq_refl)|exact plain_crlf].
    + destruct (beq w2 (lit ">")); [|apply plain_prints, M]. destruct (denotes w w3) as [g|]; [|apply plain_prints, M]. destruct (f_set g) as [cb|]; [|apply plain_prints, M].
      unfold do_calls. apply T4.
  - unfold do_calls. apply T3.
Qed.
Lemma C71_answers_proof : forall d e w c ws, plain_names d (after_hook e d ws w) -> plain_talk d e c ws -> plain_echo ws ->
  let '(evs, t, _) := react d e w c ws in clean (outs evs ++ t).
Proof.
  intros d e w c ws P T E. assert (A : all_plain (react d e w c ws)).
  { unfold react. destruct ws as [|name r]; [constructor|]. set (ws := name :: r) in *. set (w1 := after_hook e d ws w) in *.
    assert (Ho : outs (hook_events d ws) = []) by (unfold hook_events; destruct (d_exec d); reflexivity).
    assert (M : forall x, all_plain (hook_events d ws, msg d x, w1)) by (intros x; unfold all_plain; cbn [fst snd]; rewrite Ho; apply (plain_msg d w1), P).
    destruct (denotes w1 name) as [f|]; [|apply M]. destruct (f_exec f) as [cb|]; [|apply M].
    pose proof (plain_exec d e w1 c cb f ws P T E) as X. destruct (do_exec d e w1 c cb f ws) as [[evs t] w']. unfold all_plain in *. cbn [fst snd] in *.
    rewrite outs_cat, Ho. exact X. }
  destruct (react d e w c ws) as [[evs t] w']. apply plain_clean, A.
Qed.

Fixpoint linesb (t : bytes) : bool :=
  match t with
  | [] => true
  | c :: r => if printable c || ceq c LF then linesb r else match r with c2 :: r2 => ceq c CR && ceq c2 LF && linesb r2 | [] => false end
  end.
Lemma linesb_plain : forall n t, length t <= n -> linesb t = true -> plain_text t.
Proof.
  induction n as [|n IH]; intros [|c t] L H; [apply pt_nil|cbn [length] in L; lia|apply pt_nil|cbn [length] in L]. cbn [linesb] in H. destruct (printable c) eqn:P; cbn [orb] in H.
  - apply pt_char; [exact P|]. apply IH; [lia|exact H].
  - destruct (ceq c LF) eqn:E; [apply ceq_true in E; subst; apply pt_lf, IH; [lia|exact H]|]. destruct t as [|c2 t]; [discriminate|].
    apply andb_true_iff in H as (H & H3). apply andb_true_iff in H as (H1 & H2). apply ceq_true in H1, H2. subst. apply pt_crlf, IH; [cbn [length] in L; lia|exact H3].
Qed.
Definition plain_fileb (f : file) : bool :=
  linesb (f_name f) && match f_desc f with Some t => linesb t | None => true end && match f_help f with Some t => linesb t | None => true end.
Lemma plain_fileb_ok : forall f, plain_fileb f = true -> plain_file f.
Proof.
  intros f H. unfold plain_fileb in H. apply andb_true_iff in H as (H & H3). apply andb_true_iff in H as (H1 & H2).
  split; [exact (linesb_plain _ _ (le_n _) H1)|]. split; intros t E; rewrite E in *; [exact (linesb_plain _ _ (le_n _) H2)|exact (linesb_plain _ _ (le_n _) H3)].
Qed.
