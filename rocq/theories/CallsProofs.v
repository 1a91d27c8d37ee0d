(** * CallsProofs: proofs of C66. *)
From Verif Require Import Shell BaseFacts LogFacts Sched ServiceFacts StepFacts Tree TreeFacts Session Calls.

(** ** Looking up *)
Lemma getn_some : forall h i n, getn h i = Ok n -> nth_error h i = Some n.
Proof. unfold getn. intros h i n H. destruct (nth_error h i); [injection H as ->; reflexivity|discriminate]. Qed.

Lemma find_cmd_in : forall fs name g, find_cmd fs name = Some g -> In g fs.
Proof.
  induction fs as [|f r IH]; intros name g H; cbn [find_cmd] in H; [discriminate|].
  destruct (beq (f_name f) name); [injection H as ->; left; reflexivity|right; eauto].
Qed.
Lemma find_cmds_in : forall fuel h c name g, find_cmds fuel h c name = Ok (Some g) ->
  exists i n, in_list h c i /\ nth_error h i = Some n /\ In g (n_files n).
Proof.
  induction fuel as [|f IH]; intros h c name g H; cbn [find_cmds] in H; [discriminate|].
  destruct c as [i|]; [|discriminate]. ok1. apply getn_some in E.
  destruct (find_cmd (n_files a) name) as [x|] eqn:F.
  - injection H as ->. exists i, a. split; [constructor|]. split; [exact E|eapply find_cmd_in; eauto].
  - apply IH in H as (j & n & L & N & I). exists j, n. split; [econstructor; eauto|auto].
Qed.

Lemma find_in_dir_in : forall n fs abs fp g fp', find_in_dir n fs abs fp = Ok (Some g, fp') -> In g fs.
Proof.
  intros n fs. induction fs as [|f r IH]; intros abs fp g fp' H; cbn [find_in_dir] in H; [discriminate|].
  ok1. ok1. ok1. destruct (beq a1 abs); [injection H as -> _; left; reflexivity|right; eauto].
Qed.
Lemma find_dirs_in : forall fuel h root c abs fp g, find_dirs fuel h c abs fp = Ok (Some g) ->
  (forall i, c = Some i -> in_tree h root i) ->
  exists i n, in_tree h root i /\ nth_error h i = Some n /\ In g (n_files n).
Proof.
  induction fuel as [|f IH]; intros h root c abs fp g H T; cbn [find_dirs] in H; [discriminate|].
  destruct c as [i|]; [|discriminate]. ok1. apply getn_some in E. ok1. destruct a0 as [[x|] fp'].
  - injection H as ->. exists i, a. split; [auto|]. split; [exact E|eapply find_in_dir_in; eauto].
  - eapply IH; [exact H|]. intros j Hj. eapply it_next; eauto.
Qed.

Lemma sib_search_in : forall fuel h root c lp j, sib_search fuel h c lp = Ok (Some j) ->
  (forall i, c = Some i -> in_tree h root i) -> in_tree h root j.
Proof.
  induction fuel as [|f IH]; intros h root c lp j H T; cbn [sib_search] in H; [discriminate|].
  destruct c as [i|]; [|discriminate]. ok1. apply getn_some in E. ok1.
  destruct (beq a0 lp); [injection H as <-; auto|].
  eapply IH; [exact H|]. intros k Hk. eapply it_next; eauto.
Qed.
Lemma get_loop_in : forall n i levels h root path lbuf c j, get_loop n i levels h path lbuf c = Ok (Some j) ->
  (forall k, c = Some k -> in_tree h root k) -> in_tree h root j.
Proof.
  induction n as [|n IH]; intros i levels h root path lbuf c j H T; cbn [get_loop] in H; [discriminate|].
  ok1. ok1. ok1. destruct a1 as [k|]; [|discriminate]. pose proof (sib_search_in _ _ _ _ _ _ E1 T) as K.
  destruct (i =? levels); [injection H as <-; exact K|]. ok1. apply getn_some in E2.
  eapply IH; [exact H|]. intros x Hx. eapply it_child; eauto.
Qed.
Lemma get_by_path_in : forall pm h root path j, ush_node_get_by_path pm h root path = Ok (Some j) -> in_tree h root j.
Proof.
  unfold ush_node_get_by_path. intros pm h root path j H.
  destruct (ush_utils_get_path_levels_count path =? 0); [injection H as ->; constructor; reflexivity|].
  destruct root as [r|]; [|discriminate]. ok1. apply getn_some in E. eapply get_loop_in; [exact H|].
  intros k Hk. eapply it_child; [constructor; reflexivity|exact E|exact Hk].
Qed.
Lemma get_parent_in : forall pm h root path j, ush_node_get_parent_by_path pm h root path = Ok (Some j) -> in_tree h root j.
Proof.
  unfold ush_node_get_parent_by_path. intros pm h root path j H. ok1. ok1. destruct a0; [discriminate|]. eapply get_by_path_in; eauto.
Qed.

Lemma find_registered : forall name s g, ush_file_find_by_name name s = Ok (Some g) -> registered s g.
Proof.
  unfold ush_file_find_by_name. intros name s g H. ok1. destruct a as [f|].
  - injection H as ->. apply find_cmds_in in E as (i & n & L & N & I). exists i, n. auto.
  - ok1. ok1. apply (find_dirs_in _ _ (o_root s)) in H as (i & n & L & N & I).
    + exists i, n. auto.
    + intros i ->. eapply get_parent_in; eauto.
Qed.

Lemma registered_same : forall s m g, same_tree s m -> registered s g -> registered m g.
Proof. intros s m g (A & B & C) (i & n & R & N & I). exists i, n. rewrite A, B, C. auto. Qed.
Lemma same_refl : forall s, same_tree s s.
Proof. intros s. split; [|split]; reflexivity. Qed.
Lemma same_emit : forall ev s, same_tree s (emit ev s).
Proof. intros ev s. split; [|split]; reflexivity. Qed.

(** ** Arguments *)
Lemma args_loop_values : forall n b ptr args argv, args_loop n b ptr = Ok args -> arg_values b args = Ok argv ->
  Forall no_nul argv /\ (argv = [] \/ ptr + list_sum (map (fun a => S (length a)) argv) <= length b).
Proof.
  induction n as [|n IH]; intros b ptr args argv H V; cbn [args_loop] in H.
  - injection H as <-. cbn [arg_values] in V. injection V as <-. split; [constructor|left; reflexivity].
  - unfold c_strlen in H. destruct (c_str b ptr) as [v|] eqn:Ev; cbn [bind] in H; [|discriminate].
    destruct (args_loop n b (ptr + length v + 1)) as [r|] eqn:Er; cbn [bind] in H; [|discriminate]. injection H as <-.
    cbn [arg_values] in V. rewrite Ev in V. cbn [bind] in V. destruct (arg_values b r) as [a1|] eqn:Ea; cbn [bind] in V; [|discriminate].
    injection V as <-. destruct (IH _ _ _ _ Er Ea) as (F & L). apply c_str_inv in Ev as (N & p & q & Eb & Ep).
    split; [constructor; assumption|]. right. cbn [map list_sum fold_right]. fold (list_sum (map (fun a => S (length a)) a1)).
    destruct L as [->|L].
    + cbn. rewrite Eb, !app_length. cbn [length]. lia.
    + lia.
Qed.

Lemma decode_loop_count : forall fuel m i o max ret stt val b n, decode_loop fuel m i o max ret stt val = Ok (b, n) -> ret <= max -> n <= max.
Proof.
  induction fuel as [|f IH]; intros m i o max ret stt val b n H L; cbn [decode_loop] in H; [discriminate|]. ok1.
  destruct (ceq a NUL || negb (ret <? max)) eqn:C; [injection H as _ <-; exact L|].
  apply orb_false_iff in C as (_ & C). apply negb_false_iff, Nat.ltb_lt in C.
  destruct stt as [|[|[|stt]]]; [destruct (ceq a BSL)|destruct (ceq a "x"%char)| |];
    try (apply IH in H; [exact H|exact L]); ok1; (apply IH in H; [exact H|lia]).
Qed.

Lemma set_data : forall b off max b' n, c_strlen b off = Ok max -> ush_utils_decode_ascii b off off max = Ok (b', n) ->
  length (firstn n (skipn off b')) < length b.
Proof.
  intros b off max b' n L D. unfold c_strlen in L. destruct (c_str b off) as [v|] eqn:Ev; cbn [bind] in L; [|discriminate]. injection L as <-.
  apply decode_loop_count in D; [|lia]. apply c_str_inv in Ev as (_ & p & q & Eb & Ep).
  apply (f_equal (@length _)) in Eb. rewrite !app_length in Eb. cbn [length] in Eb. rewrite firstn_length. lia.
Qed.

(** ** One service call *)
Lemma get_allowed : forall e s m g cb, at_hand e s m -> registered m g -> f_get g = Some cb -> may_call e s (EvGet cb (f_name g)).
Proof. intros e s m g cb A R F. exists m, g. auto. Qed.

Lemma call_exec_allowed : forall e s m cb f args argv s', at_hand e s m -> length (inb m) = length (inb s) ->
  call_exec e cb f args argv m = Ok s' -> exists evs, lg s' = lg m ++ EvExec cb (Some (f_name f)) argv :: evs /\ Forall (may_call e s) evs.
Proof.
  intros e s m cb f args argv s' A Ln H. unfold call_exec in H.
  set (s0 := emit (EvExec cb (Some (f_name f)) argv) m) in *.
  assert (R : forall name g, ush_file_find_by_name name s0 = Ok (Some g) -> registered m g).
  { intros name g Hg. apply find_registered in Hg. apply (registered_same s0); [|exact Hg]. unfold s0. split; [|split]; reflexivity. }
  assert (G : logs (may_call e s) s0 s').
  { destruct cb.
    - unfold help_callback in H. oks2; lgs; apply logs_refl; auto.
    - unfold ls_callback in H. oks2; lgs; apply logs_refl; auto.
    - unfold cd_callback in H. oks2; lgs; apply logs_refl; auto.
    - unfold pwd_callback in H. oks2; lgs; apply logs_refl; auto.
    - unfold cat_callback in H. oks2; lgs; apply logs_refl; auto.
    - unfold xxd_callback in H. oks2; lgs; try (apply logs_refl; auto; fail).
      all: match goal with C : call_get _ _ _ _ = Ok (?a, _) |- _ =>
          eapply logs_one; [apply call_get_lg in C; cbn [ush_process_start lg]; destruct (g_ptr a); exact C|] end.
      all: eapply get_allowed; eauto.
    - unfold echo_callback in H. oks2; lgs; try (apply logs_refl; auto; fail).
      eapply logs_one; [exact H|]. split.
      + rewrite <- Ln. change (inb m) with (inb s0). eapply set_data; eauto.
      + exists m. eauto 8.
    - lgs. apply logs_refl; auto. }
  destruct G as (evs & G & F). exists evs. split; auto. rewrite G. unfold s0, emit. cbn [lg].
  unfold set_lg; cbn [lg]. rewrite <- app_assoc. reflexivity.
Qed.

(** ** The input buffer keeps its size *)
Definition same_len (s s' : st) : Prop := length (inb s') = length (inb s).
Ltac sl := repeat (lens; try subst); unfold same_len; cbn; congruence.

Lemma set_dir_len : forall p s x s', ush_node_set_current_dir p s = Ok (x, s') -> same_len s s'.
Proof. unfold ush_node_set_current_dir. intros. oks2; reflexivity. Qed.
Lemma do_action_len : forall args a s s', do_action args a s = Ok s' -> same_len s s'.
Proof.
  intros args a s s' H. destruct a; cbn [do_action] in H; try (oks; try sl; reflexivity).
  - destruct (nth_error args i); [sl|]. destruct (i =? length args); discriminate.
  - apply printf_hushed in H as ((_ & H & _) & _). exact H.
  - apply wp_still in H as (_ & H & _). exact H.
  - oks. eapply set_dir_len; eauto.
  - oks. unfold ush_node_mount in E. oks2; reflexivity.
  - oks. unfold ush_node_unmount in E. oks2; reflexivity.
  - oks. unfold ush_commands_add in E. oks2; reflexivity.
  - oks. unfold ush_commands_remove in E. oks2; reflexivity.
Qed.
Lemma do_actions_len : forall args l s s', do_actions args l s = Ok s' -> same_len s s'.
Proof.
  induction l as [|a l IH]; intros s s' H; cbn [do_actions] in H; oks; [reflexivity|].
  apply do_action_len in E. apply IH in H. unfold same_len in *. congruence.
Qed.
Lemma call_get_len : forall e cb g s a s', call_get e cb g s = Ok (a, s') -> same_len s s'.
Proof. intros e cb g s a s' H. apply call_get_inv in H as (_ & H). apply do_actions_len in H. exact H. Qed.

Lemma call_exec_len : forall e cb f args argv s s', call_exec e cb f args argv s = Ok s' -> same_len s s'.
Proof.
  intros e cb f args argv s s' H. unfold call_exec in H.
  set (s0 := emit (EvExec cb (Some (f_name f)) argv) s) in *. change (same_len s0 s').
  destruct cb.
  - unfold help_callback in H. oks2; try reflexivity; sl.
  - unfold ls_callback in H. oks2; reflexivity.
  - unfold cd_callback in H. oks2; match goal with E : ush_node_set_current_dir _ _ = _ |- _ => apply set_dir_len in E; exact E | _ => reflexivity end.
  - unfold pwd_callback in H. oks2; try reflexivity; sl.
  - unfold cat_callback in H. oks2; reflexivity.
  - unfold xxd_callback in H. oks2; try reflexivity;
      match goal with C : call_get _ _ _ _ = Ok (?a, _) |- _ => apply call_get_len in C; destruct (g_ptr a); exact C end.
  - unfold echo_callback in H. oks2; try reflexivity;
      match goal with C : ush_utils_decode_ascii _ _ _ _ = Ok _ |- _ => apply decode_ascii_length in C end.
    + apply wp_still in H as (_ & H & _). unfold same_len. cbn in *. congruence.
    + apply do_actions_len in H. unfold same_len in *. cbn in *. congruence.
  - apply do_actions_len in H. exact H.
Qed.

Lemma finish_allowed : forall e s s', ush_parse_finish e s = Ok s' -> logs (may_call e s) s s' /\ same_len s s'.
Proof.
  intros e s s' H. unfold ush_parse_finish in H. destruct (ush_parse_get_args s) as [args|] eqn:Eg; cbn [bind] in H; [|discriminate].
  destruct (arg_values (inb s) args) as [argv|] eqn:Ev; cbn [bind] in H; [|discriminate].
  destruct argv as [|name rest] eqn:Ea. { oks. split; [apply logs_refl; reflexivity|reflexivity]. } rewrite <- Ea in *.
  assert (Fit : args_fit (length (inb s)) argv).
  { destruct (args_loop_values _ _ _ _ _ Eg Ev) as (N & [L|L]); [congruence|]. split; [congruence|]. split; [exact N|exact L]. }
  destruct (match d_exec (o_desc s) with Some _ => _ | None => _ end) as [m|] eqn:Em in H; cbn [bind] in H; [|discriminate].
  assert (M : logs (may_call e s) s m /\ same_len s m /\ looked_up e argv s m).
  { unfold looked_up. destruct (d_exec (o_desc s)) as [cb|] eqn:Ed.
    - split; [|split].
      + apply do_actions_lg in Em. eapply logs_one; [exact Em|]. split; [exists cb; auto|exact Fit].
      + apply do_actions_len in Em. exact Em.
      + exists args. eexists. split; [|exact Em]. apply same_emit.
    - injection Em as <-. split; [apply logs_refl; reflexivity|]. split; [reflexivity|apply same_refl]. }
  destruct M as (Lm & Nm & Um). clear Em.
  destruct (ush_file_find_by_name name m) as [r|] eqn:Er; cbn [bind] in H; [|discriminate].
  destruct r as [f|]; [destruct (f_exec f) as [cb|] eqn:Ex|]; [|injection H as <-; auto|injection H as <-; auto].
  split; [|apply call_exec_len in H; unfold same_len in *; congruence].
  eapply logs_trans; [exact Lm|].
  eapply (call_exec_allowed e s) in H as (evs & H & F); [|right; exists argv; exact Um|exact Nm].
  exists (EvExec cb (Some (f_name f)) argv :: evs). split; [exact H|]. constructor; [|exact F].
  split; [exact Fit|]. exists m, f. split; [exact Um|]. split; [eapply find_registered; eauto|auto].
Qed.

(** [may_call] looks at the descriptor, the tree, the size of the input buffer and the process. *)
Lemma allowed_same : forall e s s1 ev, o_desc s1 = o_desc s -> same_tree s s1 -> same_len s s1 -> o_pfile s1 = o_pfile s ->
  may_call e s1 ev -> may_call e s ev.
Proof.
  intros e s s1 ev Ed (T1 & T2 & T3) El Ef.
  assert (S1 : forall m, same_tree s1 m -> same_tree s m) by (intros m (A & B & C); split; [|split]; congruence).
  assert (L1 : forall argv m, looked_up e argv s1 m -> looked_up e argv s m).
  { intros argv m. unfold looked_up. rewrite Ed. destruct (d_exec (o_desc s)); [|apply S1]. intros (args & x & A & B). exists args, x. auto. }
  assert (A1 : forall m, at_hand e s1 m -> at_hand e s m).
  { intros m [A|(argv & A)]; [left; auto|right; exists argv; auto]. }
  unfold same_len in El. destruct ev as [c|c|cb [f|] argv|cb f|cb f d|n f]; cbn [may_call]; rewrite ?Ed, ?El, ?Ef; auto.
  - intros (F & m & g & A & B). split; [exact F|]. exists m, g. auto.
  - intros (m & g & A & B). exists m, g. auto.
  - intros (F & m & g & A & B). split; [exact F|]. exists m, g. auto.
Qed.

Definition fine (e : env) (s s' : st) : Prop := logs (may_call e s) s s' /\ same_len s s'.
Lemma fine_quiet : forall e s s', lg s' = lg s -> still s s' -> fine e s s'.
Proof. intros e s s' L (_ & N & _). split; [apply logs_refl; exact L|exact N]. Qed.

Lemma parse_allowed : forall e s s', parsing s -> ush_parse_char e s = Ok s' -> fine e s s'.
Proof.
  intros e s s' P H. unfold ush_parse_char in H. ok1. clear E. destruct (ceq a LF || ceq a CR).
  - unfold out_char in H. ok1. ok1. lens.
    match type of H with ush_parse_finish _ ?r = _ => set (s1 := r) in * end.
    assert (N1 : same_len s s1) by (unfold same_len, s1; cbn; congruence).
    apply finish_allowed in H as (L & N). split.
    + apply logs_weaken with (Q := may_call e s) in L; [exact L|].
      intros ev. apply allowed_same; [reflexivity| |exact N1|reflexivity]. split; [|split]; reflexivity.
    + unfold same_len in *. congruence.
  - destruct (standard_hushed a (set_inpos (S (o_inpos s)) s) s' P H) as ((S1 & O1) & L). apply fine_quiet; [exact L|]. eapply still_trans; [|exact S1]. stl.
Qed.

Lemma process_allowed : forall i s b s', ush_process_service i s = Ok (b, s') -> fine (io_env i) s s'.
Proof.
  intros i s b s' H. unfold ush_process_service in H.
  assert (G : forall f p, o_pfile s = Some f -> f_proc f = Some p -> forall s',
     match p with
     | PHelp => help_service s | PLs => ls_service s
     | PCat => cat_service (io_env i) s | PXxd => xxd_service s
     | PUser n => do_actions [] (e_proc (io_env i) n (f_name f)) (emit (EvProc n (f_name f)) s)
     end = Ok s' -> fine (io_env i) s s').
  { clear. intros f p Ef Ep s' H. destruct p.
    - apply fine_quiet; [|apply help_still; exact H]. unfold help_service in H. oks2; lgs; auto.
    - apply fine_quiet; [|apply ls_still; exact H]. unfold ls_service in H. oks2; lgs; auto.
    - unfold cat_service in H. oks2; try (apply fine_quiet; [reflexivity|stl]).
      match goal with C : call_get _ _ _ _ = Ok (_, _) |- _ => pose proof (call_get_lg _ _ _ _ _ _ C) as L; pose proof (call_get_len _ _ _ _ _ _ C) as N end.
      split; [|exact N]. eapply logs_one; [exact L|]. 
      match goal with D : deref ?r = Ok ?g, F : ush_file_find_by_name _ _ = Ok ?r |- _ =>
        destruct r; [|discriminate D]; injection D as ->; apply find_registered in F end.
      match goal with D : deref (f_get ?g) = Ok ?cb |- _ => assert (Hg : f_get g = Some cb) by (destruct (f_get g); [injection D as ->; reflexivity|discriminate D]) end.
      eapply get_allowed; [left; apply same_refl|eassumption|exact Hg].
    - apply fine_quiet; [|apply xxd_still; exact H]. unfold xxd_service in H. oks2; lgs; auto.
    - pose proof (do_actions_lg _ _ _ _ H) as L. pose proof (do_actions_len _ _ _ _ H) as N. split; [|exact N].
      eapply logs_one; [exact L|]. exists f. auto. }
  destruct (o_state s); try (oks; apply fine_quiet; [reflexivity|apply still_refl]);
  destruct (o_pfile s) as [f|]; try discriminate H;
  destruct (f_proc f) as [p|] eqn:Ep; oks; try (apply fine_quiet; [reflexivity|stl]);
  eapply G; eauto.
Qed.

Lemma service_fine : forall i s b s', ush_service i s = Ok (b, s') -> fine (io_env i) s s'.
Proof.
  intros i s b s' H. rewrite service_eq in H. destruct (o_cur s) as [c|]; [|discriminate]. unfold svc in H.
  destruct (o_state s) eqn:E.
  1-2: unfold ush_reset_service in H; rewrite E in H; oks; (apply fine_quiet; [reflexivity|stl]).
  1-5: unfold ush_prompt_service in H; rewrite E in H; oks; (apply fine_quiet; [reflexivity|stl]).
  - ok1. injection H as _ <-. apply fine_quiet; [unfold ush_read_start in E0; oks; reflexivity|apply read_start_hushed in E0; apply E0].
  - pose proof (read_char_log _ _ _ _ H) as L. pose proof (read_char_hushed _ _ _ _ E H) as ((_ & N & _) & _). split; [|exact N].
    destruct (io_rd i) as [ch|]; destruct L as (_ & L).
    + eapply logs_one; [exact L|exact I].
    + subst. apply logs_refl. reflexivity.
  - unfold ush_parse_service in H. rewrite E in H. injection H as _ <-. apply fine_quiet; [reflexivity|stl].
  - unfold ush_parse_service in H. rewrite E in H. ok1. injection H as _ <-. apply parse_allowed; [unfold parsing; rewrite E; exact I|exact E0].
  - unfold ush_parse_service in H. rewrite E in H. ok1. injection H as _ <-. apply parse_allowed; [unfold parsing; rewrite E; exact I|exact E0].
  - unfold ush_parse_service in H. rewrite E in H. ok1. injection H as _ <-. apply parse_allowed; [unfold parsing; rewrite E; exact I|exact E0].
  - ok1. injection H as _ <-. pose proof (write_hushed _ _ _ E E0) as ((_ & N & _) & _). split; [|exact N].
    unfold ush_write_char in E0. oks2; try (apply logs_refl; reflexivity). eapply logs_one; [reflexivity|exact I].
  - eapply process_allowed; eauto.
  - eapply process_allowed; eauto.
  - eapply process_allowed; eauto.
  - destruct (cfg_autocomp _); [|oks; apply fine_quiet; [reflexivity|apply still_refl]]. apply fine_quiet; [eapply autocomp_log; eauto|].
    eapply (fun X Y => proj1 (autocomp_hushed _ _ _ H X Y)); [apply outside_state|]; rewrite E; try reflexivity; discriminate.
  - destruct (cfg_autocomp _); [|oks; apply fine_quiet; [reflexivity|apply still_refl]]. apply fine_quiet; [eapply autocomp_log; eauto|].
    eapply (fun X Y => proj1 (autocomp_hushed _ _ _ H X Y)); [apply outside_state|]; rewrite E; try reflexivity; discriminate.
  - destruct (cfg_autocomp _); [|oks; apply fine_quiet; [reflexivity|apply still_refl]]. apply fine_quiet; [eapply autocomp_log; eauto|].
    eapply (fun X Y => proj1 (autocomp_hushed _ _ _ H X Y)); [apply outside_state|]; rewrite E; try reflexivity; discriminate.
  - destruct (cfg_autocomp _); [|oks; apply fine_quiet; [reflexivity|apply still_refl]]. apply fine_quiet; [eapply autocomp_log; eauto|].
    eapply (fun X Y => proj1 (autocomp_hushed _ _ _ H X Y)); [apply outside_state|]; rewrite E; try reflexivity; discriminate.
  - destruct (cfg_autocomp _); [|oks; apply fine_quiet; [reflexivity|apply still_refl]]. apply fine_quiet; [eapply autocomp_log; eauto|].
    eapply (fun X Y => proj1 (autocomp_hushed _ _ _ H X Y)); [apply outside_state|]; rewrite E; try reflexivity; discriminate.
  - destruct (cfg_autocomp _); [|oks; apply fine_quiet; [reflexivity|apply still_refl]]. apply fine_quiet; [eapply autocomp_log; eauto|].
    eapply (fun X Y => proj1 (autocomp_hushed _ _ _ H X Y)); [apply outside_state|]; rewrite E; try reflexivity; discriminate.
  - destruct (cfg_autocomp _); [|oks; apply fine_quiet; [reflexivity|apply still_refl]]. apply fine_quiet; [eapply autocomp_log; eauto|].
    eapply (fun X Y => proj1 (autocomp_hushed _ _ _ H X Y)); [apply outside_state|]; rewrite E; try reflexivity; discriminate.
  - destruct (cfg_autocomp _); [|oks; apply fine_quiet; [reflexivity|apply still_refl]]. apply fine_quiet; [eapply autocomp_log; eauto|].
    eapply (fun X Y => proj1 (autocomp_hushed _ _ _ H X Y)); [apply outside_state|]; rewrite E; try reflexivity; discriminate.
  - destruct (cfg_autocomp _); [|oks; apply fine_quiet; [reflexivity|apply still_refl]]. apply fine_quiet; [eapply autocomp_log; eauto|].
    eapply (fun X Y => proj1 (autocomp_hushed _ _ _ H X Y)); [apply outside_state|]; rewrite E; try reflexivity; discriminate.
  - destruct (cfg_autocomp _); [|oks; apply fine_quiet; [reflexivity|apply still_refl]]. apply fine_quiet; [eapply autocomp_log; eauto|].
    eapply (fun X Y => proj1 (autocomp_hushed _ _ _ H X Y)); [apply outside_state|]; rewrite E; try reflexivity; discriminate.
Qed.

Lemma C66_calls_proof : forall i s b s', ush_service i s = Ok (b, s') ->
  exists evs, lg s' = lg s ++ evs /\ Forall (may_call (io_env i) s) evs.
Proof. intros i s b s' H. exact (proj1 (service_fine i s b s' H)). Qed.

(** ** Histories *)
Lemma C66_history_proof : forall ops s s', run ops s = Ok s' ->
  exists evs, lg s' = lg s ++ evs /\
    Forall (fun ev => exists o1 i o2 m, ops = o1 ++ OpService i :: o2 /\ run o1 s = Ok m /\ may_call (io_env i) m ev) evs.
Proof.
  induction ops as [|o ops IH]; intros s s' H; cbn [run] in H.
  - injection H as <-. exists []. rewrite app_nil_r. split; [reflexivity|constructor].
  - destruct (step o s) as [m|] eqn:E; cbn [bind] in H; [|discriminate].
    destruct (IH _ _ H) as (ev2 & L2 & F2).
    assert (F2' : Forall (fun ev => exists o1 i o2 m, o :: ops = o1 ++ OpService i :: o2 /\ run o1 s = Ok m /\ may_call (io_env i) m ev) ev2).
    { eapply Forall_impl; [|exact F2]. intros ev (o1 & i & o2 & m' & -> & R & A). exists (o :: o1), i, o2, m'.
      split; [reflexivity|]. split; [cbn [run]; rewrite E; exact R|exact A]. }
    destruct o as [i|a]; cbn [step] in E.
    + destruct (ush_service i s) as [[b m1]|] eqn:Es; cbn [bind] in E; [|discriminate]. injection E as <-.
      destruct (C66_calls_proof _ _ _ _ Es) as (ev1 & L1 & F1). exists (ev1 ++ ev2). split; [rewrite L2, L1, app_assoc; reflexivity|].
      apply Forall_app. split; [|exact F2']. eapply Forall_impl; [|exact F1]. intros ev A. exists [], i, ops, s. auto.
    + apply do_action_lg in E. exists ev2. split; [congruence|exact F2'].
Qed.

Lemma run_len : forall ops s s', run ops s = Ok s' -> same_len s s'.
Proof.
  induction ops as [|o ops IH]; intros s s' H; cbn [run] in H; [injection H as <-; reflexivity|].
  destruct (step o s) as [m|] eqn:E; cbn [bind] in H; [|discriminate]. apply IH in H.
  assert (N : same_len s m).
  { destruct o as [i|a]; cbn [step] in E; [|eapply do_action_len; eauto].
    destruct (ush_service i s) as [[b m1]|] eqn:Es; cbn [bind] in E; [|discriminate]. injection E as <-. apply service_fine in Es. apply Es. }
  unfold same_len in *. congruence.
Qed.

Lemma allowed_handed : forall e s ev, may_call e s ev -> handed (length (inb s)) ev.
Proof. intros e s [c|c|cb [f|] argv|cb f|cb f d|n f]; cbn; tauto. Qed.

Lemma C66_arguments_proof : forall ops s s', run ops s = Ok s' ->
  exists evs, lg s' = lg s ++ evs /\ Forall (handed (length (inb s))) evs /\ length (inb s') = length (inb s).
Proof.
  intros ops s s' H. destruct (C66_history_proof _ _ _ H) as (evs & L & F). exists evs. split; [exact L|]. split; [|apply run_len in H; exact H].
  eapply Forall_impl; [|exact F]. intros ev (o1 & i & o2 & m & -> & R & A). apply run_len in R. unfold same_len in R. rewrite <- R. eapply allowed_handed; eauto.
Qed.

(** ** In terms of the mounted directories and registered groups *)
Lemma chain_next_in : forall h ids p i nd j, chain h p ids -> In i ids -> nth_error h i = Some nd -> n_next nd = Some j -> In j ids.
Proof.
  intros h ids. induction ids as [|k ids IH]; intros p i nd j C I N E; [contradiction|]. destruct C as (_ & nk & Nk & C).
  destruct I as [->|I].
  - rewrite N in Nk. injection Nk as <-. rewrite E in C. destruct ids as [|x ids]; cbn [chain] in C; [discriminate|].
    destruct C as (C & _). injection C as ->. right. left. reflexivity.
  - right. eapply IH; eauto.
Qed.
Lemma in_list_chain : forall h ids p i, chain h p ids -> (in_list h p i <-> In i ids).
Proof.
  intros h ids. induction ids as [|k ids IH]; intros p i C.
  - cbn [chain] in C. subst. split; [intros L; inversion L|contradiction].
  - destruct C as (-> & nd & N & C). split.
    + intros L. inversion L as [|? n ? N' L']; subst; [left; reflexivity|]. rewrite N in N'. injection N' as <-. right. apply (IH _ _ C). exact L'.
    + intros [->|I]; [constructor|]. econstructor; [exact N|]. apply (IH _ _ C). exact I.
Qed.
Lemma in_tree_chain : forall h root ids p i, chain h p ids -> (forall k, p = Some k -> in_tree h root k) -> In i ids -> in_tree h root i.
Proof.
  intros h root ids. induction ids as [|k ids IH]; intros p i C T I; [contradiction|]. destruct C as (-> & nd & N & C).
  destruct I as [->|I]; [auto|]. eapply IH; [exact C| |exact I]. intros j Hj. eapply it_next; eauto.
Qed.

Lemma in_tree_rep : forall h root fs, rep h root fs -> forall i, in_tree h root i <-> exists d, In d fs /\ de_node d = i.
Proof.
  intros h root fs (Ok & St & Cr). pose proof Ok as (_ & Np & Nn & Par). intros i. split.
  - intros T. induction T as [i E|i n j T (d & Id & <-) N E|i n j T (d & Id & <-) N E].
    + rewrite E in Cr. destruct (node_at [] fs) as [k|] eqn:Ek; cbn [chain] in Cr; [|discriminate].
      destruct Cr as (Cr & _). injection Cr as ->. apply node_at_some in Ek as (d & I & _ & <-). exists d. auto.
    + destruct (St d Id) as (nd & N' & _ & _ & _ & C). rewrite N in N'. injection N' as <-. rewrite E in C.
      destruct (children (de_path d) fs) as [|c cs] eqn:Ec; cbn [map chain] in C; [discriminate|]. destruct C as (C & _). injection C as ->.
      exists c. split; [|reflexivity]. assert (I : In c (children (de_path d) fs)) by (rewrite Ec; left; reflexivity). apply children_in in I. apply I.
    + destruct (de_path d) as [|x q] eqn:Ed.
      * assert (En : node_at [] fs = Some (de_node d)) by (rewrite <- Ed; apply node_at_in; auto). rewrite En in Cr.
        destruct Cr as (_ & nd & N' & C). rewrite N in N'. injection N' as <-. cbn [chain] in C. congruence.
      * assert (Nz : de_path d <> []) by (rewrite Ed; discriminate). pose proof (Par d Id Nz) as Ip. apply in_map_iff in Ip as (pd & Ep & Ip).
        destruct (St pd Ip) as (nd & _ & _ & _ & _ & C).
        assert (Ij : In j (map de_node (children (de_path pd) fs))).
        { eapply chain_next_in; [exact C| |exact N|exact E]. apply in_map. apply children_in. auto. }
        apply in_map_iff in Ij as (c & <- & Ic). apply children_in in Ic as (Ic & _). exists c. auto.
  - intros (d & Id & <-). remember (length (de_path d)) as k eqn:Ek. revert d Id Ek. induction k as [|k IH]; intros d Id Ek.
    + assert (Ed : de_path d = []) by (destruct (de_path d); [reflexivity|discriminate]).
      assert (En : node_at [] fs = Some (de_node d)) by (rewrite <- Ed; apply node_at_in; auto). rewrite En in Cr. destruct Cr as (Cr & _). constructor. exact Cr.
    + assert (Nz : de_path d <> []) by (intros Z; rewrite Z in Ek; discriminate). pose proof (Par d Id Nz) as Ip. apply in_map_iff in Ip as (pd & Ep & Ip).
      assert (T : in_tree h root (de_node pd)).
      { apply IH; [exact Ip|]. rewrite Ep. rewrite (app_removelast_last [] Nz), app_length in Ek. cbn [length] in Ek. lia. }
      destruct (St pd Ip) as (nd & N & _ & _ & _ & C). eapply in_tree_chain; [exact C| |].
      * intros j Hj. eapply it_child; eauto.
      * apply in_map. apply children_in. auto.
Qed.

Lemma C66_registered_proof : forall own s w, knows own s w -> forall g, registered s g <-> file_of w g.
Proof.
  intros own s w (R & (Nd & Cg & Fg) & _) g. pose proof (in_tree_rep _ _ _ R) as T. destruct R as (_ & St & _). split.
  - intros (i & n & [L|L] & N & I).
    + left. apply (in_list_chain _ _ _ _ Cg) in L. apply in_map_iff in L as ((i' & fl) & E & L). cbn [fst] in E. subst i'.
      destruct (Fg _ _ L) as (nd & N' & Ef). rewrite N in N'. injection N' as <-. apply in_flat_map. exists (i, fl). split; [exact L|]. cbn [snd]. rewrite <- Ef. exact I.
    + right. apply T in L as (d & Id & <-). exists d. split; [exact Id|]. destruct (St d Id) as (nd & N' & _ & Ef & _). rewrite N in N'. injection N' as <-. rewrite <- Ef. exact I.
  - intros [F|(d & Id & F)].
    + apply in_flat_map in F as ((i & fl) & L & F). destruct (Fg _ _ L) as (nd & N & Ef). exists i, nd.
      split; [left; apply (in_list_chain _ _ _ _ Cg); change i with (fst (i, fl)); apply in_map; exact L|]. split; [exact N|]. rewrite Ef. exact F.
    + destruct (St d Id) as (nd & N & _ & Ef & _). exists (de_node d), nd. split; [right; apply T; exists d; auto|]. split; [exact N|]. rewrite Ef. exact F.
Qed.

Lemma C66_only_known_proof : forall own w i s b s' evs, knows own s w -> d_exec (o_desc s) = None ->
  ush_service i s = Ok (b, s') -> lg s' = lg s ++ evs -> Forall (known_call w) evs.
Proof.
  intros own w i s b s' evs K D H L. destruct (C66_calls_proof _ _ _ _ H) as (evs' & L' & F). rewrite L in L'. apply app_inv_head in L'. subst evs'.
  assert (U : forall argv m g, looked_up (io_env i) argv s m -> registered m g -> file_of w g).
  { intros argv m g Lk R. unfold looked_up in Lk. rewrite D in Lk. apply (C66_registered_proof own s w K). destruct Lk as (A & B & C).
    apply (registered_same m); [split; [|split]; congruence|exact R]. }
  assert (V : forall m g, at_hand (io_env i) s m -> registered m g -> file_of w g).
  { intros m g [A|(argv & A)] R; [|eapply U; eauto]. apply (C66_registered_proof own s w K). destruct A as (A & B & C).
    apply (registered_same m); [split; [|split]; congruence|exact R]. }
  eapply Forall_impl; [|exact F]. intros [c|c|cb [f|] argv|cb f|cb f d|n f]; cbn [may_call known_call]; auto.
  - intros (_ & m & g & A & R & E). exists g. split; [eapply U; eauto|exact E].
  - intros ((n & E & _) & _). congruence.
  - intros (m & g & A & R & E). exists g. split; [eapply V; eauto|exact E].
  - intros (_ & m & g & A & R & E). exists g. split; [eapply V; eauto|exact E].
Qed.
