(** * MultiFacts: a shell reads and writes only its own node objects. *)
From Coq Require Import Lia.
From Verif Require Import Shell Multi BaseFacts.

Lemma push_desc : forall v h s, set_desc v (set_hp h s) = set_hp h (set_desc v s). Proof. reflexivity. Qed.
Lemma push_state : forall v h s, set_state v (set_hp h s) = set_hp h (set_state v s). Proof. reflexivity. Qed.
Lemma push_wnext : forall v h s, set_wnext v (set_hp h s) = set_hp h (set_wnext v s). Proof. reflexivity. Qed.
Lemma push_pnext : forall v h s, set_pnext v (set_hp h s) = set_hp h (set_pnext v s). Proof. reflexivity. Qed.
Lemma push_wbuf : forall v h s, set_wbuf v (set_hp h s) = set_hp h (set_wbuf v s). Proof. reflexivity. Qed.
Lemma push_wsize : forall v h s, set_wsize v (set_hp h s) = set_hp h (set_wsize v s). Proof. reflexivity. Qed.
Lemma push_wpos : forall v h s, set_wpos v (set_hp h s) = set_hp h (set_wpos v s). Proof. reflexivity. Qed.
Lemma push_esc : forall v h s, set_esc v (set_hp h s) = set_hp h (set_esc v s). Proof. reflexivity. Qed.
Lemma push_inpos : forall v h s, set_inpos v (set_hp h s) = set_hp h (set_inpos v s). Proof. reflexivity. Qed.
Lemma push_outpos : forall v h s, set_outpos v (set_hp h s) = set_hp h (set_outpos v s). Proof. reflexivity. Qed.
Lemma push_argc : forall v h s, set_argc v (set_hp h s) = set_hp h (set_argc v s). Proof. reflexivity. Qed.
Lemma push_escf : forall v h s, set_escf v (set_hp h s) = set_hp h (set_escf v s). Proof. reflexivity. Qed.
Lemma push_cmds : forall v h s, set_cmds v (set_hp h s) = set_hp h (set_cmds v s). Proof. reflexivity. Qed.
Lemma push_root : forall v h s, set_root v (set_hp h s) = set_hp h (set_root v s). Proof. reflexivity. Qed.
Lemma push_cur : forall v h s, set_cur v (set_hp h s) = set_hp h (set_cur v s). Proof. reflexivity. Qed.
Lemma push_buildin : forall v h s, set_buildin v (set_hp h s) = set_hp h (set_buildin v s). Proof. reflexivity. Qed.
Lemma push_pnode : forall v h s, set_pnode v (set_hp h s) = set_hp h (set_pnode v s). Proof. reflexivity. Qed.
Lemma push_pchild : forall v h s, set_pchild v (set_hp h s) = set_hp h (set_pchild v s). Proof. reflexivity. Qed.
Lemma push_pfile : forall v h s, set_pfile v (set_hp h s) = set_hp h (set_pfile v s). Proof. reflexivity. Qed.
Lemma push_pidx : forall v h s, set_pidx v (set_hp h s) = set_hp h (set_pidx v s). Proof. reflexivity. Qed.
Lemma push_pitem : forall v h s, set_pitem v (set_hp h s) = set_hp h (set_pitem v s). Proof. reflexivity. Qed.
Lemma push_pdata : forall v h s, set_pdata v (set_hp h s) = set_hp h (set_pdata v s). Proof. reflexivity. Qed.
Lemma push_pdsize : forall v h s, set_pdsize v (set_hp h s) = set_hp h (set_pdsize v s). Proof. reflexivity. Qed.
Lemma push_pstage : forall v h s, set_pstage v (set_hp h s) = set_hp h (set_pstage v s). Proof. reflexivity. Qed.
Lemma push_acprev : forall v h s, set_acprev v (set_hp h s) = set_hp h (set_acprev v s). Proof. reflexivity. Qed.
Lemma push_acin : forall v h s, set_acin v (set_hp h s) = set_hp h (set_acin v s). Proof. reflexivity. Qed.
Lemma push_accand : forall v h s, set_accand v (set_hp h s) = set_hp h (set_accand v s). Proof. reflexivity. Qed.
Lemma push_acname : forall v h s, set_acname v (set_hp h s) = set_hp h (set_acname v s). Proof. reflexivity. Qed.
Lemma push_account : forall v h s, set_account v (set_hp h s) = set_hp h (set_account v s). Proof. reflexivity. Qed.
Lemma push_acprevc : forall v h s, set_acprevc v (set_hp h s) = set_hp h (set_acprevc v s). Proof. reflexivity. Qed.
Lemma push_acsuf : forall v h s, set_acsuf v (set_hp h s) = set_hp h (set_acsuf v s). Proof. reflexivity. Qed.
Lemma push_inb : forall v h s, set_inb v (set_hp h s) = set_hp h (set_inb v s). Proof. reflexivity. Qed.
Lemma push_outb : forall v h s, set_outb v (set_hp h s) = set_hp h (set_outb v s). Proof. reflexivity. Qed.
Lemma push_lg : forall v h s, set_lg v (set_hp h s) = set_hp h (set_lg v s). Proof. reflexivity. Qed.
Lemma push_emit : forall v h s, emit v (set_hp h s) = set_hp h (emit v s). Proof. reflexivity. Qed.
Lemma push_hp : forall v h s, set_hp v (set_hp h s) = set_hp v s. Proof. reflexivity. Qed.
Lemma get_o_desc : forall h s, o_desc (set_hp h s) = o_desc s. Proof. reflexivity. Qed.
Lemma get_o_state : forall h s, o_state (set_hp h s) = o_state s. Proof. reflexivity. Qed.
Lemma get_o_wnext : forall h s, o_wnext (set_hp h s) = o_wnext s. Proof. reflexivity. Qed.
Lemma get_o_pnext : forall h s, o_pnext (set_hp h s) = o_pnext s. Proof. reflexivity. Qed.
Lemma get_o_wbuf : forall h s, o_wbuf (set_hp h s) = o_wbuf s. Proof. reflexivity. Qed.
Lemma get_o_wsize : forall h s, o_wsize (set_hp h s) = o_wsize s. Proof. reflexivity. Qed.
Lemma get_o_wpos : forall h s, o_wpos (set_hp h s) = o_wpos s. Proof. reflexivity. Qed.
Lemma get_o_esc : forall h s, o_esc (set_hp h s) = o_esc s. Proof. reflexivity. Qed.
Lemma get_o_inpos : forall h s, o_inpos (set_hp h s) = o_inpos s. Proof. reflexivity. Qed.
Lemma get_o_outpos : forall h s, o_outpos (set_hp h s) = o_outpos s. Proof. reflexivity. Qed.
Lemma get_o_argc : forall h s, o_argc (set_hp h s) = o_argc s. Proof. reflexivity. Qed.
Lemma get_o_escf : forall h s, o_escf (set_hp h s) = o_escf s. Proof. reflexivity. Qed.
Lemma get_o_cmds : forall h s, o_cmds (set_hp h s) = o_cmds s. Proof. reflexivity. Qed.
Lemma get_o_root : forall h s, o_root (set_hp h s) = o_root s. Proof. reflexivity. Qed.
Lemma get_o_cur : forall h s, o_cur (set_hp h s) = o_cur s. Proof. reflexivity. Qed.
Lemma get_o_buildin : forall h s, o_buildin (set_hp h s) = o_buildin s. Proof. reflexivity. Qed.
Lemma get_o_pnode : forall h s, o_pnode (set_hp h s) = o_pnode s. Proof. reflexivity. Qed.
Lemma get_o_pchild : forall h s, o_pchild (set_hp h s) = o_pchild s. Proof. reflexivity. Qed.
Lemma get_o_pfile : forall h s, o_pfile (set_hp h s) = o_pfile s. Proof. reflexivity. Qed.
Lemma get_o_pidx : forall h s, o_pidx (set_hp h s) = o_pidx s. Proof. reflexivity. Qed.
Lemma get_o_pitem : forall h s, o_pitem (set_hp h s) = o_pitem s. Proof. reflexivity. Qed.
Lemma get_o_pdata : forall h s, o_pdata (set_hp h s) = o_pdata s. Proof. reflexivity. Qed.
Lemma get_o_pdsize : forall h s, o_pdsize (set_hp h s) = o_pdsize s. Proof. reflexivity. Qed.
Lemma get_o_pstage : forall h s, o_pstage (set_hp h s) = o_pstage s. Proof. reflexivity. Qed.
Lemma get_o_acprev : forall h s, o_acprev (set_hp h s) = o_acprev s. Proof. reflexivity. Qed.
Lemma get_o_acin : forall h s, o_acin (set_hp h s) = o_acin s. Proof. reflexivity. Qed.
Lemma get_o_accand : forall h s, o_accand (set_hp h s) = o_accand s. Proof. reflexivity. Qed.
Lemma get_o_acname : forall h s, o_acname (set_hp h s) = o_acname s. Proof. reflexivity. Qed.
Lemma get_o_account : forall h s, o_account (set_hp h s) = o_account s. Proof. reflexivity. Qed.
Lemma get_o_acprevc : forall h s, o_acprevc (set_hp h s) = o_acprevc s. Proof. reflexivity. Qed.
Lemma get_o_acsuf : forall h s, o_acsuf (set_hp h s) = o_acsuf s. Proof. reflexivity. Qed.
Lemma get_inb : forall h s, inb (set_hp h s) = inb s. Proof. reflexivity. Qed.
Lemma get_outb : forall h s, outb (set_hp h s) = outb s. Proof. reflexivity. Qed.
Lemma get_hp : forall h s, hp (set_hp h s) = h. Proof. reflexivity. Qed.
Lemma get_lg : forall h s, lg (set_hp h s) = lg s. Proof. reflexivity. Qed.
Lemma push_write_str : forall t n h s, write_str t n (set_hp h s) = set_hp h (write_str t n s). Proof. reflexivity. Qed.
Lemma push_ush_write_pointer_bin : forall p z n h s, ush_write_pointer_bin p z n (set_hp h s) = set_hp h (ush_write_pointer_bin p z n s). Proof. reflexivity. Qed.
Lemma push_ush_print_status : forall x h s, ush_print_status x (set_hp h s) = set_hp h (ush_print_status x s). Proof. reflexivity. Qed.
Lemma push_ush_prompt_start : forall n h s, ush_prompt_start n (set_hp h s) = set_hp h (ush_prompt_start n s). Proof. reflexivity. Qed.
Lemma push_ush_autocomp_start : forall  h s, ush_autocomp_start  (set_hp h s) = set_hp h (ush_autocomp_start  s). Proof. reflexivity. Qed.
Lemma push_ush_process_start : forall f h s, ush_process_start f (set_hp h s) = set_hp h (ush_process_start f s). Proof. reflexivity. Qed.
Lemma push_ush_parse_start : forall  h s, ush_parse_start  (set_hp h s) = set_hp h (ush_parse_start  s). Proof. reflexivity. Qed.
Lemma push_ush_autocomp_prepare_candidates : forall  h s, ush_autocomp_prepare_candidates  (set_hp h s) = set_hp h (ush_autocomp_prepare_candidates  s). Proof. reflexivity. Qed.
Lemma push_ush_autocomp_state_candidates_start : forall  h s, ush_autocomp_state_candidates_start  (set_hp h s) = set_hp h (ush_autocomp_state_candidates_start  s). Proof. reflexivity. Qed.
Lemma push_ush_reset : forall  h s, ush_reset  (set_hp h s) = set_hp h (ush_reset  s). Proof. reflexivity. Qed.
Global Hint Rewrite push_desc push_state push_wnext push_pnext push_wbuf push_wsize push_wpos push_esc push_inpos push_outpos push_argc push_escf push_cmds push_root push_cur push_buildin push_pnode push_pchild push_pfile push_pidx push_pitem push_pdata push_pdsize push_pstage push_acprev push_acin push_accand push_acname push_account push_acprevc push_acsuf push_inb push_outb push_lg push_emit push_hp get_o_desc get_o_state get_o_wnext get_o_pnext get_o_wbuf get_o_wsize get_o_wpos get_o_esc get_o_inpos get_o_outpos get_o_argc get_o_escf get_o_cmds get_o_root get_o_cur get_o_buildin get_o_pnode get_o_pchild get_o_pfile get_o_pidx get_o_pitem get_o_pdata get_o_pdsize get_o_pstage get_o_acprev get_o_acin get_o_accand get_o_acname get_o_account get_o_acprevc get_o_acsuf get_inb get_outb get_hp get_lg push_write_str push_ush_write_pointer_bin push_ush_print_status push_ush_prompt_start push_ush_autocomp_start push_ush_process_start push_ush_parse_start push_ush_autocomp_prepare_candidates push_ush_autocomp_state_candidates_start push_ush_reset : push.

Section Own.
Variable own : list nat.
Variables h0 h0' : list node.

Definition nodes_in (h : list node) : Prop := forall i nd, In i own -> nth_error h i = Some nd ->
  within own (n_parent nd) /\ within own (n_children nd) /\ within own (n_next nd).
Definition agree (h h' : list node) : Prop := length h' = length h /\ forall i, In i own -> nth_error h' i = nth_error h i.
Definition keeps (h h' : list node) : Prop := length h' = length h /\ forall i, ~ In i own -> nth_error h' i = nth_error h i.
Definition mtw (h h' : list node) : Prop := nodes_in h /\ agree h h' /\ keeps h0 h /\ keeps h0' h'.
Definition ptrs (s : st) : Prop :=
  within own (o_cmds s) /\ within own (o_root s) /\ within own (o_cur s) /\ within own (o_pnode s) /\ within own (o_pchild s) /\ In (o_buildin s) own.
Definition tw (s : st) (h' : list node) : Prop := ptrs s /\ mtw (hp s) h'.

Definition sim (r r' : res st) : Prop :=
  match r with Ok s => exists h', r' = Ok (set_hp h' s) /\ tw s h' | Err e => r' = Err e end.
Definition sim2 {A} (r r' : res (A * st)) : Prop :=
  match r with Ok (a, s) => exists h', r' = Ok (a, set_hp h' s) /\ tw s h' | Err e => r' = Err e end.
Definition msim (r r' : res (list node)) : Prop :=
  match r with Ok h => exists h', r' = Ok h' /\ mtw h h' | Err e => r' = Err e end.

(** ** Reading *)
Lemma getn_m : forall h h' i, mtw h h' -> In i own -> getn h' i = getn h i.
Proof. intros h h' i (_ & (_ & A) & _) I. unfold getn. rewrite (A i I). reflexivity. Qed.
Lemma getp_m : forall h h' p, mtw h h' -> within own p -> getp h' p = getp h p.
Proof. intros h h' [i|] M W; [apply getn_m; auto|reflexivity]. Qed.
Lemma getn_in : forall h h' i nd, mtw h h' -> In i own -> getn h i = Ok nd ->
  within own (n_parent nd) /\ within own (n_children nd) /\ within own (n_next nd).
Proof. intros h h' i nd (N & _) I G. apply (N i nd I). unfold getn in G. destruct (nth_error h i); [injection G as ->; reflexivity|discriminate]. Qed.
Lemma getp_in : forall h h' p nd, mtw h h' -> within own p -> getp h p = Ok nd ->
  within own (n_parent nd) /\ within own (n_children nd) /\ within own (n_next nd).
Proof. intros h h' [i|] nd M W G; [eapply getn_in; eauto|discriminate]. Qed.
Lemma len_m : forall h h', mtw h h' -> length h' = length h.
Proof. intros h h' (_ & (L & _) & _). exact L. Qed.

Lemma sib_search_m : forall f h h' p lp, mtw h h' -> within own p ->
  sib_search f h' p lp = sib_search f h p lp /\ forall i, sib_search f h p lp = Ok (Some i) -> In i own.
Proof.
  induction f as [|f IH]; intros h h' p lp M W; cbn [sib_search]; [split; [reflexivity|discriminate]|].
  destruct p as [i|]; [|split; [reflexivity|discriminate]].
  rewrite (getn_m h h' i M W). destruct (getn h i) as [nd|] eqn:G; cbn [bind]; [|split; [reflexivity|discriminate]].
  destruct (path_of nd) as [p|]; cbn [bind]; [|split; [reflexivity|discriminate]].
  destruct (beq p lp); [split; [reflexivity|intros j E; injection E as <-; exact W]|].
  apply IH; auto. apply (getn_in h h' i nd M W G).
Qed.
Lemma get_loop_m : forall n i lv h h' path lb p, mtw h h' -> within own p ->
  get_loop n i lv h' path lb p = get_loop n i lv h path lb p /\ forall q, get_loop n i lv h path lb p = Ok q -> within own q.
Proof.
  induction n as [|n IH]; intros i lv h h' path lb p M W; cbn [get_loop]; [split; [reflexivity|intros q E; injection E as <-; exact I]|].
  destruct (ush_utils_get_path_level i path lb) as [lb'|]; cbn [bind]; [|split; [reflexivity|discriminate]].
  destruct (c_str lb' 0) as [lp|]; cbn [bind]; [|split; [reflexivity|discriminate]].
  rewrite (len_m h h' M). destruct (sib_search_m (S (length h)) h h' p lp M W) as (-> & F).
  destruct (sib_search (S (length h)) h p lp) as [[c|]|]; cbn [bind]; [|split; [reflexivity|intros q E; injection E as <-; exact I]|split; [reflexivity|discriminate]].
  specialize (F c eq_refl). destruct (i =? lv); [split; [reflexivity|intros q E; injection E as <-; exact F]|].
  rewrite (getn_m h h' c M F). destruct (getn h c) as [nd|] eqn:G; cbn [bind]; [|split; [reflexivity|discriminate]].
  apply IH; auto. apply (getn_in h h' c nd M F G).
Qed.
Lemma get_by_path_m : forall pm h h' root path, mtw h h' -> within own root ->
  ush_node_get_by_path pm h' root path = ush_node_get_by_path pm h root path /\
  forall q, ush_node_get_by_path pm h root path = Ok q -> within own q.
Proof.
  intros pm h h' root path M W. unfold ush_node_get_by_path. destruct (_ =? 0); [split; [reflexivity|intros q E; injection E as <-; exact W]|].
  destruct root as [r|]; [|split; [reflexivity|intros q E; injection E as <-; exact I]].
  rewrite (getn_m h h' r M W). destruct (getn h r) as [nd|] eqn:G; cbn [bind]; [|split; [reflexivity|discriminate]].
  apply get_loop_m; auto. apply (getn_in h h' r nd M W G).
Qed.
Lemma get_parent_m : forall pm h h' root path, mtw h h' -> within own root ->
  ush_node_get_parent_by_path pm h' root path = ush_node_get_parent_by_path pm h root path /\
  forall q, ush_node_get_parent_by_path pm h root path = Ok q -> within own q.
Proof.
  intros pm h h' root path M W. unfold ush_node_get_parent_by_path.
  destruct (ush_utils_path_upper _) as [b|]; cbn [bind]; [|split; [reflexivity|discriminate]].
  destruct (c_str b 0) as [p|]; cbn [bind]; [|split; [reflexivity|discriminate]].
  destruct p; [split; [reflexivity|intros q E; injection E as <-; exact I]|]. apply get_by_path_m; auto.
Qed.
Lemma abs_path_m : forall pm h h' cur t, mtw h h' -> within own cur -> abs_path_str pm h' cur t = abs_path_str pm h cur t.
Proof.
  intros pm h h' cur t M W. unfold abs_path_str, ush_node_get_absolute_path. rewrite (getp_m h h' cur M W). reflexivity.
Qed.
Lemma find_prev_m : forall f h h' id prev curr, mtw h h' -> within own prev -> within own curr ->
  find_prev f h' id prev curr = find_prev f h id prev curr /\
  forall q, find_prev f h id prev curr = Ok (Some q) -> within own q /\ In id own.
Proof.
  induction f as [|f IH]; intros h h' id prev curr M P W; cbn [find_prev]; [split; [reflexivity|discriminate]|].
  destruct curr as [c|]; [|split; [reflexivity|discriminate]].
  destruct (c =? id) eqn:E.
  - apply Nat.eqb_eq in E as ->. split; [reflexivity|]. intros q F. injection F as <-. auto.
  - rewrite (getn_m h h' c M W). destruct (getn h c) as [nd|] eqn:G; cbn [bind]; [|split; [reflexivity|discriminate]].
    apply IH; auto. apply (getn_in h h' c nd M W G).
Qed.
Lemma find_cmds_m : forall f h h' curr name, mtw h h' -> within own curr -> find_cmds f h' curr name = find_cmds f h curr name.
Proof.
  induction f as [|f IH]; intros h h' curr name M W; cbn [find_cmds]; [reflexivity|].
  destruct curr as [c|]; [|reflexivity]. rewrite (getn_m h h' c M W). destruct (getn h c) as [nd|] eqn:G; cbn [bind]; [|reflexivity].
  destruct (find_cmd (n_files nd) name); [reflexivity|]. apply IH; auto. apply (getn_in h h' c nd M W G).
Qed.
Lemma find_dirs_m : forall f h h' curr abs fp, mtw h h' -> within own curr -> find_dirs f h' curr abs fp = find_dirs f h curr abs fp.
Proof.
  induction f as [|f IH]; intros h h' curr abs fp M W; cbn [find_dirs]; [reflexivity|].
  destruct curr as [c|]; [|reflexivity]. rewrite (getn_m h h' c M W). destruct (getn h c) as [nd|] eqn:G; cbn [bind]; [|reflexivity].
  destruct (find_in_dir nd (n_files nd) abs fp) as [[[x|] b]|]; cbn [bind]; try reflexivity. apply IH; auto. apply (getn_in h h' c nd M W G).
Qed.
Lemma find_by_name_m : forall name s h', tw s h' -> ush_file_find_by_name name (set_hp h' s) = ush_file_find_by_name name s.
Proof.
  intros name s h' ((C & R & U & N & K & B) & M). unfold ush_file_find_by_name. autorewrite with push. rewrite (len_m _ _ M).
  rewrite (find_cmds_m _ (hp s) h' _ _ M C). destruct (find_cmds (S (length (hp s))) (hp s) (o_cmds s) name) as [[x|]|]; cbn [bind]; try reflexivity.
  rewrite (abs_path_m _ _ _ _ _ M U). destruct (abs_path_str _ _ _ _) as [abs|]; cbn [bind]; [|reflexivity].
  destruct (get_parent_m (d_pathmax (o_desc s)) (hp s) h' (o_root s) abs M R) as (-> & F).
  destruct (ush_node_get_parent_by_path _ _ _ _) as [d|]; cbn [bind]; [|reflexivity]. apply find_dirs_m; auto.
Qed.
Lemma cat_check_m : forall l s h', tw s h' -> cat_check l (set_hp h' s) = cat_check l s.
Proof.
  induction l as [|n l IH]; intros s h' T; cbn [cat_check]; [reflexivity|]. rewrite (find_by_name_m n s h' T).
  destruct (ush_file_find_by_name n s) as [[f|]|]; cbn [bind]; try reflexivity. destruct (f_get f); [apply IH; auto|reflexivity].
Qed.

(** ** Writing *)
Definition node_within (nd : node) : Prop := within own (n_parent nd) /\ within own (n_children nd) /\ within own (n_next nd).
Lemma setn_m : forall h h' i nd, mtw h h' -> In i own -> node_within nd -> msim (setn h i nd) (setn h' i nd).
Proof.
  intros h h' i nd M I W. unfold setn, msim. rewrite (len_m _ _ M). destruct (Nat.ltb_spec i (length h)) as [L|L]; [|reflexivity].
  exists (upd h' i nd). split; [reflexivity|]. destruct M as (N & (L1 & A) & (L2 & K) & (L3 & K')). split; [|split; [split|split; split]].
  - intros j x J E. destruct (Nat.eq_dec i j) as [<-|D].
    + rewrite upd_nth_same in E by exact L. injection E as <-. exact W.
    + rewrite upd_nth_other in E by exact D. exact (N j x J E).
  - rewrite !upd_length. exact L1.
  - intros j J. destruct (Nat.eq_dec i j) as [<-|D].
    + rewrite !upd_nth_same by (try rewrite L1; exact L). reflexivity.
    + rewrite !upd_nth_other by exact D. auto.
  - rewrite upd_length. exact L2.
  - intros j J. rewrite upd_nth_other by (intros ->; auto). auto.
  - rewrite upd_length. exact L3.
  - intros j J. rewrite upd_nth_other by (intros ->; auto). auto.
Qed.

(** ** States *)
Lemma sim_bind : forall r r' (k k' : st -> res st), sim r r' -> (forall s h', tw s h' -> sim (k s) (k' (set_hp h' s))) -> sim (bind r k) (bind r' k').
Proof. intros [s|e] r' k k' S F; cbn [sim] in S; [destruct S as (h' & -> & T); exact (F s h' T)|subst r'; reflexivity]. Qed.
Lemma sim_bind2 : forall A r r' (k k' : st -> res (A * st)), sim r r' -> (forall s h', tw s h' -> sim2 (k s) (k' (set_hp h' s))) -> sim2 (bind r k) (bind r' k').
Proof. intros A [s|e] r' k k' S F; cbn [sim] in S; [destruct S as (h' & -> & T); exact (F s h' T)|subst r'; reflexivity]. Qed.
Lemma sim2_bind : forall A (r r' : res (A * st)) (k k' : A * st -> res st), sim2 r r' -> (forall a s h', tw s h' -> sim (k (a, s)) (k' (a, set_hp h' s))) -> sim (bind r k) (bind r' k').
Proof. intros A [[a s]|e] r' k k' S F; cbn [sim2] in S; [destruct S as (h' & -> & T); exact (F a s h' T)|subst r'; reflexivity]. Qed.
Lemma sim2_bind2 : forall A B (r r' : res (A * st)) (k k' : A * st -> res (B * st)), sim2 r r' -> (forall a s h', tw s h' -> sim2 (k (a, s)) (k' (a, set_hp h' s))) -> sim2 (bind r k) (bind r' k').
Proof. intros A B [[a s]|e] r' k k' S F; cbn [sim2] in S; [destruct S as (h' & -> & T); exact (F a s h' T)|subst r'; reflexivity]. Qed.
Lemma msim_bind : forall r r' (k k' : list node -> res st), msim r r' -> (forall h h', mtw h h' -> sim (k h) (k' h')) -> sim (bind r k) (bind r' k').
Proof. intros [h|e] r' k k' S F; cbn [msim] in S; [destruct S as (h' & -> & T); exact (F h h' T)|subst r'; reflexivity]. Qed.
Lemma msim_bind2 : forall A r r' (k k' : list node -> res (A * st)), msim r r' -> (forall h h', mtw h h' -> sim2 (k h) (k' h')) -> sim2 (bind r k) (bind r' k').
Proof. intros A [h|e] r' k k' S F; cbn [msim] in S; [destruct S as (h' & -> & T); exact (F h h' T)|subst r'; reflexivity]. Qed.
Lemma msim_bindm : forall r r' (k k' : list node -> res (list node)), msim r r' -> (forall h h', mtw h h' -> msim (k h) (k' h')) -> msim (bind r k) (bind r' k').
Proof. intros [h|e] r' k k' S F; cbn [msim] in S; [destruct S as (h' & -> & T); exact (F h h' T)|subst r'; reflexivity]. Qed.
Lemma sim_ok : forall s h', tw s h' -> sim (Ok s) (Ok (set_hp h' s)).
Proof. intros s h' T. exists h'. auto. Qed.
Lemma sim2_ok : forall A (a : A) s h', tw s h' -> sim2 (Ok (a, s)) (Ok (a, set_hp h' s)).
Proof. intros A a s h' T. exists h'. auto. Qed.
Lemma getn_bind : forall h h' i (k k' : node -> res st), mtw h h' -> In i own -> (forall nd, getn h i = Ok nd -> node_within nd -> sim (k nd) (k' nd)) -> sim (bind (getn h i) k) (bind (getn h' i) k').
Proof. intros h h' i k k' M I F. rewrite (getn_m h h' i M I). destruct (getn h i) as [nd|] eqn:G; [apply F; [reflexivity|exact (getn_in h h' i nd M I G)]|reflexivity]. Qed.
Lemma getn_bind2 : forall A h h' i (k k' : node -> res (A * st)), mtw h h' -> In i own -> (forall nd, getn h i = Ok nd -> node_within nd -> sim2 (k nd) (k' nd)) -> sim2 (bind (getn h i) k) (bind (getn h' i) k').
Proof. intros A h h' i k k' M I F. rewrite (getn_m h h' i M I). destruct (getn h i) as [nd|] eqn:G; [apply F; [reflexivity|exact (getn_in h h' i nd M I G)]|reflexivity]. Qed.
Lemma getp_bind : forall h h' p (k k' : node -> res st), mtw h h' -> within own p -> (forall nd, getp h p = Ok nd -> node_within nd -> sim (k nd) (k' nd)) -> sim (bind (getp h p) k) (bind (getp h' p) k').
Proof. intros h h' i k k' M I F. rewrite (getp_m h h' i M I). destruct (getp h i) as [nd|] eqn:G; [apply F; [reflexivity|exact (getp_in h h' i nd M I G)]|reflexivity]. Qed.
Lemma getp_bind2 : forall A h h' p (k k' : node -> res (A * st)), mtw h h' -> within own p -> (forall nd, getp h p = Ok nd -> node_within nd -> sim2 (k nd) (k' nd)) -> sim2 (bind (getp h p) k) (bind (getp h' p) k').
Proof. intros A h h' i k k' M I F. rewrite (getp_m h h' i M I). destruct (getp h i) as [nd|] eqn:G; [apply F; [reflexivity|exact (getp_in h h' i nd M I G)]|reflexivity]. Qed.
Lemma path_bind2 : forall A pm h h' r t (k k' : option nat -> res (A * st)), mtw h h' -> within own r -> (forall q, within own q -> sim2 (k q) (k' q)) ->
  sim2 (bind (ush_node_get_by_path pm h r t) k) (bind (ush_node_get_by_path pm h' r t) k').
Proof. intros A pm h h' r t k k' M R F. destruct (get_by_path_m pm h h' r t M R) as (-> & W). destruct (ush_node_get_by_path pm h r t); [apply F, W; reflexivity|reflexivity]. Qed.
Lemma path_bind : forall pm h h' r t (k k' : option nat -> res st), mtw h h' -> within own r -> (forall q, within own q -> sim (k q) (k' q)) ->
  sim (bind (ush_node_get_by_path pm h r t) k) (bind (ush_node_get_by_path pm h' r t) k').
Proof. intros pm h h' r t k k' M R F. destruct (get_by_path_m pm h h' r t M R) as (-> & W). destruct (ush_node_get_by_path pm h r t); [apply F, W; reflexivity|reflexivity]. Qed.
Lemma parent_bind2 : forall A pm h h' r t (k k' : option nat -> res (A * st)), mtw h h' -> within own r -> (forall q, within own q -> sim2 (k q) (k' q)) ->
  sim2 (bind (ush_node_get_parent_by_path pm h r t) k) (bind (ush_node_get_parent_by_path pm h' r t) k').
Proof. intros A pm h h' r t k k' M R F. destruct (get_parent_m pm h h' r t M R) as (-> & W). destruct (ush_node_get_parent_by_path pm h r t); [apply F, W; reflexivity|reflexivity]. Qed.

(** Tactics: [tws] proves [tw] of an updated state, [walk] follows the code. *)
Ltac tws := unfold tw, ptrs, node_within in *; repeat match goal with H : _ /\ _ |- _ => destruct H end;
  repeat match goal with |- _ /\ _ => split end; try assumption; try exact I;
  match goal with
  | |- mtw _ _ => assumption
  | |- within _ _ => first [assumption|exact I]
  | |- In _ _ => assumption
  end.
Ltac mt := match goal with T : tw ?s ?h |- mtw _ ?h => exact (proj2 T) | M : mtw _ ?h |- mtw _ ?h => exact M end.
Ltac wn := unfold tw, ptrs, node_within in *; repeat match goal with H : _ /\ _ |- _ => destruct H end; first [assumption|exact I].
Ltac walk1 := first
  [ progress cbv zeta
  | progress autorewrite with push
  | match goal with
    | |- sim (Err _) (Err _) => reflexivity
    | |- sim2 (Err _) (Err _) => reflexivity
    | |- sim (Ok _) (Ok (set_hp _ _)) => apply sim_ok; tws
    | |- sim2 (Ok (_, _)) (Ok (_, set_hp _ _)) => apply sim2_ok; tws
    | |- sim (bind (Ok _) _) _ => cbn [bind]
    | |- sim2 (bind (Ok _) _) _ => cbn [bind]
    | |- sim (bind ?r _) (bind ?r _) => let E := fresh "E" in destruct r eqn:E; cbn [bind]; [|reflexivity]
    | |- sim2 (bind ?r _) (bind ?r _) => let E := fresh "E" in destruct r eqn:E; cbn [bind]; [|reflexivity]
    | |- sim (match ?x with _ => _ end) (match ?x with _ => _ end) => let E := fresh "E" in destruct x eqn:E
    | |- sim2 (match ?x with _ => _ end) (match ?x with _ => _ end) => let E := fresh "E" in destruct x eqn:E
    | |- sim (bind (getn _ _) _) _ => apply getn_bind; [mt|wn|intros]
    | |- sim2 (bind (getn _ _) _) _ => apply getn_bind2; [mt|wn|intros]
    | |- sim (bind (getp _ _) _) _ => apply getp_bind; [mt|wn|intros]
    | |- sim2 (bind (getp _ _) _) _ => apply getp_bind2; [mt|wn|intros]
    end ].

Lemma write_pointer_m : forall p n s h', tw s h' -> sim (ush_write_pointer p n s) (ush_write_pointer p n (set_hp h' s)).
Proof. intros p n s h' T. unfold ush_write_pointer. replace (wptr_strlen p (set_hp h' s)) with (wptr_strlen p s) by (destruct p; reflexivity). repeat walk1. Qed.
Lemma write_service_m : forall i s h', tw s h' -> sim2 (ush_write_service i s) (ush_write_service i (set_hp h' s)).
Proof.
  intros i s h' T. unfold ush_write_service. autorewrite with push. destruct (o_state s); try (repeat walk1; fail).
  apply sim_bind2; [|intros; repeat walk1]. unfold ush_write_char. autorewrite with push. change (wbuf_rd (set_hp h' s) (o_wpos s)) with (wbuf_rd s (o_wpos s)).
  repeat walk1.
Qed.
Lemma printf_m : forall x s h', tw s h' -> sim (ush_printf x s) (ush_printf x (set_hp h' s)).
Proof.
  intros x s h' T. unfold ush_printf. cbv zeta. apply sim_bind.
  - autorewrite with push. destruct (o_wbuf s) as [[]|]; repeat walk1; apply write_pointer_m; tws.
  - clear T. intros s1 h1 T. repeat walk1.
Qed.
Lemma prompt_service_m : forall s h', tw s h' -> sim2 (ush_prompt_service s) (ush_prompt_service (set_hp h' s)).
Proof. intros s h' T. unfold ush_prompt_service. repeat walk1. Qed.
Lemma reset_service_m : forall s h', tw s h' -> sim2 (ush_reset_service s) (ush_reset_service (set_hp h' s)).
Proof. intros s h' T. unfold ush_reset_service. repeat walk1. Qed.
Lemma reset_m : forall s h', tw s h' -> sim (Ok (ush_reset s)) (Ok (ush_reset (set_hp h' s))).
Proof. intros s h' T. rewrite push_ush_reset. apply sim_ok. unfold ush_reset. tws. Qed.
Lemma echo_service_m : forall c s h', tw s h' -> sim (ush_read_echo_service c s) (ush_read_echo_service c (set_hp h' s)).
Proof. intros c s h' T. unfold ush_read_echo_service. repeat walk1. apply write_pointer_m; tws. Qed.
Lemma escape_m : forall c s h', tw s h' -> sim2 (ush_read_char_by_escape_state c s) (ush_read_char_by_escape_state c (set_hp h' s)).
Proof. intros c s h' T. unfold ush_read_char_by_escape_state. repeat walk1. Qed.
Lemma read_char_m : forall i s h', tw s h' -> sim2 (ush_read_char i s) (ush_read_char i (set_hp h' s)).
Proof.
  intros i s h' T. unfold ush_read_char. destruct (io_rd i) as [c|]; [|repeat walk1]. cbv zeta. apply sim2_bind2.
  - autorewrite with push. destruct (ceq c ETX); [repeat walk1|]. destruct (ceq c BS || ceq c DEL); [repeat walk1|].
    destruct (ceq c TAB); [destruct (cfg_autocomp _); repeat walk1|]. destruct (ceq c ESC); [repeat walk1|]. apply escape_m. tws.
  - clear T. intros echo s1 h1 T. apply sim_bind2; [destruct echo; [apply echo_service_m; tws|repeat walk1]|]. clear T. intros s2 h2 T. repeat walk1.
Qed.
Lemma read_service_m : forall i s h', tw s h' -> sim2 (ush_read_service i s) (ush_read_service i (set_hp h' s)).
Proof.
  intros i s h' T. unfold ush_read_service. autorewrite with push. destruct (o_state s); try (repeat walk1; fail).
  - apply sim_bind2; [unfold ush_read_start; repeat walk1|]. intros s1 h1 T1. repeat walk1.
  - apply sim2_bind2; [apply read_char_m; exact T|]. intros r s1 h1 T1. repeat walk1.
Qed.

(** ** The tree *)
Ltac ms := first [apply msim_bind2|apply msim_bind]; [apply setn_m; [mt|wn|unfold node_within; cbn [n_parent n_children n_next with_mount with_next with_children with_parent node_zero]; repeat split; wn]|intros].
Lemma mount_m : forall path id fs s h', tw s h' -> In id own -> sim2 (ush_node_mount path id fs s) (ush_node_mount path id fs (set_hp h' s)).
Proof.
  intros path id fs s h' T I0. unfold ush_node_mount. repeat walk1. ms. autorewrite with push.
  apply path_bind2; [mt|wn|]. intros q Q. destruct q as [j|].
  - exists h'0. split; [reflexivity|tws].
  - apply parent_bind2; [mt|wn|]. intros q Q'. destruct q as [j|].
    + cbn [within] in Q'. repeat walk1. ms. repeat walk1. ms. repeat walk1. ms. exists h'3. split; [reflexivity|tws].
    + destruct (beq path (lit "/")); [|exists h'0; split; [reflexivity|tws]]. repeat walk1. ms.
      exists h'1. split; [reflexivity|tws].
Qed.

Lemma set_dir_m : forall path s h', tw s h' -> sim2 (ush_node_set_current_dir path s) (ush_node_set_current_dir path (set_hp h' s)).
Proof.
  intros path s h' T. unfold ush_node_set_current_dir. destruct path as [|c r]; [repeat walk1|]. autorewrite with push. cbv zeta.
  rewrite (abs_path_m _ (hp s) h') by wn. destruct (abs_path_str _ _ _ _) as [abs|]; cbn [bind]; [|reflexivity].
  apply path_bind2; [mt|wn|]. intros q Q. destruct q as [j|]; repeat walk1.
Qed.
Lemma unmount_m : forall path s h', tw s h' -> sim2 (ush_node_unmount path s) (ush_node_unmount path (set_hp h' s)).
Proof.
  intros path s h' T. unfold ush_node_unmount. autorewrite with push. cbv zeta.
  apply parent_bind2; [mt|wn|]. intros p P. apply path_bind2; [mt|wn|]. intros q Q. destruct q as [i|]; [|repeat walk1]. cbn [within] in Q.
  repeat walk1. rewrite (len_m (hp s) h') by wn.
  match goal with |- context [find_prev ?f (hp s) ?i None ?c] => destruct (find_prev_m f (hp s) h' i None c) as (-> & F); [wn|exact I|wn|]; destruct (find_prev f (hp s) i None c) as [[[q|]|]|] end;
    cbn [bind]; repeat walk1.
  - destruct (F _ eq_refl) as (F1 & F2). cbn [within] in F1. repeat walk1. ms. exists h'0. split; [reflexivity|tws].
  - ms. exists h'0. split; [reflexivity|tws].
Qed.
Lemma cmd_add_m : forall id fs s h', tw s h' -> In id own -> sim2 (ush_commands_add id fs s) (ush_commands_add id fs (set_hp h' s)).
Proof. intros id fs s h' T I0. unfold ush_commands_add. repeat walk1. ms. exists h'0. split; [reflexivity|tws]. Qed.
Lemma cmd_remove_m : forall id s h', tw s h' -> sim2 (ush_commands_remove id s) (ush_commands_remove id (set_hp h' s)).
Proof.
  intros id s h' T. unfold ush_commands_remove. autorewrite with push. cbv zeta. rewrite (len_m (hp s) h') by wn.
  destruct (find_prev_m (S (length (hp s))) (hp s) h' id None (o_cmds s)) as (-> & F); [wn|exact I|wn|].
  destruct (find_prev (S (length (hp s))) (hp s) id None (o_cmds s)) as [[[q|]|]|]; cbn [bind]; try (repeat walk1; fail).
  - destruct (F _ eq_refl) as (F1 & F2). cbn [within] in F1. repeat walk1. ms. exists h'0. split; [reflexivity|tws].
  - destruct (F _ eq_refl) as (F1 & F2). repeat walk1.
Qed.
Lemma deinit_rec_m : forall f h h' c, mtw h h' -> within own c -> msim (ush_node_deinit_recursive f h c) (ush_node_deinit_recursive f h' c).
Proof.
  induction f as [|f IH]; intros h h' c M W; destruct c as [i|]; cbn [ush_node_deinit_recursive]; try (exists h'; auto; fail); [reflexivity|].
  rewrite (getn_m h h' i M W). destruct (getn h i) as [nd|] eqn:G; cbn [bind]; [|reflexivity]. pose proof (getn_in h h' i nd M W G) as (N1 & N2 & N3).
  apply msim_bindm; [destruct (n_children nd) as [k|]; [apply IH; auto|exists h'; auto]|]. clear dependent nd. clear M. clear h h'. intros h h' M.
  rewrite (getn_m h h' i M W). destruct (getn h i) as [nd|] eqn:G; cbn [bind]; [|reflexivity]. pose proof (getn_in h h' i nd M W G) as (N1 & N2 & N3).
  apply msim_bindm; [apply setn_m; [exact M|exact W|repeat split]|]. intros h1 h1' M1. apply IH; auto.
Qed.
Lemma deinit_m : forall s h', tw s h' -> sim (ush_deinit s) (ush_deinit (set_hp h' s)).
Proof.
  intros s h' T. unfold ush_deinit. autorewrite with push. rewrite (len_m (hp s) h') by wn.
  apply msim_bind; [apply deinit_rec_m; wn|]. intros h1 h1' M1. ms. exists h'0. split; [reflexivity|]. split; [|exact H]. unfold ptrs; cbn. destruct T as ((_ & _ & _ & _ & _ & B) & _). auto 10.
Qed.
Lemma init_m : forall d ib ob s h', tw s h' -> sim (ush_init d ib ob s) (ush_init d ib ob (set_hp h' s)).
Proof.
  intros d ib ob s h' T. unfold ush_init. repeat walk1. apply sim_bind.
  - destruct (cfg_commands (d_cfg d)); repeat walk1. apply sim2_bind; [apply cmd_add_m; [tws|wn]|]. intros ? s1 h1 T1. repeat walk1.
  - clear T. intros s1 h1 T. apply reset_m. exact T.
Qed.

(** ** Callbacks *)
Lemma action_m : forall args a s h', tw s h' -> hands own a -> sim (do_action args a s) (do_action args a (set_hp h' s)).
Proof.
  intros args a s h' T H. destruct a; cbn [do_action hands] in *; try (apply write_pointer_m; exact T); try (repeat walk1; fail).
  - destruct (nth_error args i); [apply write_pointer_m; exact T|]. repeat walk1.
  - apply printf_m; exact T.
  - apply sim2_bind; [apply set_dir_m; exact T|intros; repeat walk1].
  - apply sim2_bind; [apply mount_m; auto|intros; repeat walk1].
  - apply sim2_bind; [apply unmount_m; auto|intros; repeat walk1].
  - apply sim2_bind; [apply cmd_add_m; auto|intros; repeat walk1].
  - apply sim2_bind; [apply cmd_remove_m; auto|intros; repeat walk1].
Qed.
Lemma actions_m : forall args l s h', tw s h' -> Forall (hands own) l -> sim (do_actions args l s) (do_actions args l (set_hp h' s)).
Proof.
  intros args l; induction l as [|a l IH]; intros s h' T H; cbn [do_actions]; [repeat walk1|]. inversion H; subst.
  apply sim_bind; [apply action_m; auto|]. intros s1 h1 T1. apply IH; auto.
Qed.
Ltac found := match goal with T : tw ?s ?h |- context [ush_file_find_by_name ?n (set_hp ?h ?s)] => rewrite (find_by_name_m n s h T) end.
Lemma call_get_m : forall e cb g s h', tw s h' -> (forall n f, Forall (hands own) (g_calls (e_get e n f))) -> sim2 (call_get e cb g s) (call_get e cb g (set_hp h' s)).
Proof.
  intros e cb g s h' T H. unfold call_get. cbv zeta. autorewrite with push. apply sim_bind2; [apply actions_m; [tws|apply H]|].
  intros s1 h1 T1. repeat walk1.
Qed.
Lemma call_exec_m : forall e cb f args argv s h', tw s h' -> env_hands own e -> sim (call_exec e cb f args argv s) (call_exec e cb f args argv (set_hp h' s)).
Proof.
  intros e cb f args argv s h' T (He & Hs & Hg & _). unfold call_exec. cbv zeta. autorewrite with push.
  set (s1 := emit _ s). assert (T1 : tw s1 h') by (subst s1; tws). clearbody s1. clear T s. rename s1 into s, T1 into T.
  destruct cb.
  - unfold help_callback. destruct argv as [|? [|? [|]]]; try (repeat walk1; fail). found. repeat walk1. apply write_pointer_m. tws.
  - unfold ls_callback. destruct argv as [|? [|p [|]]]; try (repeat walk1; fail). cbv zeta. autorewrite with push. rewrite (abs_path_m _ (hp s) h') by wn.
    destruct (abs_path_str _ _ _ _) as [abs|]; cbn [bind]; [|reflexivity]. apply path_bind; [mt|wn|]. intros q Q. destruct q; repeat walk1.
  - unfold cd_callback. destruct argv as [|? [|p [|]]]; try (repeat walk1; fail). apply sim2_bind; [apply set_dir_m; exact T|]. intros a s1 h1 T1. repeat walk1.
  - unfold pwd_callback. destruct argv as [|? [|p]]; try (repeat walk1; fail). repeat walk1. apply write_pointer_m. exact T.
  - unfold cat_callback. rewrite (cat_check_m (tl argv) s h' T). repeat walk1.
  - unfold xxd_callback. destruct argv as [|? [|p [|]]]; try (repeat walk1; fail). found. repeat walk1. apply sim2_bind; [apply call_get_m; auto|].
    intros r s1 h1 T1. destruct (g_ptr r); repeat walk1.
  - unfold echo_callback. destruct argv as [|? [|? [|? [|? [|]]]]]; try (repeat walk1; fail).
    + repeat walk1. apply write_pointer_m. autorewrite with push. tws.
    + found. repeat walk1. apply actions_m; [tws|apply Hs].
  - apply actions_m; [exact T|apply He].
Qed.

(** ** Parsing *)
Lemma parse_finish_m : forall e s h', tw s h' -> env_hands own e -> sim (ush_parse_finish e s) (ush_parse_finish e (set_hp h' s)).
Proof.
  intros e s h' T H. unfold ush_parse_finish. change (ush_parse_get_args (set_hp h' s)) with (ush_parse_get_args s).
  destruct (ush_parse_get_args s) as [args|]; cbn [bind]; [|reflexivity]. autorewrite with push.
  destruct (arg_values (inb s) args) as [argv|]; cbn [bind]; [|reflexivity]. destruct argv as [|name r]; [repeat walk1|]. apply sim_bind.
  - destruct (d_exec (o_desc s)); [|repeat walk1]. autorewrite with push. apply actions_m; [tws|apply H].
  - clear T. intros s1 h1 T. found. repeat walk1. apply call_exec_m; auto.
Qed.
Lemma out_char_m : forall c s h', tw s h' -> sim (out_char c s) (out_char c (set_hp h' s)).
Proof. intros c s h' T. unfold out_char. repeat walk1. Qed.
Lemma out_escaped_m : forall c s h', tw s h' -> sim (out_escaped c s) (out_escaped c (set_hp h' s)).
Proof.
  intros c s h' T. unfold out_escaped. apply sim_bind; [destruct (ceq c _); [apply out_char_m; auto|repeat walk1]|].
  clear T. intros s1 h1 T. apply sim_bind; [apply out_char_m; auto|]. clear T. intros s2 h2 T. repeat walk1.
Qed.
Lemma parse_standard_m : forall c s h', tw s h' -> sim (ush_parse_char_standard c s) (ush_parse_char_standard c (set_hp h' s)).
Proof.
  intros c s h' T. unfold ush_parse_char_standard. repeat walk1;
  first [apply out_escaped_m; tws|apply out_char_m; tws|apply sim_bind; [apply out_char_m; tws|clear T; intros s1 h1 T; repeat walk1]].
Qed.
Lemma parse_service_m : forall i s h', tw s h' -> env_hands own (io_env i) -> sim2 (ush_parse_service i s) (ush_parse_service i (set_hp h' s)).
Proof.
  intros i s h' T H. unfold ush_parse_service.
  assert (P : sim (ush_parse_char (io_env i) s) (ush_parse_char (io_env i) (set_hp h' s))).
  { unfold ush_parse_char. repeat walk1.
    - apply sim_bind; [apply out_char_m; tws|]. clear T. intros s1 h1 T. autorewrite with push. apply parse_finish_m; [tws|exact H].
    - apply parse_standard_m. tws. }
  autorewrite with push. destruct (o_state s); try (repeat walk1; fail);
    (apply sim_bind2; [exact P|]; clear T; intros s1 h1 T; repeat walk1).
Qed.

(** ** Completion *)
Lemma ac_finish_m : forall s h', tw s h' -> sim (ush_autocomp_check_for_finish s) (ush_autocomp_check_for_finish (set_hp h' s)).
Proof.
  intros s h' T. unfold ush_autocomp_check_for_finish. cbv zeta. change (ac_input (set_hp h' s)) with (ac_input s). autorewrite with push.
  destruct (o_pstage s) as [|[|[|]]]; try (repeat walk1; fail). destruct (ac_input s) as [[off t]|]; cbn [bind]; [|reflexivity].
  rewrite (abs_path_m _ (hp s) h') by wn. destruct (abs_path_str _ _ _ _) as [abs|]; cbn [bind]; [|reflexivity].
  assert (P : forall pn, within own pn -> sim (nd <- getp (hp s) pn ;; Ok (set_pstage 2 (set_pitem 0 (set_pidx 0 (set_pnode (n_children nd) s)))))
     (nd <- getp h' pn ;; Ok (set_pstage 2 (set_pitem 0 (set_pidx 0 (set_pnode (n_children nd) (set_hp h' s))))))).
  { intros pn W. repeat walk1. }
  destruct t as [|c t]; cbn [bind]; [apply P; wn|].
  destruct (get_parent_m (d_pathmax (o_desc s)) (hp s) h' (o_root s) abs) as (-> & F); [wn|wn|].
  destruct (ush_node_get_parent_by_path _ _ _ _) as [[j|]|]; cbn [bind]; [| |reflexivity]; apply P; [exact (F _ eq_refl)|wn].
Qed.
Lemma ac_next_m : forall s h', tw s h' -> sim2 (ush_autocomp_check_for_next s) (ush_autocomp_check_for_next (set_hp h' s)).
Proof. intros s h' T. unfold ush_autocomp_check_for_next. repeat walk1. Qed.
Lemma ac_prepare_m : forall s h', tw s h' -> sim2 (ush_autocomp_process_file_prepare s) (ush_autocomp_process_file_prepare (set_hp h' s)).
Proof. intros s h' T. unfold ush_autocomp_process_file_prepare. change (ac_input (set_hp h' s)) with (ac_input s). repeat walk1. Qed.
Lemma ac_index_m : forall f s h', tw s h' -> sim (ush_autocomp_process_file_index f s) (ush_autocomp_process_file_index f (set_hp h' s)).
Proof.
  intros f s h' T. unfold ush_autocomp_process_file_index. cbv zeta. autorewrite with push.
  destruct (o_pidx s) as [|[|[|]]]; destruct (fsm_eqb (o_state s) S_AC_PRINT); repeat walk1;
  match goal with |- sim (bind (bind ?r _) _) _ => destruct r; cbn [bind]; repeat walk1 | |- sim (bind (Ok _) _) _ => cbn [bind]; repeat walk1 end.
Qed.
Lemma ac_optimize_m : forall s h', tw s h' -> sim (ush_autocomp_optimize_continue s) (ush_autocomp_optimize_continue (set_hp h' s)).
Proof.
  intros s h' T. unfold ush_autocomp_optimize_continue. cbv zeta. rewrite push_acprevc. change (ac_input (set_hp h' ?x)) with (ac_input x).
  autorewrite with push. change (ac_input (set_hp h' (set_acprevc (o_account s) s))) with (ac_input (set_acprevc (o_account s) s)).
  repeat walk1.
Qed.
Lemma autocomp_service_m : forall s h', tw s h' -> sim2 (ush_autocomp_service s) (ush_autocomp_service (set_hp h' s)).
Proof.
  intros s h' T. unfold ush_autocomp_service. autorewrite with push.
  assert (P : sim (ush_autocomp_state_candidates_process s) (ush_autocomp_state_candidates_process (set_hp h' s))).
  { unfold ush_autocomp_state_candidates_process. autorewrite with push. destruct (o_pnode s); [|apply ac_finish_m; exact T].
    apply sim2_bind; [apply ac_next_m; exact T|]. clear T. intros nx s1 h1 T. destruct nx; [repeat walk1|].
    apply sim2_bind; [apply ac_prepare_m; exact T|]. clear T. intros [[] f] s2 h2 T; [repeat walk1|apply ac_index_m; exact T]. }
  destruct (o_state s); try (repeat walk1; fail); (apply sim_bind2; [|clear T; intros s1 h1 T; repeat walk1]); try exact P.
  - unfold ush_autocomp_state_prepare. repeat walk1.
  - unfold ush_autocomp_state_candidates_finish. change (ac_input (set_hp h' s)) with (ac_input s). repeat walk1.
    + apply write_pointer_m. tws.
    + apply ac_optimize_m. tws.
    + apply ac_optimize_m. tws.
  - apply write_pointer_m. exact T.
  - unfold ush_autocomp_state_recall_suffix. change (ac_input (set_hp h' s)) with (ac_input s). repeat walk1. apply write_pointer_m. exact T.
Qed.

(** ** Processes *)
Lemma print_out_m : forall t n s h', tw s h' -> sim (print_out t n s) (print_out t n (set_hp h' s)).
Proof. intros t n s h' T. unfold print_out. repeat walk1. apply write_pointer_m. tws. Qed.
Lemma process_service_m : forall i s h', tw s h' -> env_hands own (io_env i) -> sim2 (ush_process_service i s) (ush_process_service i (set_hp h' s)).
Proof.
  intros i s h' T (_ & _ & Hg & H). unfold ush_process_service. autorewrite with push.
  assert (Ph : sim (help_service s) (help_service (set_hp h' s))).
  { unfold help_service. autorewrite with push. cbv zeta. destruct (o_state s); try (repeat walk1; fail). destruct (o_pnode s) as [n|] eqn:En; [|repeat walk1].
    assert (In n own) by (unfold tw, ptrs in T; rewrite En in T; cbn [within] in T; tauto). repeat walk1; apply print_out_m; tws. }
  assert (Pl : sim (ls_service s) (ls_service (set_hp h' s))).
  { unfold ls_service. autorewrite with push. cbv zeta. destruct (o_state s); try (repeat walk1; fail).
    - destruct (o_pchild s) as [n|] eqn:En; [|repeat walk1].
      assert (In n own) by (unfold tw, ptrs in T; rewrite En in T; cbn [within] in T; tauto). repeat walk1.
    - repeat walk1; try (apply print_out_m; tws). apply sim_bind; [apply print_out_m; exact T|]. intros s1 h1 T1. repeat walk1. }
  assert (Pc : sim (cat_service (io_env i) s) (cat_service (io_env i) (set_hp h' s))).
  { unfold cat_service. autorewrite with push. destruct (o_state s); try (repeat walk1; fail).
    change (ush_parse_get_args (set_hp h' s)) with (ush_parse_get_args s). repeat walk1. found. repeat walk1.
    apply sim2_bind; [apply call_get_m; auto|]. intros r s1 h1 T1. destruct (g_ptr r); repeat walk1. }
  assert (Px : sim (xxd_service s) (xxd_service (set_hp h' s))).
  { unfold xxd_service. autorewrite with push. cbv zeta. destruct (o_state s); try (repeat walk1; fail).
    assert (Xh : forall n off b, xxd_hex n off (set_hp h' s) b = xxd_hex n off s b) by (induction n; intros; cbn [xxd_hex]; [reflexivity|]; autorewrite with push; change (pdata_rd (set_hp h' s)) with (pdata_rd s); destruct (off <? o_pdsize s); [destruct (pdata_rd s off); cbn [bind]; [|reflexivity]; destruct (c_strlen b 0); cbn [bind]; [|reflexivity]|];
       match goal with |- bind ?x _ = bind ?x _ => destruct x; cbn [bind]; auto end).
    assert (Xc : forall n off b, xxd_chr n off (set_hp h' s) b = xxd_chr n off s b) by (induction n; intros; cbn [xxd_chr]; [reflexivity|]; autorewrite with push; change (pdata_rd (set_hp h' s)) with (pdata_rd s);
       match goal with |- bind ?x _ = bind ?x _ => destruct x; cbn [bind]; auto end).
    destruct (o_pidx s) as [|[|[|[|]]]]; try (repeat walk1; fail).
    - apply sim_bind; [apply print_out_m; exact T|]. intros s1 h1 T1. repeat walk1.
    - repeat walk1. rewrite Xh. repeat walk1. apply sim_bind; [apply write_pointer_m; tws|]. intros s1 h1 T1. repeat walk1.
    - repeat walk1. rewrite Xc. repeat walk1. apply sim_bind; [apply write_pointer_m; tws|]. intros s1 h1 T1. repeat walk1. }
  assert (P : forall f p, sim (match p with PHelp => help_service s | PLs => ls_service s | PCat => cat_service (io_env i) s | PXxd => xxd_service s
      | PUser n => do_actions [] (e_proc (io_env i) n (f_name f)) (emit (EvProc n (f_name f)) s) end)
      (match p with PHelp => help_service (set_hp h' s) | PLs => ls_service (set_hp h' s) | PCat => cat_service (io_env i) (set_hp h' s) | PXxd => xxd_service (set_hp h' s)
      | PUser n => do_actions [] (e_proc (io_env i) n (f_name f)) (emit (EvProc n (f_name f)) (set_hp h' s)) end)).
  { intros f p. destruct p; auto. autorewrite with push. apply actions_m; [tws|apply H]. }
  destruct (o_state s); try (repeat walk1; fail); (destruct (o_pfile s) as [f|]; [|reflexivity]; destruct (f_proc f) as [p|]; [|repeat walk1];
    apply sim_bind2; [apply P|]; intros s1 h1 T1; repeat walk1).
Qed.

Lemma service_m : forall i s h', tw s h' -> env_hands own (io_env i) -> sim2 (ush_service i s) (ush_service i (set_hp h' s)).
Proof.
  intros i s h' T H. unfold ush_service. autorewrite with push. destruct (o_cur s); [|reflexivity].
  apply sim2_bind2; [apply reset_service_m; exact T|]. clear T s h'. intros [] s h' T; [repeat walk1|].
  apply sim2_bind2; [apply prompt_service_m; exact T|]. clear T s h'. intros [] s h' T; [repeat walk1|].
  apply sim2_bind2; [apply read_service_m; exact T|]. clear T s h'. intros [[] b] s h' T; cbn [fst snd]; [repeat walk1|].
  apply sim2_bind2; [autorewrite with push; destruct (cfg_autocomp _); [apply autocomp_service_m; exact T|repeat walk1]|]. clear T s h'. intros [] s h' T; [repeat walk1|].
  apply sim2_bind2; [apply parse_service_m; auto|]. clear T s h'. intros [] s h' T; [repeat walk1|].
  apply sim2_bind2; [apply write_service_m; auto|]. clear T s h'. intros [] s h' T; [repeat walk1|].
  apply process_service_m; auto.
Qed.
Lemma perform_m : forall x s h', tw s h' -> deed_hands own x -> sim (perform x s) (perform x (set_hp h' s)).
Proof.
  intros [d ib ob|[i|a]|] s h' T H; cbn [perform step deed_hands] in *.
  - apply init_m; exact T.
  - apply sim2_bind; [apply service_m; auto|]. intros a s1 h1 T1. repeat walk1.
  - apply action_m; auto.
  - apply deinit_m; exact T.
Qed.
End Own.
