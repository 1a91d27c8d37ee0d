(** * HostFacts: only the prompt reads the host name. *)
From Coq Require Import Lia.
From Verif Require Import Shell BaseFacts LogFacts Sched ServiceFacts Host.

Lemma r_push_state : forall v h s, set_state v (renamed h s) = renamed h (set_state v s). Proof. reflexivity. Qed.
Lemma r_push_wnext : forall v h s, set_wnext v (renamed h s) = renamed h (set_wnext v s). Proof. reflexivity. Qed.
Lemma r_push_pnext : forall v h s, set_pnext v (renamed h s) = renamed h (set_pnext v s). Proof. reflexivity. Qed.
Lemma r_push_wbuf : forall v h s, set_wbuf v (renamed h s) = renamed h (set_wbuf v s). Proof. reflexivity. Qed.
Lemma r_push_wsize : forall v h s, set_wsize v (renamed h s) = renamed h (set_wsize v s). Proof. reflexivity. Qed.
Lemma r_push_wpos : forall v h s, set_wpos v (renamed h s) = renamed h (set_wpos v s). Proof. reflexivity. Qed.
Lemma r_push_esc : forall v h s, set_esc v (renamed h s) = renamed h (set_esc v s). Proof. reflexivity. Qed.
Lemma r_push_inpos : forall v h s, set_inpos v (renamed h s) = renamed h (set_inpos v s). Proof. reflexivity. Qed.
Lemma r_push_outpos : forall v h s, set_outpos v (renamed h s) = renamed h (set_outpos v s). Proof. reflexivity. Qed.
Lemma r_push_argc : forall v h s, set_argc v (renamed h s) = renamed h (set_argc v s). Proof. reflexivity. Qed.
Lemma r_push_escf : forall v h s, set_escf v (renamed h s) = renamed h (set_escf v s). Proof. reflexivity. Qed.
Lemma r_push_cmds : forall v h s, set_cmds v (renamed h s) = renamed h (set_cmds v s). Proof. reflexivity. Qed.
Lemma r_push_root : forall v h s, set_root v (renamed h s) = renamed h (set_root v s). Proof. reflexivity. Qed.
Lemma r_push_cur : forall v h s, set_cur v (renamed h s) = renamed h (set_cur v s). Proof. reflexivity. Qed.
Lemma r_push_buildin : forall v h s, set_buildin v (renamed h s) = renamed h (set_buildin v s). Proof. reflexivity. Qed.
Lemma r_push_pnode : forall v h s, set_pnode v (renamed h s) = renamed h (set_pnode v s). Proof. reflexivity. Qed.
Lemma r_push_pchild : forall v h s, set_pchild v (renamed h s) = renamed h (set_pchild v s). Proof. reflexivity. Qed.
Lemma r_push_pfile : forall v h s, set_pfile v (renamed h s) = renamed h (set_pfile v s). Proof. reflexivity. Qed.
Lemma r_push_pidx : forall v h s, set_pidx v (renamed h s) = renamed h (set_pidx v s). Proof. reflexivity. Qed.
Lemma r_push_pitem : forall v h s, set_pitem v (renamed h s) = renamed h (set_pitem v s). Proof. reflexivity. Qed.
Lemma r_push_pdata : forall v h s, set_pdata v (renamed h s) = renamed h (set_pdata v s). Proof. reflexivity. Qed.
Lemma r_push_pdsize : forall v h s, set_pdsize v (renamed h s) = renamed h (set_pdsize v s). Proof. reflexivity. Qed.
Lemma r_push_pstage : forall v h s, set_pstage v (renamed h s) = renamed h (set_pstage v s). Proof. reflexivity. Qed.
Lemma r_push_acprev : forall v h s, set_acprev v (renamed h s) = renamed h (set_acprev v s). Proof. reflexivity. Qed.
Lemma r_push_acin : forall v h s, set_acin v (renamed h s) = renamed h (set_acin v s). Proof. reflexivity. Qed.
Lemma r_push_accand : forall v h s, set_accand v (renamed h s) = renamed h (set_accand v s). Proof. reflexivity. Qed.
Lemma r_push_acname : forall v h s, set_acname v (renamed h s) = renamed h (set_acname v s). Proof. reflexivity. Qed.
Lemma r_push_account : forall v h s, set_account v (renamed h s) = renamed h (set_account v s). Proof. reflexivity. Qed.
Lemma r_push_acprevc : forall v h s, set_acprevc v (renamed h s) = renamed h (set_acprevc v s). Proof. reflexivity. Qed.
Lemma r_push_acsuf : forall v h s, set_acsuf v (renamed h s) = renamed h (set_acsuf v s). Proof. reflexivity. Qed.
Lemma r_push_inb : forall v h s, set_inb v (renamed h s) = renamed h (set_inb v s). Proof. reflexivity. Qed.
Lemma r_push_outb : forall v h s, set_outb v (renamed h s) = renamed h (set_outb v s). Proof. reflexivity. Qed.
Lemma r_push_lg : forall v h s, set_lg v (renamed h s) = renamed h (set_lg v s). Proof. reflexivity. Qed.
Lemma r_push_emit : forall v h s, emit v (renamed h s) = renamed h (emit v s). Proof. reflexivity. Qed.
Lemma r_get_o_state : forall h s, o_state (renamed h s) = o_state s. Proof. reflexivity. Qed.
Lemma r_get_o_wnext : forall h s, o_wnext (renamed h s) = o_wnext s. Proof. reflexivity. Qed.
Lemma r_get_o_pnext : forall h s, o_pnext (renamed h s) = o_pnext s. Proof. reflexivity. Qed.
Lemma r_get_o_wbuf : forall h s, o_wbuf (renamed h s) = o_wbuf s. Proof. reflexivity. Qed.
Lemma r_get_o_wsize : forall h s, o_wsize (renamed h s) = o_wsize s. Proof. reflexivity. Qed.
Lemma r_get_o_wpos : forall h s, o_wpos (renamed h s) = o_wpos s. Proof. reflexivity. Qed.
Lemma r_get_o_esc : forall h s, o_esc (renamed h s) = o_esc s. Proof. reflexivity. Qed.
Lemma r_get_o_inpos : forall h s, o_inpos (renamed h s) = o_inpos s. Proof. reflexivity. Qed.
Lemma r_get_o_outpos : forall h s, o_outpos (renamed h s) = o_outpos s. Proof. reflexivity. Qed.
Lemma r_get_o_argc : forall h s, o_argc (renamed h s) = o_argc s. Proof. reflexivity. Qed.
Lemma r_get_o_escf : forall h s, o_escf (renamed h s) = o_escf s. Proof. reflexivity. Qed.
Lemma r_get_o_cmds : forall h s, o_cmds (renamed h s) = o_cmds s. Proof. reflexivity. Qed.
Lemma r_get_o_root : forall h s, o_root (renamed h s) = o_root s. Proof. reflexivity. Qed.
Lemma r_get_o_cur : forall h s, o_cur (renamed h s) = o_cur s. Proof. reflexivity. Qed.
Lemma r_get_o_buildin : forall h s, o_buildin (renamed h s) = o_buildin s. Proof. reflexivity. Qed.
Lemma r_get_o_pnode : forall h s, o_pnode (renamed h s) = o_pnode s. Proof. reflexivity. Qed.
Lemma r_get_o_pchild : forall h s, o_pchild (renamed h s) = o_pchild s. Proof. reflexivity. Qed.
Lemma r_get_o_pfile : forall h s, o_pfile (renamed h s) = o_pfile s. Proof. reflexivity. Qed.
Lemma r_get_o_pidx : forall h s, o_pidx (renamed h s) = o_pidx s. Proof. reflexivity. Qed.
Lemma r_get_o_pitem : forall h s, o_pitem (renamed h s) = o_pitem s. Proof. reflexivity. Qed.
Lemma r_get_o_pdata : forall h s, o_pdata (renamed h s) = o_pdata s. Proof. reflexivity. Qed.
Lemma r_get_o_pdsize : forall h s, o_pdsize (renamed h s) = o_pdsize s. Proof. reflexivity. Qed.
Lemma r_get_o_pstage : forall h s, o_pstage (renamed h s) = o_pstage s. Proof. reflexivity. Qed.
Lemma r_get_o_acprev : forall h s, o_acprev (renamed h s) = o_acprev s. Proof. reflexivity. Qed.
Lemma r_get_o_acin : forall h s, o_acin (renamed h s) = o_acin s. Proof. reflexivity. Qed.
Lemma r_get_o_accand : forall h s, o_accand (renamed h s) = o_accand s. Proof. reflexivity. Qed.
Lemma r_get_o_acname : forall h s, o_acname (renamed h s) = o_acname s. Proof. reflexivity. Qed.
Lemma r_get_o_account : forall h s, o_account (renamed h s) = o_account s. Proof. reflexivity. Qed.
Lemma r_get_o_acprevc : forall h s, o_acprevc (renamed h s) = o_acprevc s. Proof. reflexivity. Qed.
Lemma r_get_o_acsuf : forall h s, o_acsuf (renamed h s) = o_acsuf s. Proof. reflexivity. Qed.
Lemma r_get_inb : forall h s, inb (renamed h s) = inb s. Proof. reflexivity. Qed.
Lemma r_get_outb : forall h s, outb (renamed h s) = outb s. Proof. reflexivity. Qed.
Lemma r_get_lg : forall h s, lg (renamed h s) = lg s. Proof. reflexivity. Qed.
Lemma r_push_write_str : forall t n h s, write_str t n (renamed h s) = renamed h (write_str t n s). Proof. reflexivity. Qed.
Lemma r_push_ush_write_pointer_bin : forall p z n h s, ush_write_pointer_bin p z n (renamed h s) = renamed h (ush_write_pointer_bin p z n s). Proof. reflexivity. Qed.
Lemma r_push_ush_print_status : forall x h s, ush_print_status x (renamed h s) = renamed h (ush_print_status x s). Proof. reflexivity. Qed.
Lemma r_push_ush_prompt_start : forall n h s, ush_prompt_start n (renamed h s) = renamed h (ush_prompt_start n s). Proof. reflexivity. Qed.
Lemma r_push_ush_autocomp_start : forall  h s, ush_autocomp_start  (renamed h s) = renamed h (ush_autocomp_start  s). Proof. reflexivity. Qed.
Lemma r_push_ush_process_start : forall f h s, ush_process_start f (renamed h s) = renamed h (ush_process_start f s). Proof. reflexivity. Qed.
Lemma r_push_ush_parse_start : forall  h s, ush_parse_start  (renamed h s) = renamed h (ush_parse_start  s). Proof. reflexivity. Qed.
Lemma r_push_ush_autocomp_prepare_candidates : forall  h s, ush_autocomp_prepare_candidates  (renamed h s) = renamed h (ush_autocomp_prepare_candidates  s). Proof. reflexivity. Qed.
Lemma r_push_ush_autocomp_state_candidates_start : forall  h s, ush_autocomp_state_candidates_start  (renamed h s) = renamed h (ush_autocomp_state_candidates_start  s). Proof. reflexivity. Qed.
Lemma r_push_ush_reset : forall  h s, ush_reset  (renamed h s) = renamed h (ush_reset  s). Proof. reflexivity. Qed.
Lemma r_push_hp : forall v h s, set_hp v (renamed h s) = renamed h (set_hp v s). Proof. reflexivity. Qed.
Lemma r_get_hp : forall h s, hp (renamed h s) = hp s. Proof. reflexivity. Qed.
Lemma r_get_d_insize : forall h s, d_insize (o_desc (renamed h s)) = d_insize (o_desc s). Proof. reflexivity. Qed.
Lemma r_get_d_outsize : forall h s, d_outsize (o_desc (renamed h s)) = d_outsize (o_desc s). Proof. reflexivity. Qed.
Lemma r_get_d_pathmax : forall h s, d_pathmax (o_desc (renamed h s)) = d_pathmax (o_desc s). Proof. reflexivity. Qed.
Lemma r_get_d_exec : forall h s, d_exec (o_desc (renamed h s)) = d_exec (o_desc s). Proof. reflexivity. Qed.
Lemma r_get_d_cfg : forall h s, d_cfg (o_desc (renamed h s)) = d_cfg (o_desc s). Proof. reflexivity. Qed.
Global Hint Rewrite r_push_state r_push_wnext r_push_pnext r_push_wbuf r_push_wsize r_push_wpos r_push_esc r_push_inpos r_push_outpos r_push_argc r_push_escf r_push_cmds r_push_root r_push_cur r_push_buildin r_push_pnode r_push_pchild r_push_pfile r_push_pidx r_push_pitem r_push_pdata r_push_pdsize r_push_pstage r_push_acprev r_push_acin r_push_accand r_push_acname r_push_account r_push_acprevc r_push_acsuf r_push_inb r_push_outb r_push_lg r_push_emit r_get_o_state r_get_o_wnext r_get_o_pnext r_get_o_wbuf r_get_o_wsize r_get_o_wpos r_get_o_esc r_get_o_inpos r_get_o_outpos r_get_o_argc r_get_o_escf r_get_o_cmds r_get_o_root r_get_o_cur r_get_o_buildin r_get_o_pnode r_get_o_pchild r_get_o_pfile r_get_o_pidx r_get_o_pitem r_get_o_pdata r_get_o_pdsize r_get_o_pstage r_get_o_acprev r_get_o_acin r_get_o_accand r_get_o_acname r_get_o_account r_get_o_acprevc r_get_o_acsuf r_get_inb r_get_outb r_get_lg r_push_write_str r_push_ush_write_pointer_bin r_push_ush_print_status r_push_ush_prompt_start r_push_ush_autocomp_start r_push_ush_process_start r_push_ush_parse_start r_push_ush_autocomp_prepare_candidates r_push_ush_autocomp_state_candidates_start r_push_ush_reset r_push_hp r_get_hp r_get_d_insize r_get_d_outsize r_get_d_pathmax r_get_d_exec r_get_d_cfg : ren.

Section Name.
Variable t : bytes.
Definition rm (r : res st) : res st := match r with Ok s => Ok (renamed t s) | Err e => Err e end.
Definition rm2 {A} (r : res (A * st)) : res (A * st) := match r with Ok (a, s) => Ok (a, renamed t s) | Err e => Err e end.

Ltac inner m :=
  lazymatch m with
  | bind ?m' _ => inner m'
  | rm ?m' => inner m'
  | rm2 ?m' => inner m'
  | match ?x with _ => _ end => inner x
  | _ => let E := fresh "E" in destruct m eqn:E; rewrite ?E in *
  end.
Ltac rn1 :=
  cbn [bind rm rm2 fst snd]; autorewrite with ren; cbn [bind rm rm2 fst snd]; try reflexivity;
  match goal with
  | |- ?m = _ => lazymatch m with Ok _ => fail | Err _ => fail | _ => inner m end
  | |- _ = rm ?m => inner m
  | |- _ = rm2 ?m => inner m
  end.
Ltac rn := repeat rn1.

Lemma write_pointer_r : forall p n s, ush_write_pointer p n (renamed t s) = rm (ush_write_pointer p n s).
Proof. intros p n s. unfold ush_write_pointer, wptr_strlen. rn. Qed.
Hint Rewrite write_pointer_r : ren.
Lemma wbuf_rd_r : forall s p, wbuf_rd (renamed t s) p = wbuf_rd s p.
Proof. reflexivity. Qed.
Hint Rewrite wbuf_rd_r : ren.
Lemma write_char_r : forall r s, ush_write_char r (renamed t s) = rm (ush_write_char r s).
Proof. intros r s. unfold ush_write_char. rn. Qed.
Hint Rewrite write_char_r : ren.
Lemma printf_r : forall x s, ush_printf x (renamed t s) = rm (ush_printf x s).
Proof. intros x s. unfold ush_printf. rn. Qed.
Hint Rewrite printf_r : ren.
Lemma print_r : forall p s, ush_print p (renamed t s) = rm (ush_print p s).
Proof. intros. apply write_pointer_r. Qed.
Lemma print_nn_r : forall p s, ush_print_no_newline p (renamed t s) = rm (ush_print_no_newline p s).
Proof. intros. apply write_pointer_r. Qed.
Lemma flush_r : forall s, ush_flush (renamed t s) = rm (ush_flush s).
Proof. intros. apply write_pointer_r. Qed.
Hint Rewrite print_r print_nn_r flush_r : ren.
Lemma prompt_r : forall s, o_state s <> S_PROMPT_HOST -> ush_prompt_service (renamed t s) = rm2 (ush_prompt_service s).
Proof. intros s N. unfold ush_prompt_service. rn; contradiction. Qed.
Lemma reset_r : forall s, ush_reset_service (renamed t s) = rm2 (ush_reset_service s).
Proof. intros s. unfold ush_reset_service. rn. Qed.
Lemma echo_service_r : forall c s, ush_read_echo_service c (renamed t s) = rm (ush_read_echo_service c s).
Proof. intros c s. unfold ush_read_echo_service. rn. Qed.
Hint Rewrite echo_service_r : ren.
Lemma escape_r : forall c s, ush_read_char_by_escape_state c (renamed t s) = rm2 (ush_read_char_by_escape_state c s).
Proof. intros c s. unfold ush_read_char_by_escape_state. rn. Qed.
Hint Rewrite escape_r : ren.
Lemma read_start_r : forall s, ush_read_start (renamed t s) = rm (ush_read_start s).
Proof. intros s. unfold ush_read_start. rn. Qed.
Hint Rewrite read_start_r : ren.
Lemma read_char_r : forall i s, ush_read_char i (renamed t s) = rm2 (ush_read_char i s).
Proof. intros i s. unfold ush_read_char. rn. destruct (cfg_autocomp _); reflexivity. Qed.
Hint Rewrite read_char_r : ren.
Lemma find_by_name_r : forall n s, ush_file_find_by_name n (renamed t s) = ush_file_find_by_name n s.
Proof. reflexivity. Qed.
Hint Rewrite find_by_name_r : ren.
Lemma mount_r : forall p id fs s, ush_node_mount p id fs (renamed t s) = rm2 (ush_node_mount p id fs s).
Proof. intros p id fs s. unfold ush_node_mount. rn. Qed.
Lemma set_dir_r : forall p s, ush_node_set_current_dir p (renamed t s) = rm2 (ush_node_set_current_dir p s).
Proof. intros p s. unfold ush_node_set_current_dir. rn. Qed.
Lemma unmount_r : forall p s, ush_node_unmount p (renamed t s) = rm2 (ush_node_unmount p s).
Proof. intros p s. unfold ush_node_unmount. rn. Qed.
Lemma cadd_r : forall id fs s, ush_commands_add id fs (renamed t s) = rm2 (ush_commands_add id fs s).
Proof. intros id fs s. unfold ush_commands_add. rn. Qed.
Lemma crem_r : forall id s, ush_commands_remove id (renamed t s) = rm2 (ush_commands_remove id s).
Proof. intros id s. unfold ush_commands_remove. rn. Qed.
Hint Rewrite mount_r set_dir_r unmount_r cadd_r crem_r : ren.
Lemma action_r : forall args a s, do_action args a (renamed t s) = rm (do_action args a s).
Proof. intros args a s. destruct a; cbn [do_action]; rn. Qed.
Hint Rewrite action_r : ren.
Lemma actions_r : forall args l s, do_actions args l (renamed t s) = rm (do_actions args l s).
Proof. induction l as [|a l IH]; intros s; cbn [do_actions]; [reflexivity|]. autorewrite with ren. destruct (do_action args a s); cbn [rm bind]; [apply IH|reflexivity]. Qed.
Hint Rewrite actions_r : ren.
Lemma get_args_r : forall s, ush_parse_get_args (renamed t s) = ush_parse_get_args s.
Proof. reflexivity. Qed.
Hint Rewrite get_args_r : ren.
Lemma call_get_r : forall e cb g s, call_get e cb g (renamed t s) = rm2 (call_get e cb g s).
Proof. intros e cb g s. unfold call_get. rn. Qed.
Hint Rewrite call_get_r : ren.
Lemma cat_check_r : forall l s, cat_check l (renamed t s) = cat_check l s.
Proof. induction l as [|n l IH]; intros s; cbn [cat_check]; [reflexivity|]. autorewrite with ren. destruct (ush_file_find_by_name n s) as [[f|]|]; cbn [bind]; try reflexivity. destruct (f_get f); [apply IH|reflexivity]. Qed.
Hint Rewrite cat_check_r : ren.
Lemma call_exec_r : forall e cb f args argv s, call_exec e cb f args argv (renamed t s) = rm (call_exec e cb f args argv s).
Proof.
  intros e cb f args argv s. unfold call_exec. destruct cb; autorewrite with ren.
  - unfold help_callback. rn.
  - unfold ls_callback. rn.
  - unfold cd_callback. rn.
  - unfold pwd_callback. rn.
  - unfold cat_callback. rn.
  - unfold xxd_callback. rn. cbn [bind]. destruct (g_ptr g); reflexivity.
  - unfold echo_callback. rn.
  - rn.
Qed.
Hint Rewrite call_exec_r : ren.
Lemma parse_finish_r : forall e s, ush_parse_finish e (renamed t s) = rm (ush_parse_finish e s).
Proof. intros e s. unfold ush_parse_finish. rn. Qed.
Hint Rewrite parse_finish_r : ren.
Lemma out_char_r : forall c s, out_char c (renamed t s) = rm (out_char c s).
Proof. intros c s. unfold out_char. rn. Qed.
Hint Rewrite out_char_r : ren.
Lemma out_escaped_r : forall c s, out_escaped c (renamed t s) = rm (out_escaped c s).
Proof. intros c s. unfold out_escaped. rn. Qed.
Hint Rewrite out_escaped_r : ren.
Lemma standard_r : forall c s, ush_parse_char_standard c (renamed t s) = rm (ush_parse_char_standard c s).
Proof. intros c s. unfold ush_parse_char_standard. rn. Qed.
Hint Rewrite standard_r : ren.
Lemma parse_r : forall i s, ush_parse_service i (renamed t s) = rm2 (ush_parse_service i s).
Proof. intros i s. unfold ush_parse_service, ush_parse_char. rn. Qed.
Lemma ac_input_r : forall s, ac_input (renamed t s) = ac_input s.
Proof. reflexivity. Qed.
Hint Rewrite ac_input_r : ren.
Lemma optimize_r : forall s, ush_autocomp_optimize_continue (renamed t s) = rm (ush_autocomp_optimize_continue s).
Proof. intros s. unfold ush_autocomp_optimize_continue. rn. Qed.
Hint Rewrite optimize_r : ren.
Lemma ac_finish_r : forall s, ush_autocomp_check_for_finish (renamed t s) = rm (ush_autocomp_check_for_finish s).
Proof. intros s. unfold ush_autocomp_check_for_finish. rn. Qed.
Lemma ac_next_r : forall s, ush_autocomp_check_for_next (renamed t s) = rm2 (ush_autocomp_check_for_next s).
Proof. intros s. unfold ush_autocomp_check_for_next. rn. Qed.
Lemma ac_index_r : forall f s, ush_autocomp_process_file_index f (renamed t s) = rm (ush_autocomp_process_file_index f s).
Proof. intros f s. unfold ush_autocomp_process_file_index. change (o_state (renamed t s)) with (o_state s). destruct (fsm_eqb (o_state s) S_AC_PRINT); rn. Qed.
Lemma ac_prepare_r : forall s, ush_autocomp_process_file_prepare (renamed t s) = rm2 (ush_autocomp_process_file_prepare s).
Proof. intros s. unfold ush_autocomp_process_file_prepare. rn. Qed.
Hint Rewrite ac_finish_r ac_next_r ac_index_r ac_prepare_r : ren.
Lemma autocomp_r : forall s, ush_autocomp_service (renamed t s) = rm2 (ush_autocomp_service s).
Proof.
  intros s. unfold ush_autocomp_service, ush_autocomp_state_prepare, ush_autocomp_state_candidates_process, ush_autocomp_state_candidates_finish, ush_autocomp_state_recall_suffix. rn.
Qed.
Lemma print_out_r : forall x n s, print_out x n (renamed t s) = rm (print_out x n s).
Proof. intros x n s. unfold print_out. rn. Qed.
Hint Rewrite print_out_r : ren.
Lemma xxd_hex_r : forall n off s b, xxd_hex n off (renamed t s) b = xxd_hex n off s b.
Proof. induction n as [|n IH]; intros off s b; cbn [xxd_hex]; [reflexivity|]. change (o_pdsize (renamed t s)) with (o_pdsize s). change (pdata_rd (renamed t s) off) with (pdata_rd s off).
  match goal with |- bind ?m _ = bind ?m _ => destruct m; cbn [bind] end; [apply IH|reflexivity]. Qed.
Lemma xxd_chr_r : forall n off s b, xxd_chr n off (renamed t s) b = xxd_chr n off s b.
Proof. induction n as [|n IH]; intros off s b; cbn [xxd_chr]; [reflexivity|]. change (o_pdsize (renamed t s)) with (o_pdsize s). change (pdata_rd (renamed t s) off) with (pdata_rd s off).
  match goal with |- bind ?m _ = bind ?m _ => destruct m; cbn [bind] end; [apply IH|reflexivity]. Qed.
Hint Rewrite xxd_hex_r xxd_chr_r : ren.
Lemma help_r : forall s, help_service (renamed t s) = rm (help_service s).
Proof. intros s. unfold help_service. rn. Qed.
Lemma ls_r : forall s, ls_service (renamed t s) = rm (ls_service s).
Proof. intros s. unfold ls_service. rn. Qed.
Lemma cat_r : forall e s, cat_service e (renamed t s) = rm (cat_service e s).
Proof. intros e s. unfold cat_service. rn. Qed.
Lemma xxd_r : forall s, xxd_service (renamed t s) = rm (xxd_service s).
Proof. intros s. unfold xxd_service. rn. Qed.
Hint Rewrite help_r ls_r cat_r xxd_r : ren.
Lemma process_r : forall i s, ush_process_service i (renamed t s) = rm2 (ush_process_service i s).
Proof. intros i s. unfold ush_process_service. rn. Qed.

Lemma service_r : forall i s, o_state s <> S_PROMPT_HOST -> ush_service i (renamed t s) = rm2 (ush_service i s).
Proof.
  intros i s N. rewrite !service_eq. change (o_cur (renamed t s)) with (o_cur s). destruct (o_cur s); [|reflexivity].
  unfold svc. change (o_state (renamed t s)) with (o_state s). change (cfg_autocomp (d_cfg (o_desc (renamed t s)))) with (cfg_autocomp (d_cfg (o_desc s))).
  destruct (o_state s) eqn:E; try (apply reset_r); try (apply prompt_r; rewrite E; discriminate); try (exfalso; apply N; reflexivity);
    try (apply read_char_r); try (apply parse_r); try (apply process_r); try (destruct (cfg_autocomp _); [apply autocomp_r|reflexivity]).
  - rewrite read_start_r. destruct (ush_read_start s); reflexivity.
  - rewrite write_char_r. destruct (ush_write_char _ s); reflexivity.
Qed.
End Name.
