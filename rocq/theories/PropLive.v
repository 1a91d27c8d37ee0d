(** * Property C57: the shell prints from the application's memory as it is at the moment.

    Vocabulary: Live.v ([live]: service calls before each of which the memory being printed is
    overwritten; [shown]: the bytes found in it when the write callback accepts them;
    [during n l]: the calls are made before [n] bytes have been accepted and the memory holds
    [n] bytes each time; [meanwhile]: the same for the data xxd shows; [live_dump]); [asked],
    [denotes], [findable], [reads], [gives], [dumpable], [xxd_dump] in Cmds.v; [quiet], [drive],
    [prompt], [editing], [core] in Sched.v. *)
From Coq Require Import Arith Lia.
From Verif Require Import Shell BaseFacts Words Sched SchedFacts Line Editor Spec Tree Cmds LineFacts CmdFacts CmdProofs Live LiveProofs Demo PropTree PropLine DemoCmd PropCmd.

(** C57: ush_print and ush_print_no_newline, called at any moment, measure the text and copy
    nothing.  Each byte that comes out is the one the memory holds when the write callback
    accepts it; the number of bytes is the length of the text at the time of the call.  Then
    the new line (ush_print only) and the prompt follow. *)
Theorem C57_print : forall nl t s cw l, cwd_is s cw -> bufs_ok s -> during (length t) l ->
  exists s1 s2, do_action [] (if nl : bool then APrint t else APrintNoNl t) s = Ok s1 /\ live l s1 = Ok s2 /\ lg s2 = lg s ++ map EvOut (shown 0 l) /\
    (accepted l = length t -> forall e, exists s3, quiet e s2 s3 /\ editing 0 [] s3 /\ bufs_ok s3 /\ core s3 = core s /\
       lg s3 = lg s2 ++ map EvOut ((if nl then crlf else []) ++ prompt (o_desc s) cw)).
Proof. exact C57_print_proof. Qed.
Print Assumptions C57_print.

(** C57: so what comes out is the text given if the memory keeps it until then; *)
Theorem C57_kept : forall t l, Forall (fun x => firstn (length t) (fst x) = t) l -> accepted l <= length t -> shown 0 l = firstn (accepted l) t.
Proof. intros t l F L. exact (shown_steady t l 0 F L). Qed.
Print Assumptions C57_kept.

(** C57: and if the memory has become shorter than the text was, the shell reads beyond it. *)
Theorem C57_too_short : forall nl t s cw l m i, cwd_is s cw -> during (length t) l -> accepted l < length t -> length m <= accepted l ->
  exists s1 s2, do_action [] (if nl : bool then APrint t else APrintNoNl t) s = Ok s1 /\ live l s1 = Ok s2 /\ ush_service i (overwrite_text m s2) = Err EOob.
Proof. exact C57_short_proof. Qed.
Print Assumptions C57_too_short.

(** C57: cat prints the bytes the memory holds when they are printed; the size is the one the
    getter returned.  [s1] is the shell right after the getter of the file in the middle has
    returned. *)
Theorem C57_cat : forall e own w cwd l n pre name post s c evs g cb d evs2, asked e own w cwd l (n :: pre ++ name :: post) cmd_cat s -> c = CR \/ c = LF -> findable s w (pre ++ name :: post) ->
  reads e (denotes w) pre evs -> denotes w name = Some g -> f_get g = Some cb -> gives e cb g d -> reads e (denotes w) post evs2 ->
  exists l1 s1, drive (always e) [c] l1 s = Ok ([], s1) /\
    lg s1 = lg s ++ EvIn c :: map EvOut (eol_echo c) ++ hook_events (o_desc s) (n :: pre ++ name :: post) ++
      EvExec XCat (Some (f_name cmd_cat)) (n :: pre ++ name :: post) :: evs ++ [EvGet cb (f_name g)] /\
    forall l2, during (length d) l2 -> exists s2, live l2 s1 = Ok s2 /\ lg s2 = lg s1 ++ map EvOut (shown 0 l2) /\
      (accepted l2 = length d -> exists s3, quiet e s2 s3 /\ editing 0 [] s3 /\ bufs_ok s3 /\ core s3 = core s /\
         lg s3 = lg s2 ++ evs2 ++ map EvOut (prompt (o_desc s) (show cwd))).
Proof. exact C57_cat_proof. Qed.
Print Assumptions C57_cat.

(** C57: xxd reads each row twice: the hexadecimal columns show the memory as it is after the
    address has been printed, the characters as it is after the columns have been. *)
Theorem C57_xxd : forall e own w cwd l n name s c g cb d mem, asked e own w cwd l [n; name] cmd_xxd s -> c = CR \/ c = LF -> findable s w [name] ->
  denotes w name = Some g -> f_get g = Some cb -> gives e cb g d -> dumpable (o_desc s) d -> (forall x, length d <= length (mem x)) ->
  exists l1 s1 s2 s3, drive (always e) [c] l1 s = Ok ([], s1) /\
    lg s1 = lg s ++ EvIn c :: map EvOut (eol_echo c) ++ hook_events (o_desc s) [n; name] ++ [EvExec XXxd (Some (f_name cmd_xxd)) [n; name]; EvGet cb (f_name g)] /\
    meanwhile e mem s1 s2 /\ lg s2 = lg s1 ++ map EvOut (live_dump mem (cfg_cols (d_cfg (o_desc s))) (length d) (lg s1)) /\
    quiet e s2 s3 /\ editing 0 [] s3 /\ bufs_ok s3 /\ core s3 = core s /\ lg s3 = lg s2 ++ map EvOut (prompt (o_desc s) (show cwd)).
Proof. exact C57_xxd_proof. Qed.
Print Assumptions C57_xxd.

(** C57: if the memory keeps the data, this is their dump. *)
Theorem C57_xxd_kept : forall mem cols d log, (forall x, firstn (length d) (mem x) = d) -> live_dump mem cols (length d) log = xxd_dump cols d.
Proof. exact C57_steady_proof. Qed.
Print Assumptions C57_xxd_kept.

(** C57: if not, the dump may be the dump of no data at all. *)
Definition ticking (l : list event) : bytes := if 20 <? length l then lit "13:37" else lit "12:00".
Theorem C57_xxd_torn_refuted : exists mem cols size log, (forall x, size <= length (mem x)) /\ 0 < cols /\ forall d, live_dump mem cols size log <> xxd_dump cols d.
Proof.
  exists ticking, 8, 5, []. split; [intros x; unfold ticking; destruct (20 <? length x); cbn; lia|]. split; [lia|]. intros d E.
  pose proof (C21_undump 8 d ltac:(lia)) as U. rewrite <- E in U. vm_compute in U. subst d. vm_compute in E. discriminate.
Qed.
Print Assumptions C57_xxd_torn_refuted.

(** The clock goes from 12:00 to 13:37 while it is printed. *)
Definition call_ready (m : string) : bytes * io := (lit m, tick demo_env None).
Definition two_times : list (bytes * io) := [call_ready "12:00"; call_ready "12:00"; call_ready "13:37"; call_ready "13:37"; call_ready "13:37"].
Example C57_example :
  cwd_is demo (lit "/") /\ bufs_ok demo /\ during 5 two_times /\ accepted two_times = 5 /\ shown 0 two_times = lit "12:37" /\
  outs (lg (from (live two_times (from (do_action [] (APrint (lit "12:00")) demo))))) = outs (lg demo) ++ lit "12:37" /\
  (* freed after two bytes *)
  during 5 (firstn 2 two_times) /\ accepted (firstn 2 two_times) = 2 /\
  ush_service (tick demo_env None) (overwrite_text [] (from (live (firstn 2 two_times) (from (do_action [] (APrint (lit "12:00")) demo))))) = Err EOob /\
  (* cat and xxd *)
  asked demo_env demo_own demo_world [] (lit "cat dev/time") [lit "cat"; lit "dev/time"] cmd_cat (demo_line "cat dev/time") /\
  asked demo_env demo_own demo_world [] (lit "xxd dev/time") [lit "xxd"; lit "dev/time"] cmd_xxd (demo_line "xxd dev/time") /\
  denotes demo_world (lit "dev/time") = Some f_time /\ gives demo_env 0 f_time (lit "12:00") /\ (forall x, 5 <= length (ticking x)) /\
  live_dump ticking 8 5 [] = lit "00000000: 31 32 3A 30 30           13:37   " ++ CRLF.
Proof.
  assert (Du : forall k, k <= 5 -> during 5 (firstn k two_times)).
  { intros k Lk b m i a E. assert (Lb : length b < 5).
    { apply (f_equal (@length _)) in E. rewrite firstn_length, app_length in E. cbn [length two_times] in E. lia. }
    assert (I : In (m, i) two_times) by (rewrite <- (firstn_skipn k two_times), E; apply in_or_app; left; apply in_or_app; right; left; reflexivity).
    assert (Ac : accepted b <= length b) by (unfold accepted, ready_calls; rewrite <- (map_length snd b); generalize (map snd b); intros q; induction q as [|y q IHq]; cbn [filter length]; [lia|]; destruct (io_wr y); cbn [length]; lia).
    split; [lia|]. cbn in I. decompose [or] I; try contradiction; match goal with H : _ = (m, i) |- _ => injection H as <- <- end; cbn; lia. }
  split; [exact demo_cwd|]. split; [exact demo_bufs|]. split; [exact (Du 5 (le_n 5))|]. split; [reflexivity|]. split; [reflexivity|].
  split; [vm_compute; reflexivity|]. split; [apply Du; lia|]. split; [reflexivity|]. split; [vm_compute; reflexivity|]. split; [demo_ask|]. split; [demo_ask|].
  split; [vm_compute; reflexivity|]. split; [exists []; reflexivity|]. split; [intros x; unfold ticking; destruct (20 <? length x); cbn; lia|]. vm_compute. reflexivity.
Qed.
