(** * Properties C63 and C64: the application may remember everything, and files keep what is
    written to them.

    Vocabulary: [at_reads], [mem_run], [mem_limits], [keeps], [contents], [writable], [readable] in
    Memory.v; [shows] in Session.v; [typeable] in Builtin.v; [drive], [both_ready] in Sched.v. *)
From Coq Require Import Arith Lia.
From Verif Require Import Shell Spec Words Sched Editor Line Tree Cmds Complete Session Builtin Examples ExampleProofs Memory MemoryProofs.

(** ** C63 *)

(** C63: the callbacks may depend on everything that has happened when a byte is read: bytes
    read and printed, and calls of callbacks with their arguments.  Under every schedule, whenever
    the shell polls, it has done what the session does, and stands where the session stands. *)
Theorem C63_every_schedule : forall own m d cs a s l q s1, shows own (fixed m d (lg s)) a s -> mem_limits own m d (lg s) a cs ->
  drive (at_reads m) cs l s = Ok (q, s1) -> polling s1 ->
  exists p, cs = p ++ q /\ shows own (fixed m d (lg s1)) (snd (mem_run m d (lg s) a p)) s1 /\ lg s1 = lg s ++ fst (mem_run m d (lg s) a p).
Proof. exact C63_schedule_proof. Qed.
Print Assumptions C63_every_schedule.

(** C63: no schedule makes it fail, and schedules with enough calls in which both sides are
    ready answer all the input. *)
Theorem C63_completes : forall own m d cs a s, shows own (fixed m d (lg s)) a s -> mem_limits own m d (lg s) a cs ->
  (forall l, exists q s1, drive (at_reads m) cs l s = Ok (q, s1)) /\
  exists n s', (forall l, n <= both_ready l -> drive (at_reads m) cs l s = Ok ([], s')) /\
    shows own (fixed m d (lg s')) (snd (mem_run m d (lg s) a cs)) s' /\ lg s' = lg s ++ fst (mem_run m d (lg s) a cs).
Proof. exact C63_done_proof. Qed.
Print Assumptions C63_completes.

(** C63: from ush_init on, after any correct calls that mount directories and register commands. *)
Theorem C63_from_init : forall d d0 b ib0 ob0 h l0 ib ob own os m,
  2 <= d_insize d -> 4 <= d_outsize d -> length ib = d_insize d -> length ob = d_outsize d ->
  (cfg_commands (d_cfg d) = true -> buildin_commands (d_cfg d) <> []) -> In b own -> (forall i, In i own -> nth_error h i = Some node_zero) ->
  let w0 := mkWorld [] (if cfg_commands (d_cfg d) then [(b, buildin_commands (d_cfg d))] else []) None in
  let w := snd (spec_ops os w0) in let a := mkSess w (ins l0) 0 [] in
  all_allowed (d_pathmax d) own os w0 ->
  forall cwd cs, w_cwd w = Some cwd ->
  let L := l0 ++ map EvOut (greeting ++ prompt d (show cwd)) in
  mem_limits own m d L a cs ->
  exists s0 s1, ush_init d ib ob (st_zero d0 b ib0 ob0 h l0) = Ok s0 /\ do_ops os s0 = Ok (fst (spec_ops os w0), s1) /\
    (forall l, exists q s2, drive (at_reads m) cs l s1 = Ok (q, s2) /\
       (polling s2 -> exists p, cs = p ++ q /\ shows own (fixed m d (lg s2)) (snd (mem_run m d L a p)) s2 /\ lg s2 = L ++ fst (mem_run m d L a p))) /\
    exists n, forall l, n <= both_ready l -> exists s2, drive (at_reads m) cs l s1 = Ok ([], s2) /\ polling s2.
Proof. exact C63_init_proof. Qed.
Print Assumptions C63_from_init.

(** C63: the limits hold for every input without TAB if the setting is within its limits
    ([snug], Session.v) whatever has happened. *)
Theorem C63_limits : forall own m d W cs a s, (forall log, snug own (fixed m d log) W) -> W (se_world a) -> shows own (fixed m d (lg s)) a s ->
  (In TAB cs -> cfg_autocomp (d_cfg d) = false) -> mem_limits own m d (lg s) a cs.
Proof. exact C63_snug_proof. Qed.
Print Assumptions C63_limits.

(** ** C64 *)

(** C64: at the prompt, [echo] with the text [encode up data] (any bytes, written with hexadecimal
    escapes) changes the contents of the file by [data], and prints nothing. *)
Theorem C64_write : forall own m d ks kg fn upd init up data name a s, keeps m ks kg fn upd init -> d_exec d = None ->
  shows own (fixed m d (lg s)) a s -> writable a name fn ks -> let t := write_line up data name in typeable d t -> mem_limits own m d (lg s) a (t ++ [CR]) ->
  exists n s', (forall l, n <= both_ready l -> drive (at_reads m) (t ++ [CR]) l s = Ok ([], s')) /\ shows own (fixed m d (lg s')) (after_line a t) s' /\
    outs (lg s') = outs (lg s) ++ t ++ crlf ++ prompt d (show (here (se_world a))) /\
    contents ks fn upd init (lg s') = upd (contents ks fn upd init (lg s)) data.
Proof. exact C64_write_proof. Qed.
Print Assumptions C64_write.

(** C64: [cat] prints the contents, byte for byte, and leaves them as they are. *)
Theorem C64_cat : forall own m d ks kg fn upd init name a s, keeps m ks kg fn upd init -> d_exec d = None ->
  shows own (fixed m d (lg s)) a s -> readable a cmd_cat name fn kg -> let t := cat_line name in typeable d t -> mem_limits own m d (lg s) a (t ++ [CR]) ->
  exists n s', (forall l, n <= both_ready l -> drive (at_reads m) (t ++ [CR]) l s = Ok ([], s')) /\ shows own (fixed m d (lg s')) (after_line a t) s' /\
    outs (lg s') = outs (lg s) ++ t ++ crlf ++ contents ks fn upd init (lg s) ++ prompt d (show (here (se_world a))) /\
    contents ks fn upd init (lg s') = contents ks fn upd init (lg s).
Proof. exact C64_cat_proof. Qed.
Print Assumptions C64_cat.

(** C64: [xxd] prints a dump of the contents. *)
Theorem C64_xxd : forall own m d ks kg fn upd init name a s, keeps m ks kg fn upd init -> d_exec d = None ->
  shows own (fixed m d (lg s)) a s -> readable a cmd_xxd name fn kg -> let t := dump_line name in typeable d t -> mem_limits own m d (lg s) a (t ++ [CR]) ->
  exists n s', (forall l, n <= both_ready l -> drive (at_reads m) (t ++ [CR]) l s = Ok ([], s')) /\ shows own (fixed m d (lg s')) (after_line a t) s' /\
    outs (lg s') = outs (lg s) ++ t ++ crlf ++ xxd_dump (cfg_cols (d_cfg d)) (contents ks fn upd init (lg s)) ++ prompt d (show (here (se_world a))) /\
    contents ks fn upd init (lg s') = contents ks fn upd init (lg s).
Proof. exact C64_xxd_proof. Qed.
Print Assumptions C64_xxd.

(** C64: what is written is what is read: between the two lines anything [q] may be typed that
    does not call the setter of that file, and the file may be named differently.  (With
    [upd := replace] the last line prints exactly [data].) *)
Theorem C64_reads_back : forall own m d ks kg fn upd init up data name name' q a s, keeps m ks kg fn upd init -> d_exec d = None ->
  shows own (fixed m d (lg s)) a s ->
  let W := write_line up data name ++ [CR] in let C := cat_line name' ++ [CR] in
  let R := mem_run m d (lg s) a W in let Q := mem_run m d (lg s ++ fst R) (snd R) q in
  writable a name fn ks -> typeable d (write_line up data name) -> unwritten ks fn (fst Q) -> readable (snd Q) cmd_cat name' fn kg -> typeable d (cat_line name') ->
  mem_limits own m d (lg s) a (W ++ q ++ C) ->
  exists n s', (forall l, n <= both_ready l -> drive (at_reads m) (W ++ q ++ C) l s = Ok ([], s')) /\ polling s' /\
    outs (lg s') = outs (lg s ++ fst R ++ fst Q) ++ cat_line name' ++ crlf ++ upd (contents ks fn upd init (lg s)) data ++ prompt d (show (here (se_world (snd Q)))).
Proof. exact C64_back_proof. Qed.
Print Assumptions C64_reads_back.

(** C64: the RAM and the EEPROM of demo_linux, from its start: after writing [data] and anything
    else without TAB that does not write to the same memory, [cat] prints [data] and then the
    zeros in the rest of the memory. *)
Theorem C64_linux : forall i o p null mc, 2 <= i -> 26 <= o -> i + 8 <= p -> 16 <= p -> (forall log, machine_ok (mc log)) ->
  let d := linux_desc i o p in let m := linux_app null mc in let a := mkSess (world_of d linux_calls) [] 0 [] in
  let L := map EvOut (greeting ++ prompt d (lit "/")) in
  exists s, set_up d 8 linux_calls = Ok s /\ forall name f ks kg n up data q, linux_memfile name f ks kg n -> ~ In TAB q -> length data <= n ->
    let W := write_line up data name ++ [CR] in let C := cat_line name ++ [CR] in
    let R := mem_run m d L a W in let Q := mem_run m d (L ++ fst R) (snd R) q in
    typeable d (write_line up data name) -> typeable d (cat_line name) -> at_prompt (snd Q) -> unwritten ks (f_name f) (fst Q) ->
    exists k s', (forall l, k <= both_ready l -> drive (at_reads m) (W ++ q ++ C) l s = Ok ([], s')) /\ polling s' /\
      outs (lg s') = outs (L ++ fst R ++ fst Q) ++ cat_line name ++ crlf ++ (data ++ repeat NUL (n - length data)) ++
        prompt d (show (here (se_world (snd Q)))).
Proof. exact C64_linux_proof. Qed.
Print Assumptions C64_linux.

(** A concrete case: three bytes, one of them NUL, go to the EEPROM; the RAM is written and the
    directory is changed before the EEPROM is read. *)
Definition a_machine : machine := mkMachine 5 (repeat NUL 4) (repeat NUL 256) (repeat NUL 32) (repeat NUL 1024) (lit "host").
Definition some_data : bytes := ["A"%char; NUL; "255"%char].
Example C64_example :
  let d := linux_desc 256 256 264 in let m := linux_app [] (fun _ => a_machine) in
  let a := mkSess (world_of d linux_calls) [] 0 [] in let L := map EvOut (greeting ++ prompt d (lit "/")) in
  let name := lit "/dev/mem/eeprom" in let q := lit "echo b > /dev/mem/ram" ++ [CR] ++ lit "cd /dev" ++ [CR] in
  let R := mem_run m d L a (write_line false some_data name ++ [CR]) in let Q := mem_run m d (L ++ fst R) (snd R) q in
  machine_ok a_machine /\ linux_memfile name eeprom_file 3 6 32 /\ write_line false some_data name = lit """echo"" ""\\x41\\x00\\xff"" "">"" ""/dev/mem/eeprom""" /\
  typeable d (write_line false some_data name) /\ typeable d (cat_line name) /\ at_prompt (snd Q) /\ unwritten 3 (lit "eeprom") (fst Q) /\
  In (EvSet 2 (lit "ram") (lit "b")) (fst Q) /\ here (se_world (snd Q)) = [lit "dev"] /\
  keeps m 3 6 (lit "eeprom") fill (repeat NUL 32) /\ writable a name (lit "eeprom") 3 /\ readable (snd Q) cmd_cat name (lit "eeprom") 6 /\ readable a cmd_xxd name (lit "eeprom") 6.
Proof.
  cbv zeta. split; [repeat split; apply Nat.leb_le; reflexivity|]. split; [right; reflexivity|]. split; [vm_compute; reflexivity|].
  split; [split; [apply Forall_forall; intros c I; vm_compute in I; repeat (destruct I as [<-|I]; [split; [reflexivity|discriminate]|]); destruct I|apply Nat.leb_le; vm_compute; reflexivity]|].
  split; [split; [apply Forall_forall; intros c I; vm_compute in I; repeat (destruct I as [<-|I]; [split; [reflexivity|discriminate]|]); destruct I|apply Nat.leb_le; vm_compute; reflexivity]|].
  split; [split; vm_compute; reflexivity|].
  split; [intros t I; vm_compute in I; repeat (destruct I as [I|I]; [discriminate I|]); destruct I|].
  split; [vm_compute; tauto|]. split; [vm_compute; reflexivity|].
  split; [intros log; split; intros; reflexivity|].
  split; [split; [split; reflexivity|]; split; [vm_compute; reflexivity|]; exists eeprom_file; repeat split; vm_compute; reflexivity|].
  split; (split; [split; vm_compute; reflexivity|]); (split; [vm_compute; reflexivity|]); exists eeprom_file; repeat split; vm_compute; reflexivity.
Qed.
