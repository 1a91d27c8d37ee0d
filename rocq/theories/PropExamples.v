(** * Property C55: the example programs.

    Vocabulary: Examples.v: [basic_desc], [basic_env], [basic_calls] (DemoBasic and DemoAdvanced),
    [init_calls] (Initialize), [linux_desc], [linux_env], [linux_calls], [linux_name] (demo_linux), [runs] (the program
    sets itself up and then behaves as the abstract shell of Session.v, without failing, whatever
    is typed and under every schedule, TAB being pressed only in lines
    shorter than the input buffer by [k] and two), [breaks] (an input makes a call of ush_service
    fail), [runs_named] ([runs] for a program that changes its host name), [setters_fit] (what the setters of demo_linux are handed fits in their memories).
    The sizes are those of the input buffer, the output buffer and path_max_length. *)
From Coq Require Import ZArith NArith Arith Lia.
From Verif Require Import Shell Sched Tree Cmds Session Host Examples ExampleProofs.

(** C55: Initialize as shipped, with any callbacks (it has none). *)
Theorem C55_initialize : forall f, runs (mkSetting (basic_desc 32 32 32) f) 2 init_calls 4.
Proof. intros f. apply (sound_runs init_own), init_sound; apply Nat.leb_le; reflexivity. Qed.
Print Assumptions C55_initialize.
(** With other sizes: path_max_length at least that of the input buffer. *)
Theorem C55_initialize_sizes : forall i o p f, 2 <= i -> 26 <= o -> i <= p -> runs (mkSetting (basic_desc i o p) f) 2 init_calls 4.
Proof. intros i o p f Hi Ho Hp. exact (sound_runs _ _ _ _ _ (init_sound i o p f Hi Ho Hp)). Qed.
Print Assumptions C55_initialize_sizes.

(** C55: DemoBasic and DemoAdvanced, whatever the LED and the clock show, if path_max_length exceeds
    the size of the input buffer by 4, the length of "/dev". *)
Theorem C55_basic : forall i o p led ms, 2 <= i -> 26 <= o -> i + 4 <= p -> 12 <= p ->
  runs (mkSetting (basic_desc i o p) (fun h => basic_env (led h) (ms h))) 5 basic_calls 8.
Proof. intros i o p led ms Hi Ho Hp Hq. exact (sound_runs _ _ _ _ _ (basic_sound i o p led ms Hi Ho Hp Hq)). Qed.
Print Assumptions C55_basic.

(** With the sizes they are shipped with, and with one byte less than needed, a long word typed
    in /dev writes past the end of the path buffer. *)
Definition long_word (n : nat) : bytes := lit "cd dev" ++ [CR] ++ repeat "a"%char n ++ [CR].
Theorem C55_basic_refuted : forall led ms, let app h := basic_env (led h) (ms h) in
  breaks (mkSetting (basic_desc 32 32 32) app) 5 basic_calls (long_word 27) EOob /\
  breaks (mkSetting (basic_desc 128 128 128) app) 5 basic_calls (long_word 123) EOob /\
  breaks (mkSetting (basic_desc 32 32 35) app) 5 basic_calls (long_word 30) EOob.
Proof.
  intros led ms app. split; [|split].
  - eexists. exists (repeat (true, true) 400). split; [vm_compute; reflexivity|]. vm_compute. reflexivity.
  - eexists. exists (repeat (true, true) 1000). split; [vm_compute; reflexivity|]. vm_compute. reflexivity.
  - eexists. exists (repeat (true, true) 400). split; [vm_compute; reflexivity|]. vm_compute. reflexivity.
Qed.
Print Assumptions C55_basic_refuted.

(** TAB may write past the end of the input buffer, however large path_max_length is. *)
Theorem C55_tab_refuted : forall led ms p, breaks (mkSetting (basic_desc 32 32 (64 + p)) (fun h => basic_env (led h) (ms h))) 5 basic_calls
  (repeat "a"%char 24 ++ lit " in" ++ [TAB]) EOob.
Proof.
  intros led ms p. eexists. exists (repeat (true, true) 400). split; [vm_compute; reflexivity|]. vm_compute. reflexivity.
Qed.
Print Assumptions C55_tab_refuted.

(** C55: demo_linux, whatever the clock and rand() return, the memories hold and the getter of
    /etc/hostname says, if path_max_length exceeds the size of the input buffer by 8, the length of
    "/dev/mem", and if the getter of /dev/null sets the pointer.  Every prompt shows the host name
    last written to /etc/hostname. *)
Theorem C55_linux : forall i o p null m, 2 <= i -> 26 <= o -> i + 8 <= p -> 16 <= p -> (forall h, machine_ok (m h)) ->
  runs_named linux_name (mkSetting (linux_desc i o p) (fun h => linux_env (GData null) (m h))) 8 linux_calls 10.
Proof.
  intros i o p null m Hi Ho Hp Hq Hm.
  exact (sound_runs_named linux_name _ _ _ _ _ (linux_sound i o p null m Hi Ho Hp Hq Hm) (fun h => linux_fair (GData null) (m h)) eq_refl).
Qed.
Print Assumptions C55_linux.

(** As shipped: reading /dev/null uses a pointer that was never set; a long word typed in /dev/mem
    writes past the end of the path buffer; 33 bytes written to /dev/mem/eeprom do not fit in its
    memory. *)
Theorem C55_linux_refuted : forall m, let x := mkSetting (linux_desc 256 256 256) (fun h => linux_env GUnset (m h)) in
  breaks x 8 linux_calls (lit "cat /dev/null" ++ [CR]) EUninit /\
  breaks x 8 linux_calls (lit "cd /dev/mem" ++ [CR] ++ repeat "a"%char 247 ++ [CR]) EOob /\
  exists s l s2, set_up (x_desc x) 8 linux_calls = Ok s /\
    drive (app_of x) (lit "echo " ++ repeat "a"%char 33 ++ lit " > /dev/mem/eeprom" ++ [CR]) l s = Ok ([], s2) /\ ~ setters_fit (lg s2).
Proof.
  intros m x. split; [|split].
  - eexists. exists (repeat (true, true) 500). split; [vm_compute; reflexivity|]. vm_compute. reflexivity.
  - eexists. exists (repeat (true, true) 2000). split; [vm_compute; reflexivity|]. vm_compute. reflexivity.
  - eexists. exists (repeat (true, true) 500). eexists. split; [vm_compute; reflexivity|]. split; [vm_compute; reflexivity|].
    intros F. assert (L : length (repeat "a"%char 33) <= 32); [|vm_compute in L; lia].
    apply (F 3 (lit "eeprom")); [|reflexivity]. vm_compute. tauto.
Qed.
Print Assumptions C55_linux_refuted.

(** What is typed always fits in a memory of 10 bytes less than the input buffer;
    /dev/mem/eeprom would be safe with an input buffer of up to 42 bytes. *)
Theorem C55_setters : forall i o p null m, 2 <= i -> 26 <= o -> i + 8 <= p -> 16 <= p -> (forall h, machine_ok (m h)) ->
  let x := mkSetting (linux_desc i o p) (fun h => linux_env (GData null) (m h)) in
  forall cs cb n t r, tabs_early x (mkSess (world_of (x_desc x) linux_calls) [] 0 []) 10 cs -> In (EvSet cb n t) (fst (sess_run x (mkSess (world_of (x_desc x) linux_calls) [] 0 []) cs)) ->
  setter_room cb = Some r -> i <= 10 + r -> length t <= r.
Proof. exact linux_setters. Qed.
Print Assumptions C55_setters.

(** /dev/mem/ram is safe with the input buffer it is shipped with. *)
Theorem C55_ram : forall o p null m, 26 <= o -> 264 <= p -> (forall h, machine_ok (m h)) ->
  let x := mkSetting (linux_desc 256 o p) (fun h => linux_env (GData null) (m h)) in
  forall cs t, tabs_early x (mkSess (world_of (x_desc x) linux_calls) [] 0 []) 10 cs ->
  In (EvSet 2 (lit "ram") t) (fst (sess_run x (mkSess (world_of (x_desc x) linux_calls) [] 0 []) cs)) ->
  exists r, setter_room 2 = Some r /\ length t <= r.
Proof. exact linux_ram. Qed.
Print Assumptions C55_ram.

(** A concrete machine; a session that shows the LED, is reset and dumps a file. *)
Definition blank_machine : machine := mkMachine 5 (repeat NUL 4) (repeat NUL 256) (repeat "255"%char 32) (repeat NUL 1024) (lit "host").
Example C55_example : machine_ok blank_machine.
Proof. repeat split. apply Nat.leb_le. reflexivity. Qed.
(** TAB early in a line. *)
Example C55_example_tab : let x := mkSetting (basic_desc 32 32 36) (fun _ => basic_env true 0) in let a := mkSess (world_of (x_desc x) basic_calls) [] 0 [] in
  tabs_early x a 8 (lit "cat in" ++ [TAB; CR]) /\ se_line (snd (sess_run x a (lit "cat in" ++ [TAB]))) = lit "cat info.txt".
Proof.
  cbv zeta. split; [|vm_compute; reflexivity]. intros p q H. do 6 (destruct p as [|? p]; [discriminate H|injection H as <- H]). destruct p as [|? p].
  - split; [vm_compute; intuition discriminate|]. apply Nat.leb_le. vm_compute. reflexivity.
  - injection H as <- H. destruct p as [|? p]; [discriminate H|injection H as <- H]. destruct p; discriminate H.
Qed.
Example C55_example_session :
  let x := mkSetting (linux_desc 256 256 264) (fun _ => linux_env (GData []) blank_machine) in
  let evs := fst (sess_run x (mkSess (world_of (x_desc x) linux_calls) [] 0 []) (lit "cd /dev/mem" ++ [CR] ++ lit "echo abc > ram" ++ [CR] ++ lit "reset" ++ [CR] ++ lit "/bin/uptime" ++ [CR])) in
  In (EvSet 2 (lit "ram") (lit "abc")) evs /\ In (EvExec (XUser 1) (Some (lit "uptime")) [lit "/bin/uptime"]) evs.
Proof. cbv zeta. split; vm_compute; tauto. Qed.
(** The host name is changed; one that is typed with a hexadecimal escape comes with the rest of
    the text, and one that is too long is cut. *)
Example C55_example_name :
  let x := mkSetting (linux_desc 256 256 264) (fun _ => linux_env (GData []) blank_machine) in
  let name cs := linux_name (seen (fst (sess_host linux_name x [] (mkSess (world_of (x_desc x) linux_calls) [] 0 []) (cs ++ [CR])))) in
  name (lit "echo box > /etc/hostname") = lit "box" /\ name (lit "echo abc > /dev/mem/ram") = lit "host" /\
  name (lit "echo \x41 > /etc/hostname") = lit "Ax41" /\
  name (lit "echo 0123456789abcdefgh > /etc/hostname") = lit "0123456789abcdef" /\
  fst (sess_host linux_name x [] (mkSess (world_of (x_desc x) linux_calls) [] 0 []) [CR]) =
    EvIn CR :: map EvOut (CRLF ++ prompt (linux_desc 256 256 264) (lit "/")).
Proof. cbv zeta. repeat split; vm_compute; reflexivity. Qed.
