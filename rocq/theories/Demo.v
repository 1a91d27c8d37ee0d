(** * Demo: a concrete shell used to show that hypotheses can be met. *)
From Verif Require Import Shell Sched.

Definition demo_desc : desc := mkDesc 32 64 64 (lit "host") None cfg_posix.
(** A file with getter and setter, one with a help text and exec, one with nothing. *)
Definition f_time : file := mkFile (lit "time") (Some (lit "clock")) None None (Some 0) (Some 0) None.
Definition f_run : file := mkFile (lit "run") None (Some (lit "usage: run" ++ CRLF)) (Some (XUser 0)) None None None.
Definition f_log : file := mkFile (lit "log") None None None None None None.

Definition demo_env : env :=
  mkEnv (fun _ _ _ => [APrint (lit "running")])
        (fun _ _ => mkGet (GData (lit "12:00")) 5 [])
        (fun _ _ _ => [])
        (fun _ _ => [ASetState S_RESET]).

Definition demo_blank : st :=
  st_zero demo_desc 0 (repeat NUL 32) (repeat NUL 64) (repeat node_zero 6) [].

(** ush_init, then mount "/", "/dev" and "/dev/a". *)
Definition demo_mounts : list op :=
  [OpApi (AMount (lit "/") 1 [f_run]); OpApi (AMount (lit "/dev") 2 [f_time; f_log]);
   OpApi (AMount (lit "/dev/a") 3 [])].

Definition demo_booted : res st :=
  s <- ush_init demo_desc (repeat NUL 32) (repeat NUL 64) demo_blank ;; run demo_mounts s.

(** Serviced until it polls. *)
Definition demo_ticks (n : nat) : list op := services (repeat (tick demo_env None) n).
Definition demo_ready : res st := s <- demo_booted ;; run (demo_ticks 60) s.

Definition from (r : res st) : st := match r with Ok s => s | Err _ => demo_blank end.
Definition demo0 : st := Eval vm_compute in from demo_booted.
Definition demo : st := Eval vm_compute in from demo_ready.

Lemma demo0_ok : demo_booted = Ok demo0.
Proof. vm_compute. reflexivity. Qed.
Lemma demo_ok : demo_ready = Ok demo.
Proof. vm_compute. reflexivity. Qed.

Lemma demo_fair : fair demo_env.
Proof. repeat split; intros; repeat constructor. Qed.

Lemma demo_cwd : cwd_is demo (lit "/").
Proof. eexists. split; vm_compute; reflexivity. Qed.
Lemma demo_bufs : bufs_ok demo.
Proof. vm_compute. repeat split; repeat constructor. Qed.
Lemma demo_editing : editing 0 [] demo.
Proof. split; [reflexivity|split; [reflexivity|split; [reflexivity|]]]. eexists. vm_compute. reflexivity. Qed.
Lemma demo_cur : o_cur demo <> None.
Proof. vm_compute. discriminate. Qed.
Definition st_of {A} (r : res (A * st)) : st := match r with Ok (_, s) => s | Err _ => demo_blank end.
