(** * Property C68: the sizes of the buffers do not show.

    Vocabulary: [same_but_sizes], [short_lines], [modest] in Sizes.v; [shows], [run_limits],
    [sess_run] in Session.v; [drive], [both_ready], [polling] in Sched.v. *)
From Coq Require Import Arith Lia.
From Verif Require Import Shell BaseFacts Words Sched Line Editor Spec Tree Cmds Complete Session Sizes SizesProofs Demo PropTree PropLine DemoCmd PropSession.

(** C68: two shells with buffers of any sizes, the same application and world: if the input is
    within the limits of both, both do exactly the same, each under its own schedule. *)
Theorem C68_devices : forall own own' x y a s t cs, same_but_sizes x y ->
  short_lines (d_insize (x_desc x)) x a cs -> short_lines (d_insize (x_desc y)) x a cs ->
  modest (d_insize (x_desc x)) (d_outsize (x_desc x)) x -> modest (d_insize (x_desc x)) (d_outsize (x_desc y)) x ->
  shows own x a s -> run_limits own x a cs -> shows own' y a t -> run_limits own' y a cs ->
  forall l m s' t', drive (app_of x) cs l s = Ok ([], s') -> polling s' -> drive (app_of y) cs m t = Ok ([], t') -> polling t' ->
  exists evs, lg s' = lg s ++ evs /\ lg t' = lg t ++ evs.
Proof. exact C68_devices_proof. Qed.
Print Assumptions C68_devices.

(** C68: enlarging buffers is safe: what is within the limits of [x] is within those of [y], under
    every schedule, and the larger shell does exactly what the smaller one does. *)
Theorem C68_larger : forall own x y a s t cs, same_but_sizes x y ->
  d_insize (x_desc x) <= d_insize (x_desc y) -> d_outsize (x_desc x) <= d_outsize (x_desc y) -> d_pathmax (x_desc x) <= d_pathmax (x_desc y) ->
  short_lines (d_insize (x_desc x)) x a cs -> modest (d_insize (x_desc x)) (d_outsize (x_desc x)) x ->
  shows own x a s -> run_limits own x a cs -> shows own y a t ->
  (forall m, exists q t', drive (app_of y) cs m t = Ok (q, t')) /\
  exists n evs, (forall l, n <= both_ready l -> exists s', drive (app_of x) cs l s = Ok ([], s') /\ polling s' /\ lg s' = lg s ++ evs) /\
    (forall m, n <= both_ready m -> exists t', drive (app_of y) cs m t = Ok ([], t') /\ polling t' /\ lg t' = lg t ++ evs).
Proof. exact C68_larger_proof. Qed.
Print Assumptions C68_larger.

(** The demo shell with other sizes. *)
Definition sized (i o p : nat) : desc := mkDesc i o p (lit "host") None cfg_posix.
Definition sized_setting (i o p : nat) : setting := mkSetting (sized i o p) (fun _ => demo_env).
Definition sized_demo (i o p : nat) : st := set_desc (sized i o p) (set_inb (repeat NUL i) (set_outb (repeat NUL o) demo)).

Lemma sized_shows : forall i o p, 2 <= i -> 4 <= o -> shows demo_own (sized_setting i o p) demo_sess (sized_demo i o p).
Proof.
  intros i o p I O. split; [reflexivity|]. split; [exact demo_knows|]. split; [discriminate|]. split; [reflexivity|].
  split; [|split; [|split; [cbn; repeat constructor|split; intros []]]].
  - destruct i as [|i]; [lia|]. split; [reflexivity|]. split; [reflexivity|]. split; [reflexivity|]. exists (repeat NUL i). reflexivity.
  - split; [apply repeat_length|]. split; [apply repeat_length|]. split; [exact I|exact O].
Qed.

(** C68: the limit on lines is needed: the line starts over where the smaller buffer is full. *)
Theorem C68_short_lines_needed : exists x y a s t cs n, same_but_sizes x y /\ d_insize (x_desc x) < d_insize (x_desc y) /\
  modest (d_insize (x_desc x)) (d_outsize (x_desc x)) x /\ shows demo_own x a s /\ shows demo_own y a t /\
  exists s' t', drive (app_of x) cs (repeat (true, true) n) s = Ok ([], s') /\ polling s' /\
    drive (app_of y) cs (repeat (true, true) n) t = Ok ([], t') /\ polling t' /\ outs (lg s') <> outs (lg t').
Proof.
  exists (sized_setting 4 64 64), (sized_setting 8 64 64), demo_sess, (sized_demo 4 64 64), (sized_demo 8 64 64), (lit "xpwd" ++ [CR]), 300.
  split; [repeat split|]. split; [apply Nat.ltb_lt; reflexivity|]. split.
  { intros h l L. cbv zeta. split; [|split]; intros; cbn; lia. }
  split; [apply sized_shows; lia|]. split; [apply sized_shows; lia|]. do 2 eexists.
  split; [vm_compute; reflexivity|]. split; [vm_compute; auto|]. split; [vm_compute; reflexivity|]. split; [vm_compute; auto|]. vm_compute. discriminate.
Qed.
Print Assumptions C68_short_lines_needed.

Example C68_example :
  same_but_sizes demo_setting (sized_setting 200 100 300) /\ short_lines 32 demo_setting demo_sess demo_keys /\
  modest 32 64 demo_setting /\ shows demo_own demo_setting demo_sess demo /\ run_limits demo_own demo_setting demo_sess demo_keys /\
  shows demo_own (sized_setting 200 100 300) demo_sess (sized_demo 200 100 300) /\
  outs_of (fst (sess_run (sized_setting 200 100 300) demo_sess demo_keys)) = outs_of (fst (sess_run demo_setting demo_sess demo_keys)).
Proof.
  split; [repeat split|]. split; [vm_compute; repeat split; repeat constructor|]. split.
  { intros h l L. cbv zeta. split; [|split]; intros; cbn; lia. }
  split; [exact demo_shows|]. split; [exact demo_limits|]. split; [apply sized_shows; lia|]. vm_compute. reflexivity.
Qed.
