(** * Property C85: changes of the tree are local.

    Vocabulary: [local_change], [can_look] in Local.v; [knows], [allowed], [spec_op], [do_op]
    (the call of the library for each kind of change) in Tree.v. *)
From Coq Require Import Arith Lia.
From Verif Require Import Shell Sched Spec Tree TreeProofs Local LocalProofs Demo PropTree.

(** C85: mounting a directory takes no meaning from any name, and new meanings are its own files;
    unmounting gives no name a new meaning and takes only those of the directory's own files;
    registering commands gives their names to them and changes no other name; removing a group
    changes only the names of its commands; changing the directory changes neither commands nor
    absolute names. *)
Theorem C85_local : forall own s w o, knows own s w -> allowed (d_pathmax (o_desc s)) own w o ->
  (match o with TMount p _ _ => p = [] -> w_cwd w = None | _ => True end) ->
  exists r s', do_op o s = Ok (r, s') /\ forall n, ~ In NUL n ->
    can_look (d_pathmax (o_desc s)) w n -> can_look (d_pathmax (o_desc s)) (snd (spec_op o w)) n ->
    exists m m', ush_file_find_by_name n s = Ok m /\ ush_file_find_by_name n s' = Ok m' /\ local_change o w n m m'.
Proof. exact C85_proof. Qed.
Print Assumptions C85_local.

(** Mounting /etc with a file, and unmounting /dev/a. *)
Example C85_example :
  let o := TMount [lit "etc"] 4 [f_log] in let n := lit "etc/log" in
  knows demo_own demo demo_world /\ allowed (d_pathmax (o_desc demo)) demo_own demo_world o /\ w_cwd demo_world <> None /\
  can_look (d_pathmax (o_desc demo)) demo_world n /\ can_look (d_pathmax (o_desc demo)) (snd (spec_op o demo_world)) n /\
  ush_file_find_by_name n demo = Ok None /\ (exists s', do_op o demo = Ok (ST_OK, s') /\ ush_file_find_by_name n s' = Ok (Some f_log)) /\
  allowed (d_pathmax (o_desc demo)) demo_own demo_world (TUnmount (lit "/dev/a")).
Proof.
  cbv zeta. split; [exact demo_knows|]. split; [|split; [discriminate|]].
  - split; [|split; [apply Nat.ltb_lt; reflexivity|]].
    { constructor; [|constructor]. split; [discriminate|]. split; cbn; intuition discriminate. }
    split; [cbn; tauto|]. intros [I|I]; cbn in I; intuition discriminate.
  - split; [split; [discriminate|split; [exact (proj1 C17_example)|apply Nat.ltb_lt; reflexivity]]|].
    split.
    { split; [discriminate|]. split; [|apply Nat.ltb_lt; reflexivity]. intros d f I J. vm_compute in I.
      destruct I as [<-|I]; [|apply (proj1 C17_example d f); [exact I|exact J]]. destruct J as [<-|[]]. split; [|apply Nat.ltb_lt; reflexivity].
      apply (proj1 C17_example (mkDir [lit "dev"] 2 [f_time; f_log]) f_log); cbn; tauto. }
    split; [vm_compute; reflexivity|]. split; [eexists; split; vm_compute; reflexivity|]. split; [cbn; intuition discriminate|apply Nat.ltb_lt; reflexivity].
Qed.
