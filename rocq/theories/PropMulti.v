(** * Property C50: several shells in one program.

    Vocabulary: Multi.v. *)
From Verif Require Import Shell Sched Multi MultiProofs Demo.

(** C50: whatever an application does with its shells, in whatever order — initialising,
    servicing, calling the API from the main loop or from callbacks, deinitialising —
    each shell ends up exactly as if the others did not exist: same object, same buffers,
    same bytes read and written, same callbacks called with the same arguments, same own
    node objects; and the program fails only if one of its shells alone would fail. *)
Theorem C50_independent : forall owns l p, separate owns p -> (forall k x, In (k, x) l -> k < length (p_shells p) /\ deed_hands (owns k) x) ->
  match turns l p with
  | Ok p' => separate owns p' /\
      forall k s, shell_at p k = Some s ->
      exists t t', performs (share k l) s = Ok t /\ shell_at p' k = Some t' /\ same_shell (owns k) t t'
  | Err e => exists k s, shell_at p k = Some s /\ performs (share k l) s = Err e
  end.
Proof. exact C50_proof. Qed.
Print Assumptions C50_independent.

(** Zeroed objects over zeroed node objects are separate, so C50 covers whole lives. *)
Theorem C50_from_the_start : forall owns mem ss,
  (forall k s, nth_error ss k = Some s -> exists d b ib ob l, s = st_zero d b ib ob mem l /\ In b (owns k)) ->
  (forall k i nd, In i (owns k) -> nth_error mem i = Some nd -> nd = node_zero) ->
  (forall j k i, j <> k -> In i (owns j) -> ~ In i (owns k)) ->
  separate owns (mkProg mem ss).
Proof. exact fresh_proof. Qed.
Print Assumptions C50_from_the_start.

(** Two shells with different sizes and directories, used alternately. *)
Definition duo_own (k : nat) : list nat := match k with 0 => [0; 1; 2] | 1 => [3; 4] | _ => [] end.
Definition duo_desc (k : nat) : desc := match k with 0 => demo_desc | _ => mkDesc 16 40 32 (lit "b") None cfg_test end.
Definition duo : program := mkProg (repeat node_zero 5)
  [st_zero (duo_desc 0) 0 [] [] (repeat node_zero 5) []; st_zero (duo_desc 1) 3 [] [] (repeat node_zero 5) []].
Definition duo_start : list (nat * deed) :=
  [(0, Inits (duo_desc 0) (repeat NUL 32) (repeat NUL 64)); (1, Inits (duo_desc 1) (repeat NUL 16) (repeat NUL 40));
   (0, Uses (OpApi (AMount (lit "/") 1 [f_run]))); (1, Uses (OpApi (AMount (lit "/") 4 [f_log])));
   (0, Uses (OpApi (AMount (lit "/dev") 2 [f_time; f_log])))].
Definition duo_keys (l : list (nat * option byte)) : list (nat * deed) :=
  flat_map (fun x => (fst x, Uses (OpService (tick demo_env (snd x)))) :: repeat (1 - fst x, Uses (OpService (tick demo_env None))) 2 ++
                     repeat (fst x, Uses (OpService (tick demo_env None))) 50) l.
Definition duo_life : list (nat * deed) :=
  duo_start ++ duo_keys [(0, None); (1, None); (0, Some "c"%char); (1, Some "l"%char); (0, Some "d"%char); (0, Some " "%char);
    (1, Some "o"%char); (0, Some "d"%char); (0, Some "e"%char); (1, Some "g"%char); (0, Some "v"%char); (1, Some CR); (0, Some CR)] ++
  duo_keys [(1, None); (0, None)] ++ [(1, Deinits)].

Lemma demo_env_hands : forall own, env_hands own demo_env.
Proof. intros own. repeat split; intros; repeat constructor. Qed.
Lemma duo_keys_ok : forall l k x, (forall q, In q l -> fst q < 2) -> In (k, x) (duo_keys l) -> k < 2 /\ deed_hands (duo_own k) x.
Proof.
  intros l k x H I. apply in_flat_map in I as (q & Iq & I). specialize (H q Iq). unfold duo_keys in I. cbn [In] in I.
  assert (G : k < 2 /\ exists r, x = Uses (OpService (tick demo_env r))).
  { destruct I as [E|I]; [injection E as <- <-; eauto|]. apply in_app_or in I as [I|I]; apply repeat_spec in I; injection I as -> ->; split; eauto.
    destruct (fst q) as [|[|]]; cbn; repeat constructor. }
  destruct G as (G & r & ->). split; [exact G|apply demo_env_hands].
Qed.
Lemma duo_life_ok : forall k x, In (k, x) duo_life -> k < length (p_shells duo) /\ deed_hands (duo_own k) x.
Proof.
  intros k x I. change (length (p_shells duo)) with 2. unfold duo_life in I.
  apply in_app_or in I as [I|I]; [repeat (destruct I as [I|I]; [injection I as <- <-; cbn; intuition|]); destruct I|].
  apply in_app_or in I as [I|I]; [apply (duo_keys_ok _ k x) in I; [exact I|]; cbn; intros q Q; intuition subst; cbn; repeat constructor|].
  apply in_app_or in I as [I|I]; [apply (duo_keys_ok _ k x) in I; [exact I|]; cbn; intros q Q; intuition subst; cbn; repeat constructor|].
  destruct I as [I|[]]. injection I as <- <-. cbn. auto.
Qed.
Lemma duo_separate : separate duo_own duo.
Proof.
  apply C50_from_the_start.
  - intros [|[|k]] s E; cbn in E; [| |destruct k; discriminate]; injection E as <-; repeat eexists; cbn; auto.
  - intros k i nd _ E. apply nth_error_In, repeat_spec in E. exact E.
  - intros [|[|j]] [|[|k]] i N I J; cbn in *; try congruence; intuition congruence.
Qed.
Example C50_example : separate duo_own duo /\
  (forall k x, In (k, x) duo_life -> k < length (p_shells duo) /\ deed_hands (duo_own k) x) /\
  exists p', turns duo_life duo = Ok p' /\
    map (fun s => outs (lg s)) (p_shells p') =
      [greeting ++ prompt (duo_desc 0) (lit "/") ++ lit "cd dev" ++ CRLF ++ prompt (duo_desc 0) (lit "/dev");
       greeting ++ prompt (duo_desc 1) (lit "/") ++ lit "log" ++ CRLF ++ lit "error: file not executable" ++ CRLF ++ prompt (duo_desc 1) (lit "/")].
Proof.
  split; [exact duo_separate|]. split; [exact duo_life_ok|].
  exists (match turns duo_life duo with Ok p => p | Err _ => duo end). split; vm_compute; reflexivity.
Qed.

(** The node objects must not be shared: handing one object to two shells makes the
    second mount replace the first shell's root directory. *)
Theorem C50_shared_node_refuted : exists l p' s t,
  turns l duo = Ok p' /\ shell_at p' 0 = Some s /\ performs (share 0 l) (match shell_at duo 0 with Some s0 => s0 | None => demo end) = Ok t /\
  ush_file_find_by_name (lit "/run") t = Ok (Some f_run) /\ ush_file_find_by_name (lit "/run") s = Ok None.
Proof.
  exists [(0, Inits (duo_desc 0) (repeat NUL 32) (repeat NUL 64)); (1, Inits (duo_desc 1) (repeat NUL 16) (repeat NUL 40));
          (0, Uses (OpApi (AMount (lit "/") 1 [f_run]))); (1, Uses (OpApi (AMount (lit "/") 1 [f_log])))].
  eexists. eexists. eexists. split; [vm_compute; reflexivity|]. split; [vm_compute; reflexivity|]. split; [vm_compute; reflexivity|].
  split; vm_compute; reflexivity.
Qed.
Print Assumptions C50_shared_node_refuted.
