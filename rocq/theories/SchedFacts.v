(** * SchedFacts: every schedule performs the same effective steps. *)
From Verif Require Import Shell BaseFacts LogFacts Sched ServiceFacts.

Definition estep (e : env) (o : option byte) (s s' : st) : Prop :=
  (match o with Some _ => polling s | None => ~ polling s end) /\
  exists b, ush_service (tick e o) s = Ok (b, s').

Inductive esteps (e : application) : list (option byte) -> st -> st -> Prop :=
| es_nil : forall s, esteps e [] s s
| es_cons : forall o os s s1 s2, estep (e (lg s)) o s s1 -> esteps e os s1 s2 -> esteps e (o :: os) s s2.

Definition somes (os : list (option byte)) : bytes :=
  flat_map (fun o => match o with Some c => [c] | None => [] end) os.

Lemma somes_app : forall a b, somes (a ++ b) = somes a ++ somes b.
Proof. intros. apply flat_map_app. Qed.

Lemma esteps_app : forall e a b s s1 s2, esteps e a s s1 -> esteps e b s1 s2 -> esteps e (a ++ b) s s2.
Proof. intros e a b s s1 s2 H. induction H; intros H'; cbn [app]; auto. econstructor; eauto. Qed.

Lemma estep_reads : forall e o s s', estep e o s s' ->
  reads s (match o with Some c => [c] | None => [] end) s'.
Proof.
  intros e [c|] s s' (P & b & H); unfold reads.
  - apply service_poll in H; auto. cbn [tick io_rd] in H. destruct H as [_ ->].
    rewrite ins_app. reflexivity.
  - apply service_ins in H; auto. rewrite H, app_nil_r. reflexivity.
Qed.

Lemma esteps_reads : forall e os s s', esteps e os s s' -> reads s (somes os) s'.
Proof.
  intros e os s s' H. unfold reads. induction H as [|o os s s1 s2 H1 H2 IH]; [symmetry; apply app_nil_r|].
  rewrite IH, (estep_reads _ _ _ _ H1), <- app_assoc. reflexivity.
Qed.

(** A service call is an effective step or changes nothing. *)
Lemma service_cases : forall i s b s', ush_service i s = Ok (b, s') ->
  s' = s \/
  (exists c, io_rd i = Some c /\ estep (io_env i) (Some c) s s') \/
  estep (io_env i) None s s'.
Proof.
  intros [r w e] s b s' H. cbn [io_rd io_env].
  destruct (polling_dec s) as [P|P].
  - destruct r as [c|].
    + right; left. exists c. split; auto. split; auto. exists b. unfold tick.
      rewrite <- H. symmetry. apply svc_wr. rewrite P. discriminate.
    + apply service_poll in H; auto. left. destruct H; auto.
  - destruct w.
    + right; right. split; auto. exists b. unfold tick. rewrite (svc_rd None r) by auto. exact H.
    + destruct (o_state s) eqn:E;
        try (right; right; split; auto; exists b; unfold tick; rewrite (svc_rd None r) by auto;
             rewrite <- H; apply svc_wr; rewrite E; discriminate).
      rewrite service_eq in H. destruct (o_cur s) as [c|] eqn:C; [|discriminate].
      unfold svc, ush_write_char in H. rewrite E in H. cbn [io_wr] in H.
      destruct (o_wsize s <=? o_wpos s) eqn:W.
      * right; right. split; auto. exists b. rewrite service_eq, C. unfold svc, ush_write_char.
        rewrite E, W. exact H.
      * oks. left; reflexivity.
Qed.

Lemma run_services : forall e l s s', sched e l -> run (services l) s = Ok s' ->
  exists os, esteps (always e) os s s'.
Proof.
  intros e l. induction l as [|i l IH]; intros s s' F H; cbn [services map run] in H.
  - oks. exists []. constructor.
  - inversion F as [|? ? Fi Fl]; subst. oks. destruct (step (OpService i) s) as [s1|] eqn:E1; cbn [step] in *; [|congruence].
    oks. apply IH in H as (os & H); auto.
    match goal with H : ush_service i s = Ok _ |- _ => apply service_cases in H as [->|[(c & _ & X)|X]] end.
    + eauto.
    + exists (Some c :: os). econstructor; eauto.
    + exists (None :: os). econstructor; eauto.
Qed.

Lemma estep_det : forall e o s s1 s2, estep e o s s1 -> estep e o s s2 -> s1 = s2.
Proof. intros e o s s1 s2 (_ & b & H1) (_ & b' & H2). congruence. Qed.

Lemma esteps_det : forall e os1 s s1, esteps e os1 s s1 -> forall os2 s2, esteps e os2 s s2 ->
  polling s1 -> polling s2 -> somes os1 = somes os2 -> s1 = s2.
Proof.
  intros e os1 s s1 H. induction H as [s|o os s s' s1 H1 H2 IH]; intros os2 s2 G P1 P2 E.
  - inversion G as [|o os ? s' ? G1 G2]; subst; auto.
    destruct o as [c|]; [discriminate|]. destruct G1 as [N _]. contradiction.
  - inversion G as [|o' os' ? s'' ? G1 G2]; subst.
    + destruct o as [c|]; [discriminate|]. destruct H1 as [N _]. contradiction.
    + assert (o = o' /\ somes os = somes os') as [<- E'].
      { destruct o as [c|], o' as [c'|]; cbn [somes flat_map app] in E.
        - injection E as -> E. auto.
        - destruct H1 as [A _], G1 as [B _]. contradiction.
        - destruct H1 as [A _], G1 as [B _]. contradiction.
        - auto. }
      pose proof (estep_det _ _ _ _ _ H1 G1); subst. eapply IH; eauto.
Qed.

Lemma quiet_by_esteps : forall e s s', quiet_by e s s' -> exists os, esteps e os s s' /\ somes os = [] /\ polling s'.
Proof.
  intros e s s' H. induction H as [s P|s b s1 s2 N H1 H2 (os & IH1 & IH2 & IH3)].
  - exists []. repeat split; auto. constructor.
  - exists (None :: os). repeat split; auto. econstructor; eauto. split; eauto.
Qed.

Lemma fed_by_esteps : forall e cs s s', fed_by e cs s s' -> exists os, esteps e os s s' /\ somes os = cs /\ polling s'.
Proof.
  intros e cs s s' H. induction H as [s P|c cs s b s1 s2 s3 P H1 H2 H3 (os & IH1 & IH2 & IH3)].
  - exists []. repeat split; auto. constructor.
  - apply quiet_by_esteps in H2 as (os2 & Q1 & Q2 & Q3). exists (Some c :: os2 ++ os).
    split; [|split; auto].
    + econstructor; [split; eauto|]. eapply esteps_app; eauto.
    + cbn [somes flat_map app]. fold (somes (os2 ++ os)). rewrite somes_app, Q2, IH2. reflexivity.
Qed.

Lemma quiet_always : forall e s s', quiet e s s' <-> quiet_by (always e) s s'.
Proof. intros e s s'. split; intros H; induction H; econstructor; eauto. Qed.
Lemma fed_always : forall e cs s s', fed e cs s s' <-> fed_by (always e) cs s s'.
Proof. intros e cs s s'. split; intros H; induction H; econstructor; eauto; apply quiet_always; assumption. Qed.

Lemma quiet_esteps : forall e s s', quiet e s s' -> exists os, esteps (always e) os s s' /\ somes os = [] /\ polling s'.
Proof. intros e s s' H. apply quiet_by_esteps, quiet_always. exact H. Qed.
Lemma fed_esteps : forall e cs s s', fed e cs s s' -> exists os, esteps (always e) os s s' /\ somes os = cs /\ polling s'.
Proof. intros e cs s s' H. apply fed_by_esteps, fed_always. exact H. Qed.

Lemma fed_app : forall e a b s s1 s2, fed e a s s1 -> fed e b s1 s2 -> fed e (a ++ b) s s2.
Proof. intros e a b s s1 s2 H. induction H; intros H'; cbn [app]; auto. econstructor; eauto. Qed.

Lemma fed_polling : forall e cs s s', fed e cs s s' -> polling s /\ polling s'.
Proof. intros e cs s s' H. induction H; tauto. Qed.

Lemma fed_reads : forall e cs s s', fed e cs s s' -> reads s cs s'.
Proof. intros e cs s s' H. apply fed_esteps in H as (os & H & <- & _). eapply esteps_reads; eauto. Qed.

Lemma quiet_reads : forall e s s', quiet e s s' -> reads s [] s'.
Proof. intros e s s' H. apply quiet_esteps in H as (os & H & <- & _). eapply esteps_reads; eauto. Qed.

Lemma quiet_det : forall e s s1 s2, quiet e s s1 -> quiet e s s2 -> s1 = s2.
Proof.
  intros e s s1 s2 H1 H2. apply quiet_esteps in H1 as (o1 & A1 & A2 & A3), H2 as (o2 & B1 & B2 & B3).
  eapply esteps_det; eauto. congruence.
Qed.

Lemma quiet_trans_step : forall e s b s1 s2, ~ polling s -> ush_service (tick e None) s = Ok (b, s1) ->
  quiet e s1 s2 -> quiet e s s2.
Proof. intros. econstructor; eauto. Qed.

(** ** The driver *)
Lemma drive_esteps : forall e l q s q' s', drive e q l s = Ok (q', s') ->
  exists os, esteps e os s s' /\ q = somes os ++ q'.
Proof.
  intros e l. induction l as [|[r w] l IH]; intros q s q' s' H; cbn [drive] in H.
  - oks. exists []. split; [constructor|reflexivity].
  - ok1. destruct a as [b s1]. apply IH in H as (os & H & Q).
    pose proof (service_cases _ _ _ _ E) as [->|[(c & Hc & X)|X]].
    + exists os. split; auto. rewrite <- Q.
      destruct (polling_dec s) as [P|P].
      * rewrite P. destruct r; [|reflexivity]. destruct q as [|c q]; [reflexivity|]. exfalso.
        apply service_poll in E; auto. cbn in E. destruct E as [_ E].
        apply (f_equal (@length _)) in E. rewrite app_length in E. cbn in E. lia.
      * unfold polling in P. destruct (o_state s); congruence.
    + exists (Some c :: os). split; [econstructor; eauto|]. cbn [io_rd] in Hc.
      destruct X as [P _]. rewrite P in Q. rewrite Hc in Q. destruct r; [|discriminate].
      destruct q as [|c' q]; [discriminate|]. injection Hc as ->. cbn [tl] in Q.
      cbn [somes flat_map app]. fold (somes os). rewrite <- Q. reflexivity.
    + exists (None :: os). split; [econstructor; eauto|]. cbn [somes flat_map app]. fold (somes os).
      rewrite <- Q. destruct X as [P _]. unfold polling in P. destruct (o_state s); congruence.
Qed.

Lemma drive_det : forall e q l1 l2 s q' s1 s2,
  drive e q l1 s = Ok (q', s1) -> drive e q l2 s = Ok (q', s2) -> polling s1 -> polling s2 -> s1 = s2.
Proof.
  intros e q l1 l2 s q' s1 s2 H1 H2 P1 P2.
  apply drive_esteps in H1 as (o1 & A & A'), H2 as (o2 & B & B').
  eapply esteps_det; eauto. rewrite A' in B'. apply app_inv_tail in B'. exact B'.
Qed.

(** Write not ready: no error that a ready one would not give. *)
Lemma service_any : forall e o s s', estep e o s s' -> forall r w,
  (match o with Some c => r = Some c | None => True end) ->
  exists b, ush_service (mkIo r w e) s = Ok (b, s') \/
            (w = false /\ o = None /\ ush_service (mkIo r w e) s = Ok (b, s)).
Proof.
  intros e o s s' (P & b & H) r w R. destruct o as [c|].
  - subst r. exists b. left. rewrite <- H. apply svc_wr. rewrite P. discriminate.
  - unfold tick in H. rewrite (svc_rd None r) in H by auto.
    destruct w; [eauto|].
    destruct (o_state s) eqn:E;
      try (exists b; left; rewrite <- H; apply svc_wr; rewrite E; discriminate).
    rewrite service_eq in H |- *. destruct (o_cur s); [|discriminate].
    unfold svc, ush_write_char in *. rewrite E in *. cbn [io_wr] in *.
    destruct (o_wsize s <=? o_wpos s); [eauto|].
    destruct (wbuf_rd s (o_wpos s)); cbn [bind] in *; [|discriminate]. eauto.
Qed.

Lemma polling_none : forall e w s, polling s -> o_cur s <> None -> ush_service (mkIo None w e) s = Ok (false, s).
Proof.
  intros e w s P C. rewrite service_eq. destruct (o_cur s); [|congruence].
  unfold svc. rewrite P. reflexivity.
Qed.

Lemma estep_cur : forall e o s s', estep e o s s' -> o_cur s <> None.
Proof. intros e o s s' (_ & b & H). rewrite service_eq in H. destruct (o_cur s); [discriminate|discriminate H]. Qed.

Lemma drive_total : forall e l os s s', esteps e os s s' -> polling s' -> o_cur s' <> None ->
  exists q1 s1 os1, drive e (somes os) l s = Ok (q1, s1) /\
    esteps e os1 s1 s' /\ q1 = somes os1 /\ length os1 <= length os - both_ready l.
Proof.
  intros e l. induction l as [|[r w] l IH]; intros os s s' H P C.
  - exists (somes os), s, os. repeat split; auto. unfold both_ready; cbn [filter length]. lia.
  - cbn [drive]. destruct H as [s|o os s s2 s' H1 H2].
    + cbn [somes flat_map hd_error]. replace (if r then None else None) with (@None byte) by (destruct r; auto).
      rewrite polling_none by auto. cbn [bind].
      destruct (IH [] s s (es_nil _ _) P C) as (q1 & s1 & os1 & D & X & Y & Z).
      exists q1, s1, os1. rewrite P. repeat split; auto.
    + assert (BR : both_ready ((r, w) :: l) = (if r && w then 1 else 0) + both_ready l).
      { unfold both_ready. cbn [filter fst snd]. destruct (r && w); reflexivity. }
      rewrite BR. cbn [length].
      destruct o as [c|].
      * cbn [somes flat_map app]. fold (somes os).
        destruct r.
        -- destruct (service_any _ _ _ _ H1 (Some c) w eq_refl) as (b & [S|(_ & X & _)]); [|discriminate].
           cbn [hd_error tl]. rewrite S. cbn [bind]. destruct H1 as [P1 _]. rewrite P1.
           destruct (IH os s2 s' H2 P C) as (q1 & s1 & os1 & D & X & Y & Z).
           exists q1, s1, os1. repeat split; auto. destruct w; cbn [andb]; lia.
        -- rewrite polling_none; [|destruct H1; auto|eapply estep_cur; eauto]. cbn [bind].
           destruct (IH (Some c :: os) s s' (es_cons _ _ _ _ _ _ H1 H2) P C) as (q1 & s1 & os1 & D & X & Y & Z).
           exists q1, s1, os1. destruct H1 as [P1 _]. rewrite P1. repeat split; auto.
      * cbn [somes flat_map app]. fold (somes os).
        assert (Q : forall (x : option byte), match o_state s, x with S_READ_CHAR, Some _ => tl (somes os) | _, _ => somes os end = somes os).
        { intros x. destruct H1 as [P1 _]. unfold polling in P1. destruct (o_state s); congruence. }
        rewrite Q.
        destruct (service_any _ _ _ _ H1 (if r then hd_error (somes os) else None) w I) as (b & [S|(-> & _ & S)]);
          rewrite S; cbn [bind].
        -- destruct (IH os s2 s' H2 P C) as (q1 & s1 & os1 & D & X & Y & Z).
           exists q1, s1, os1. repeat split; auto. destruct (r && w); lia.
        -- destruct (IH (None :: os) s s' (es_cons _ _ _ _ _ _ H1 H2) P C) as (q1 & s1 & os1 & D & X & Y & Z).
           exists q1, s1, os1. rewrite andb_false_r. repeat split; auto.
Qed.

Lemma service_cur_ok : forall i s b s', ush_service i s = Ok (b, s') -> o_cur s <> None.
Proof. intros i s b s' H. rewrite service_eq in H. destruct (o_cur s); [discriminate|discriminate H]. Qed.

Theorem fed_drive : forall e cs s s', fed_by e cs s s' -> o_cur s' <> None ->
  (forall l, exists q s1, drive e cs l s = Ok (q, s1) /\ (q = [] -> polling s1 -> s1 = s')) /\
  exists n, forall l, n <= both_ready l -> drive e cs l s = Ok ([], s').
Proof.
  intros e cs s s' H C. apply fed_by_esteps in H as (os & H & <- & P). split.
  - intros l. destruct (drive_total e l os s s' H P C) as (q1 & s1 & os1 & D & X & Y & Z).
    exists q1, s1. split; auto. intros -> P1. eapply esteps_det; [constructor|exact X|auto|auto|exact Y].
  - exists (length os). intros l L.
    destruct (drive_total e l os s s' H P C) as (q1 & s1 & os1 & D & X & Y & Z).
    assert (length os1 = 0) by lia. destruct os1; [|discriminate]. inversion X; subst. exact D.
Qed.

Lemma fed_by_app : forall e a b s s1 s2, fed_by e a s s1 -> fed_by e b s1 s2 -> fed_by e (a ++ b) s s2.
Proof. intros e a b s s1 s2 H. induction H; intros H'; cbn [app]; auto. econstructor; eauto. Qed.
Lemma fed_by_reads : forall e cs s s', fed_by e cs s s' -> reads s cs s'.
Proof. intros e cs s s' H. apply fed_by_esteps in H as (os & H & <- & _). eapply esteps_reads; eauto. Qed.

(** Reading a byte involves no callback of the application. *)
Lemma poll_env : forall e e' r w s, polling s -> ush_service (mkIo r w e) s = ush_service (mkIo r w e') s.
Proof. intros e e' r w s P. rewrite !service_eq. destruct (o_cur s); [|reflexivity]. unfold svc. rewrite P. reflexivity. Qed.

(** An application whose callbacks depend on the bytes read so far. *)
Lemma quiet_on_input : forall f s s', quiet (f (ins (lg s))) s s' -> quiet_by (fun l => f (ins l)) s s'.
Proof.
  intros f s s' H. remember (ins (lg s)) as h eqn:E. induction H as [s P|s b s1 s2 N H1 H2 IH]; [constructor; exact P|].
  econstructor; [exact N|rewrite <- E; exact H1|]. apply IH. apply service_ins in H1; auto. congruence.
Qed.
Lemma fed_on_input : forall f c s s', fed (f (ins (lg s) ++ [c])) [c] s s' -> fed_by (fun l => f (ins l)) [c] s s'.
Proof.
  intros f c s s' H. inversion H as [|? ? ? b s1 s2 ? P H1 H2 H3]; subst. inversion H3; subst.
  econstructor; [exact P|unfold tick; rewrite (poll_env _ (f (ins (lg s) ++ [c]))) by exact P; exact H1| |constructor; assumption].
  apply quiet_on_input. replace (ins (lg s1)) with (ins (lg s) ++ [c]); [exact H2|].
  apply service_poll in H1; auto. cbn [tick io_rd] in H1. destruct H1 as [_ ->]. rewrite ins_app. reflexivity.
Qed.
