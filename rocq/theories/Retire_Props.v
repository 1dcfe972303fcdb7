(** C82: replacing the server groups never touches freed memory, and the old ones stop and are freed. *)
From Verif Require Import Base BaseFacts Retire_Model Retire_Spec Retire_Proofs.
Require Import ZifyBool ZifyNat.

(** An execution used below: two groups are started, one UDP and one TCP from a group file; a query is sent; the groups are replaced; both end; the memory is given back. *)
Definition ex_events : list event :=
  [EStart true false; EWork 0 Ordinary; EStart false true; EPublish; EBegin 1 0; ESend 1; EWork 0 Ordinary; EWork 1 Ordinary; EReplace; EWork 1 Ordinary; EClean; EClean; EClean; EClean; EClean; EClean; EClean;
   EWork 0 Ordinary; EWork 0 Ordinary; EWork 0 Ordinary; EWork 0 Ordinary; EWork 1 Ordinary; EWork 1 Ordinary; EWork 1 Ordinary; EWork 1 Ordinary; ESweep 0; ESweep 0; ESweep 0; ESweep 0;
   EClean; EClean; EClean; EClean; EClean; EClean; EClean; EClean].
Definition ex_trace : list label := match run (st0 3) ex_events with Some (tr, _) => tr | None => [] end.
Definition ex_state : st := match run (st0 3) ex_events with Some (_, s) => s | None => st0 0 end.
(** The same up to the middle: the groups have been replaced and their workers not yet ended. *)
Definition ex_mid : list event := firstn 17 ex_events.

(** Whatever the threads do and in whatever order: if no load fails after a group was started, and no UDP group gives up by itself while it is in use, then nothing touches freed memory, but for the name in
    a message about a group that came from a group file. *)
Theorem C82_safe_partial n es tr s : run (st0 n) es = Some (tr, s) -> calm tr ->
  forall a b, In (a, b) tr -> b = true \/ exists i udp, a = Reports i /\ nth_error (groups tr) i = Some (udp, true).
Proof. intros H C a b X. destruct (run_inv _ _ _ _ H) as (_ & F). specialize (F C). rewrite Forall_forall in F. destruct (F _ X) as [K|(i & u & K1 & K2)]; [left; exact K|right; exists i, u; auto]. Qed.
Print Assumptions C82_safe_partial.

(** The memory of a group is given back at most once for each of its parts (addresses, and for UDP the table of pending queries), and has been when the groups themselves are given back. *)
Theorem C82_freed n es tr s : run (st0 n) es = Some (tr, s) ->
  (forall i udp file, nth_error (groups tr) i = Some (udp, file) -> (releases i tr <= if udp then 2 else 1)%nat /\ (In Drop (map fst tr) -> releases i tr = if udp then 2%nat else 1%nat)) /\
  (forall i, nth_error (groups tr) i = None -> releases i tr = 0%nat).
Proof.
  intros H. destruct (run_inv _ _ _ _ H) as (I0 & _). split.
  - intros i u f G. destruct (nth_groups _ _ _ _ _ I0 G) as (m & M & <-). destruct (i_mods _ _ I0 i m M) as (Jm & ->). split; [apply freed_le|]. intros D. apply freed_dead; [exact Jm|].
    pose proof (i_phase _ _ I0) as IP. rewrite (i_drop _ _ I0 D) in IP. destruct IP as (_ & U). exact (U (or_intror D) i m (nth_lt _ _ _ M) M).
  - intros i G. apply (i_fresh _ _ I0). rewrite <- (i_groups _ _ I0) in G. apply nth_error_None in G. rewrite map_length in G. exact G.
Qed.
Print Assumptions C82_freed.

(** A group that has been told to stop makes at most one more turn. *)
Theorem C82_stops n es tr s : run (st0 n) es = Some (tr, s) -> forall pre i b post, tr = pre ++ (Order i, b) :: post -> (turns i post <= 1)%nat.
Proof.
  intros H pre i b post T. destruct (run_split _ _ _ _ _ _ _ H T) as (es1 & e & es2 & s1 & s2 & _ & _ & E & R). destruct (step_order _ _ _ _ _ E) as (m & M & F). pose proof (run_owed _ _ _ _ _ _ R M F). unfold owed in *. destruct (m_wk m); lia.
Qed.
Print Assumptions C82_stops.

(** Replaced groups can be given back in every situation: nothing can happen that makes it impossible. *)
Theorem C82_ends n es tr s : run (st0 n) es = Some (tr, s) -> In Replace (map fst tr) -> exists es' tr' s', run (st0 n) (es ++ es') = Some (tr ++ tr', s') /\ In Drop (map fst (tr ++ tr')).
Proof.
  intros H R. pose proof (replaced _ _ _ _ H R) as P. destruct (run_inv _ _ _ _ H) as (I0 & _). destruct s as [p ms qs]. cbn [s_phase] in P. destruct p as [| |c|]; try destruct P.
  - destruct (old_ends _ _ _ _ I0) as (ms' & es' & tr' & R'). exists (es' ++ [EClean]), (tr' ++ [(Drop, true)]), (mk_st PGone ms' qs). rewrite run_app, H, run_app, R'. split; [reflexivity|]. rewrite !map_app, !in_app_iff. cbn. auto.
  - exists [], [], (mk_st PGone ms qs). rewrite !app_nil_r. auto.
Qed.
Print Assumptions C82_ends.

(** A load that fails after a group was started frees the group under the hands of its threads. *)
Theorem C82_fail_refuted : exists n es tr s, run (st0 n) es = Some (tr, s) /\ (forall u i b, ~ In (GiveUp u i, b) tr) /\ groups tr = [(true, false)] /\ In (Turn 0, false) tr.
Proof.
  exists 1%nat, [EStart true false; EWork 0 Ordinary; EFail; EWork 0 Ordinary]. eexists. eexists. split; [vm_compute; reflexivity|]. split; [|split; [reflexivity|cbn; tauto]].
  intros u i b [X|[X|[X|[X|[]]]]]; discriminate X.
Qed.
Print Assumptions C82_fail_refuted.

(** A UDP group that gives up by itself has freed what the next query to it uses. *)
Theorem C82_fatal_refuted : exists n es tr s, run (st0 n) es = Some (tr, s) /\ ~ In Fail (map fst tr) /\ ~ In Replace (map fst tr) /\ In (Send 0, false) tr.
Proof.
  exists 1%nat, [EStart true false; EPublish; EWork 0 Ordinary; EWork 0 Fatal; EWork 0 Ordinary; EWork 0 Ordinary; EBegin 0 0; ESend 0]. eexists. eexists. split; [vm_compute; reflexivity|].
  cbn. repeat split; try (intros X; repeat (destruct X as [X|X]; [discriminate X|]); exact X). tauto.
Qed.
Print Assumptions C82_fatal_refuted.

(** An error of a group from a group file is reported with a name that has been freed, however quietly everything else goes. *)
Theorem C82_name_refuted : forall udp, exists n es tr s, run (st0 n) es = Some (tr, s) /\ calm tr /\ groups tr = [(udp, true)] /\ In (Reports 0, false) tr.
Proof.
  intros udp. exists 0%nat, [EStart udp true; EPublish; EWork 0 Ordinary; EWork 0 Report]. eexists. eexists. split; [cbn; reflexivity|]. split; [|split; [reflexivity|destruct udp; cbn; tauto]].
  split.
  - intros pre b post E. destruct pre as [|? [|? [|? [|? [|? pre]]]]]; discriminate E.
  - intros pre i b post E. destruct pre as [|? [|? [|? [|? [|? pre]]]]]; discriminate E.
Qed.
Print Assumptions C82_name_refuted.

(** A query that was sent to a group before it was replaced may get no reply: the worker ends without another turn. *)
Theorem C82_pending_refuted : exists n es tr s pre post, run (st0 n) es = Some (tr, s) /\ calm tr /\ tr = pre ++ (Send 0, true) :: post /\ turns 0 post = 0%nat /\ In Drop (map fst post).
Proof.
  exists 1%nat, [EStart false false; EPublish; EBegin 0 0; ESend 0; EReplace; EClean; EClean; EWork 0 Ordinary; EWork 0 Ordinary; EWork 0 Ordinary; EWork 0 Ordinary; EClean; EClean; EClean].
  eexists. eexists. eexists [_; _; _]. eexists. split; [vm_compute; reflexivity|]. split; [|split; [reflexivity|split; [reflexivity|cbn; tauto]]].
  split.
  - intros pre b post E. do 15 (destruct pre as [|? pre]; [discriminate E|]); discriminate E.
  - intros pre i b post E. do 15 (destruct pre as [|? pre]; [discriminate E|]); discriminate E.
Qed.
Print Assumptions C82_pending_refuted.

Example C82_nonvacuous :
  run (st0 3) ex_events = Some (ex_trace, ex_state) /\ calm ex_trace /\ groups ex_trace = [(true, false); (false, true)] /\ In (Send 0, true) ex_trace /\ In (Order 1, true) ex_trace /\
  In Drop (map fst ex_trace) /\ releases 0 ex_trace = 2%nat /\ releases 1 ex_trace = 1%nat /\ turns 1 ex_trace = 1%nat /\
  (exists tr s, run (st0 3) ex_mid = Some (tr, s) /\ In Replace (map fst tr) /\ ~ In Drop (map fst tr)).
Proof.
  split; [vm_compute; reflexivity|]. split.
  { assert (F : forallb (fun l => match fst l with Fail | GiveUp _ _ => false | _ => true end) ex_trace = true) by (vm_compute; reflexivity). rewrite forallb_forall in F. split.
    - intros pre b post E. assert (X : In (Fail, b) ex_trace) by (rewrite E, in_app_iff; cbn; auto). discriminate (F _ X).
    - intros pre i b post E. assert (X : In (GiveUp true i, b) ex_trace) by (rewrite E, in_app_iff; cbn; auto). discriminate (F _ X). }
  split; [vm_compute; reflexivity|]. split; [vm_compute; repeat (first [left; reflexivity|right])|]. split; [vm_compute; repeat (first [left; reflexivity|right])|]. split; [vm_compute; repeat (first [left; reflexivity|right])|].
  split; [vm_compute; reflexivity|]. split; [vm_compute; reflexivity|]. split; [vm_compute; reflexivity|].
  assert (K : match run (st0 3) ex_mid with Some (tr, _) => In Replace (map fst tr) /\ ~ In Drop (map fst tr) | None => False end).
  { vm_compute. split; [repeat (first [left; reflexivity|right])|]. intros X. repeat (destruct X as [X|X]; [discriminate X|]). exact X. }
  destruct (run (st0 3) ex_mid) as [[tr s]|]; [|destruct K]. exists tr, s. auto.
Qed.
Print Assumptions C82_nonvacuous.
