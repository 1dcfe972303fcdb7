From Verif Require Import Base BaseFacts List2Facts Queue_Model Queue_Props Wtask_Model Wtask_Spec Wtask_Proofs.
From Coq Require Import Permutation Sorting.Sorted.
Require Import ZifyBool ZifyNat.

(** * C84: timed tasks on Windows *)

(** No task is lost or invented, and only tasks that are not periodic are ever over, for all executions. *)
Theorem C84_none_lost now es s : ws_run (ws_init now) es = Some s ->
  Permutation (wids (ws_queue s ++ held_of (ws_phase s) ++ ws_msgs s ++ ws_flight s ++ ws_over s)) (wall_posted es) /\ forall t, In t (ws_over s) -> wt_persistent t = false.
Proof.
  intros E. split; [pose proof (run_wids es _ _ E) as X; change (wids (all_of (ws_init now))) with (@nil Z) in X; rewrite app_nil_r in X; exact X|].
  assert (H0 : only_once (ws_init now)) by constructor. intros t. apply (proj1 (Forall_forall _ _) (run_over es _ _ H0 E)).
Qed.
Print Assumptions C84_none_lost.

(** A message never waits for a sleeping scheduler: while it sleeps and there is a message, the event is set, so that its wait ends. *)
Theorem C84_wakeup now es s h start : ws_run (ws_init now) es = Some s -> ws_phase s = Waiting h start -> ws_msgs s <> [] ->
  exists s1 s2, ws_step s WSignal = Some s1 /\ ws_step s1 WTake = Some s2 /\ ws_phase s2 = Top /\ length (ws_msgs s) = S (length (ws_msgs s2)).
Proof.
  intros E Ep Hm. destruct (reach_winv _ _ _ E) as (_ & _ & _ & _ & HP). unfold phase_ok in HP. rewrite Ep in HP. destruct HP as (_ & Hev & _). specialize (Hev Hm).
  cbn [ws_step]. rewrite Ep, Hev. destruct (ws_msgs s) as [|n ms] eqn:Em; [congruence|]. destruct h as [t|]; cbv zeta; eexists; eexists; (split; [reflexivity|]); cbn [ws_step ws_phase ws_msgs q_get]; (split; [reflexivity|]); split; reflexivity.
Qed.
Print Assumptions C84_wakeup.
(** The scheduler always has a step to do, or a task whose time it waits for, or there is neither a task to wait for nor a message. *)
Theorem C84_never_stuck now es s : ws_run (ws_init now) es = Some s ->
  (exists e s', In e [WPeek; WTake; WDone] /\ ws_step s e = Some s') \/
  (exists t start s', ws_phase s = Waiting (Some t) start /\ ws_run s [WPass (wt_left t); WTimeout] = Some s') \/
  (exists start, ws_phase s = Waiting None start /\ ws_queue s = [] /\ (ws_msgs s = [] \/ ws_event s = true)).
Proof.
  intros E. destruct (reach_winv _ _ _ E) as (_ & _ & _ & _ & HP). unfold phase_ok in HP. destruct (ws_phase s) as [|[t|] start|h|t] eqn:Ep.
  - left. exists WPeek. cbn [ws_step]. rewrite Ep. destruct (q_get (ws_queue s)) as (h & q). destruct (q_get (ws_msgs s)) as ([n|] & ms); eexists; (split; [left; reflexivity|reflexivity]).
  - right. left. destruct HP as (Hst & _ & Ht & _). unfold wok in Ht. exists t, start. cbn [ws_run ws_step]. destruct (Z.leb_spec 0 (wt_left t)); [|lia]. cbn [ws_phase ws_now]. rewrite Ep. destruct (Z.leb_spec (wt_left t) (ws_now s + wt_left t - start)); [|lia]. eexists. split; reflexivity.
  - right. right. destruct HP as (Hst & Hev & Hq). exists start. split; [reflexivity|]. split; [exact Hq|]. destruct (ws_msgs s) as [|n ms]; [left; reflexivity|right; apply Hev; congruence].
  - left. exists WTake. cbn [ws_step]. rewrite Ep. destruct (q_get (ws_msgs s)) as ([n|] & ms); eexists; (split; [right; left; reflexivity|reflexivity]).
  - left. exists WDone. cbn [ws_step]. rewrite Ep. eexists. split; [right; right; left; reflexivity|reflexivity].
Qed.
Print Assumptions C84_never_stuck.
(** As many turns as there are messages put all of them into the queue of tasks. *)
Theorem C84_drain s : ws_phase s = Top -> exists s', ws_run s (repeat WPeek (length (ws_msgs s))) = Some s' /\
  ws_phase s' = Top /\ ws_msgs s' = [] /\ Permutation (wids (ws_queue s')) (wids (ws_msgs s ++ ws_queue s)) /\ ws_runs s' = ws_runs s /\ ws_flight s' = ws_flight s.
Proof.
  remember (length (ws_msgs s)) as n eqn:En. revert s En. induction n as [|n IH]; intros s En Ep; cbn [repeat ws_run].
  - exists s. destruct (ws_msgs s); [|discriminate]. auto 10.
  - destruct (ws_msgs s) as [|m ms] eqn:Em; [discriminate|]. injection En as En. cbn [ws_step]. rewrite Ep, Em. cbn [q_get]. destruct (ws_queue s) as [|t q] eqn:Eq; cbn [q_get].
    + edestruct IH as (s' & R & P1 & P2 & P3 & P4 & P5); [| |exists s'; split; [exact R|]]; [cbn [ws_new ws_msgs]; exact En|reflexivity|]. repeat (split; [assumption|]). cbn [ws_new ws_msgs ws_queue] in P3. split; [|auto]. rewrite P3, !wids_app, wids_add. cbn [app]. change (wids (m :: ms)) with (wt_id m :: wids ms). change (wids []) with (@nil Z). rewrite app_nil_r. cbn [app]. symmetry. apply Permutation_cons_append.
    + edestruct IH as (s' & R & P1 & P2 & P3 & P4 & P5); [| |exists s'; split; [exact R|]]; [cbn [ws_new ws_msgs]; exact En|reflexivity|]. repeat (split; [assumption|]). cbn [ws_new ws_msgs ws_queue] in P3. split; [|auto]. rewrite P3, !wids_app, wids_add, wids_reduce, wids_add. change (wids (m :: ms)) with (wt_id m :: wids ms). change (wids (t :: q)) with (wt_id t :: wids q). cbn [app]. symmetry. apply Permutation_middle.
Qed.
Print Assumptions C84_drain.
(** The message posted last is taken first. *)
Theorem C84_last_first s m1 p1 a1 i1 d1 m2 p2 a2 i2 d2 s' : ws_phase s = Top -> ws_run s [WPost m1 d1 p1 a1 i1; WPost m2 d2 p2 a2 i2; WPeek] = Some s' ->
  Permutation (wids (ws_queue s')) (m2 :: wids (ws_queue s)) /\ wids (ws_msgs s') = m1 :: wids (ws_msgs s).
Proof.
  intros Ep. cbn [ws_run ws_step]. destruct (_ && _); [|discriminate]. cbn [ws_post]. destruct (_ && _); [|discriminate]. cbn [ws_post ws_phase ws_now ws_queue ws_msgs]. rewrite Ep, !post_head. cbn [q_get]. destruct (ws_queue s) as [|t q]; cbn [q_get]; intros E; sinj E; unfold ws_new; cbn [ws_queue ws_msgs]; (split; [|reflexivity]); rewrite wids_add; [reflexivity|]. rewrite wids_reduce, wids_add. reflexivity.
Qed.
Print Assumptions C84_last_first.

(** Whatever starts a task, it is one with the least remaining time of those the scheduler has, and it is started once, now. *)
Theorem C84_order now es s e s' : ws_run (ws_init now) es = Some s -> ws_step s e = Some s' ->
  ws_runs s' = ws_runs s \/
  (e = WTimeout \/ e = WTake) /\ exists t, ws_runs s' = (t, ws_now s) :: ws_runs s /\ wids (held_of (ws_phase s)) = [wt_id t] /\
    wids (ws_queue s') = wids (ws_queue s) /\ (forall y, In y (ws_queue s') -> wt_left t <= wt_left y) /\
    (if wt_async t then ws_phase s' = Top /\ ws_flight s' = t :: ws_flight s else ws_phase s' = Running t /\ ws_flight s' = ws_flight s).
Proof.
  intros E E2. destruct (reach_winv _ _ _ E) as (HQ & _ & _ & HS & HP). unfold phase_ok in HP. destruct e as [d|id ms p a im|k| | | | | ]; cbn [ws_step] in E2.
  - destruct (0 <=? d); [|discriminate]. sinj E2. left. reflexivity.
  - destruct (_ && _); [|discriminate]. sinj E2. left. reflexivity.
  - destruct (nth_error (ws_flight s) k) as [t|]; [|discriminate]. sinj E2. left. destruct (wt_persistent t); reflexivity.
  - destruct (ws_phase s); try discriminate. destruct (q_get (ws_queue s)) as (h & q). destruct (q_get (ws_msgs s)) as ([n|] & ms); sinj E2; left; reflexivity.
  - destruct (ws_phase s) as [|h st| |]; try discriminate. destruct (ws_event s); [|discriminate]. destruct h; cbv zeta in E2; sinj E2; left; reflexivity.
  - right. split; [left; reflexivity|]. destruct (ws_phase s) as [|[t|] st| |] eqn:Ep; try discriminate. destruct (Z.leb_spec (wt_left t) (ws_now s - st)); [|discriminate]. sinj E2. destruct HP as (_ & _ & Ht & HL). exists (wt_set 0 t). unfold wok in Ht.
    assert (X : forall y, In y (wt_reduce (wt_left t - 0) (ws_queue s)) -> wt_left (wt_set 0 t) <= wt_left y). { apply Forall_forall. apply (wreduce_Forall (fun _ => True)); [lia|exact HQ|apply Forall_forall; auto|]. intros y Hy _. cbn [wt_set wt_left]. lia. }
    unfold ws_start. cbn [wt_set wt_async]. destruct (wt_async t); cbn [ws_runs ws_queue ws_phase ws_flight held_of]; rewrite wids_reduce; auto 10.
  - destruct (ws_phase s) as [| |[t|]|] eqn:Ep; try discriminate; destruct (ws_msgs s) as [|n ms] eqn:Em; cbn [q_get] in E2; sinj E2; try (left; reflexivity).
    right. split; [right; reflexivity|]. destruct HP as (Ht & He & HL). exists t. assert (X : forall y, In y (wt_reduce (ws_elapsed s) (ws_queue s)) -> wt_left t <= wt_left y). { apply Forall_forall. apply (wreduce_Forall (fun y => wt_left t + ws_elapsed s <= wt_left y)); [exact He|exact HQ|exact HL|]. intros y Hy. cbn [wt_set wt_left]. lia. }
    unfold ws_start. destruct (wt_async t); cbn [ws_runs ws_queue ws_phase ws_flight held_of]; rewrite wids_reduce; auto 10.
  - destruct (ws_phase s) as [| | |t]; try discriminate. sinj E2. left. destruct (wt_persistent t); reflexivity.
Qed.
Print Assumptions C84_order.

(** The turns of the scheduler in full.  A task whose time is over is started; all others have as much less to wait. *)
Theorem C84_timeout now es s t start : ws_run (ws_init now) es = Some s -> ws_phase s = Waiting (Some t) start ->
  (wt_left t <= ws_now s - start <-> exists s', ws_step s WTimeout = Some s') /\
  forall s', ws_step s WTimeout = Some s' -> Forall2 (wshort (wt_left t)) (ws_queue s) (ws_queue s') /\ ws_msgs s' = ws_msgs s /\ ws_event s' = ws_event s /\ ws_now s' = ws_now s.
Proof.
  intros E Ep. destruct (reach_winv _ _ _ E) as (HQ & _ & _ & _ & HP). unfold phase_ok in HP. rewrite Ep in HP. destruct HP as (_ & _ & Ht & _). unfold wok in Ht. cbn [ws_step]. rewrite Ep. split.
  - split; [intros H; destruct (Z.leb_spec (wt_left t) (ws_now s - start)); [eexists; reflexivity|lia]|intros (s' & H); destruct (Z.leb_spec (wt_left t) (ws_now s - start)); [assumption|discriminate]].
  - intros s' H. destruct (_ <=? _); [|discriminate]. sinj H. replace (wt_left t - 0) with (wt_left t) by lia. unfold ws_start. cbn [wt_set wt_async]. destruct (wt_async t); cbn [ws_queue ws_msgs ws_event ws_now]; (split; [apply wreduce_short; [lia|exact HQ]|auto]).
Qed.
Print Assumptions C84_timeout.
(** A task that arrives while another has been waited for during [el]: the others lose [el], but the one waited for loses it twice. *)
Theorem C84_arrival now es s t start n ms : ws_run (ws_init now) es = Some s -> ws_phase s = Waiting (Some t) start -> ws_msgs s = n :: ms -> ws_now s - start < 4294967296 ->
  exists s' t' q', ws_run s [WSignal; WTake] = Some s' /\ ws_phase s' = Top /\ ws_msgs s' = ms /\ ws_event s' = false /\ ws_runs s' = ws_runs s /\
    let el := Z.min (ws_now s - start) (wt_left t) in
    wshort (2 * el) t t' /\ Forall2 (wshort el) (ws_queue s) q' /\ Permutation (ws_queue s') (n :: t' :: q').
Proof.
  intros E Ep Em Hlt. destruct (reach_winv _ _ _ E) as (HQ & _ & _ & _ & HP). unfold phase_ok in HP. rewrite Ep in HP. destruct HP as (Hst & Hev & Ht & _). rewrite Em in Hev. specialize (Hev ltac:(discriminate)). unfold wok in Ht.
  cbn [ws_run ws_step]. rewrite Ep, Hev. rewrite Z.mod_small by lia. rewrite cut_left by lia. set (el := ws_now s - start) in *. cbn [ws_phase ws_msgs ws_queue ws_elapsed]. rewrite Em. cbn [q_get]. replace (wt_left t - Z.max 0 (wt_left t - el)) with (Z.min el (wt_left t)) by lia.
  eexists. exists (wt_set (Z.max 0 (wt_left t - 2 * Z.min el (wt_left t))) t), (wt_reduce (Z.min el (wt_left t)) (ws_queue s)). split; [reflexivity|]. unfold ws_new. cbn [ws_phase ws_msgs ws_event ws_runs ws_queue]. repeat (split; [reflexivity|]). cbv zeta. split; [unfold wshort; cbn [wt_set wt_id wt_timeout wt_persistent wt_async wt_due wt_left]; auto 10|].
  split; [apply wreduce_short; [lia|exact HQ]|]. rewrite wadd_perm. apply perm_skip. unfold wt_reduce at 1. rewrite (Permutation_map _ (wadd_perm _ _)). cbn [map]. fold (wt_reduce (Z.min el (wt_left t)) (ws_queue s)).
  match goal with |- Permutation (?x :: ?a) (?y :: ?a) => replace x with y; [reflexivity|] end. unfold wt_set. cbn [wt_id wt_timeout wt_persistent wt_async wt_due wt_left]. rewrite cut_left by lia. f_equal. lia.
Qed.
Print Assumptions C84_arrival.
(** A message that is there at the beginning of a turn costs nobody time. *)
Theorem C84_arrival_at_once now es s n ms : ws_run (ws_init now) es = Some s -> ws_phase s = Top -> ws_msgs s = n :: ms ->
  exists s' q', ws_step s WPeek = Some s' /\ ws_phase s' = Top /\ ws_msgs s' = ms /\ ws_event s' = ws_event s /\ ws_runs s' = ws_runs s /\ Forall2 (wshort 0) (ws_queue s) q' /\ Permutation (ws_queue s') (n :: q').
Proof.
  intros E Ep Em. destruct (reach_winv _ _ _ E) as (HQ & _). cbn [ws_step]. rewrite Ep, Em. cbn [q_get]. destruct (ws_queue s) as [|t q] eqn:Eq; cbn [q_get]; eexists.
  - exists []. split; [reflexivity|]. unfold ws_new. cbn [ws_phase ws_msgs ws_event ws_runs ws_queue q_add]. auto 10.
  - exists (wt_reduce (wt_left t - wt_left t) (t :: q)). split; [reflexivity|]. unfold ws_new. cbn [ws_phase ws_msgs ws_event ws_runs ws_queue]. repeat (split; [reflexivity|]). rewrite Z.sub_diag. split; [apply wreduce_short; [lia|exact HQ]|]. rewrite wadd_perm. apply perm_skip. unfold wt_reduce. apply Permutation_map, wadd_perm.
Qed.
Print Assumptions C84_arrival_at_once.
(** An event whose message was taken before starts the task that is waited for, however long it still has to wait. *)
Theorem C84_stale now es s t start : ws_run (ws_init now) es = Some s -> ws_phase s = Waiting (Some t) start -> ws_msgs s = [] -> ws_event s = true -> ws_now s - start < 4294967296 ->
  exists s' t', ws_run s [WSignal; WTake] = Some s' /\ wshort (ws_now s - start) t t' /\ ws_runs s' = (t', ws_now s) :: ws_runs s /\
    Forall2 (wshort (Z.min (ws_now s - start) (wt_left t))) (ws_queue s) (ws_queue s') /\ ws_event s' = false.
Proof.
  intros E Ep Em Hev Hlt. destruct (reach_winv _ _ _ E) as (HQ & _ & _ & _ & HP). unfold phase_ok in HP. rewrite Ep in HP. destruct HP as (Hst & _ & Ht & _). unfold wok in Ht.
  cbn [ws_run ws_step]. rewrite Ep, Hev. rewrite Z.mod_small by lia. rewrite cut_left by lia. set (el := ws_now s - start) in *. cbn [ws_phase ws_msgs ws_queue ws_elapsed]. rewrite Em. cbn [q_get]. replace (wt_left t - Z.max 0 (wt_left t - el)) with (Z.min el (wt_left t)) by lia.
  eexists. exists (wt_set (Z.max 0 (wt_left t - el)) t). split; [reflexivity|]. split; [unfold wshort; cbn [wt_set wt_id wt_timeout wt_persistent wt_async wt_due wt_left]; auto 10|].
  unfold ws_start. cbn [wt_set wt_async ws_now ws_runs ws_msgs ws_event ws_flight ws_over]. destruct (wt_async t); cbn [ws_runs ws_queue ws_event]; (split; [reflexivity|]; split; [apply wreduce_short; [lia|exact HQ]|reflexivity]).
Qed.
Print Assumptions C84_stale.
(** A periodic task that is over waits for its full time again, whichever thread it ran in; another one is over. *)
Theorem C84_again now es s s' : ws_run (ws_init now) es = Some s ->
  (forall t, ws_phase s = Running t -> ws_step s WDone = Some s' -> ws_phase s' = Top /\ ws_msgs s' = ws_msgs s /\ ws_event s' = ws_event s /\
     if wt_persistent t then exists t', wt_id t' = wt_id t /\ wt_timeout t' = wt_timeout t /\ wt_left t' = wt_timeout t /\ wt_due t' = ws_now s + wt_timeout t /\ wt_persistent t' = true /\ wt_async t' = wt_async t /\ Permutation (ws_queue s') (t' :: ws_queue s) /\ ws_over s' = ws_over s
     else ws_queue s' = ws_queue s /\ ws_over s' = t :: ws_over s) /\
  (forall k t, nth_error (ws_flight s) k = Some t -> ws_step s (WFinish k) = Some s' -> ws_phase s' = ws_phase s /\ ws_queue s' = ws_queue s /\
     if wt_persistent t then exists t', wt_id t' = wt_id t /\ wt_timeout t' = wt_timeout t /\ wt_left t' = wt_timeout t /\ wt_due t' = ws_now s + wt_timeout t /\ wt_persistent t' = true /\ wt_async t' = wt_async t /\ ws_msgs s' = t' :: ws_msgs s /\ ws_event s' = true /\ ws_over s' = ws_over s
     else ws_msgs s' = ws_msgs s /\ ws_event s' = ws_event s /\ ws_over s' = t :: ws_over s).
Proof.
  intros E. split.
  - intros t Ep. cbn [ws_step]. rewrite Ep. intros H. sinj H. destruct (wt_persistent t) eqn:Et; cbn [ws_phase ws_msgs ws_event ws_queue ws_over]; repeat (split; [reflexivity|]); [|auto]. exists (wt_again (ws_now s) t). cbn [wt_again wt_id wt_timeout wt_left wt_due wt_persistent wt_async]. repeat (split; [solve [auto]|]). split; [apply wadd_perm|reflexivity].
  - intros k t Ek. cbn [ws_step]. rewrite Ek. intros H. sinj H. destruct (wt_persistent t) eqn:Et; cbn [ws_post ws_phase ws_msgs ws_event ws_queue ws_over ws_now]; repeat (split; [reflexivity|]); [|auto]. exists (wt_again (ws_now s) t). cbn [wt_again wt_id wt_timeout wt_left wt_due wt_persistent wt_async]. rewrite post_head. auto 10.
Qed.
Print Assumptions C84_again.

(** The moment a posted task is due: its delay after the moment it was posted, at once if it is to be run immediately. *)
Theorem C84_posted s id ms p a im s' : ws_step s (WPost id ms p a im) = Some s' -> exists t, ws_msgs s' = t :: ws_msgs s /\ ws_event s' = true /\ ws_queue s' = ws_queue s /\ ws_phase s' = ws_phase s /\
  wt_id t = id /\ wt_timeout t = ms /\ wt_persistent t = p /\ wt_async t = a /\ wt_left t = (if im then 0 else ms) /\ wt_due t = ws_now s + (if im then 0 else ms).
Proof. cbn [ws_step]. destruct (_ && _); [|discriminate]. intros E. sinj E. exists (wt_make (ws_now s) id ms p a im). cbn [ws_post ws_msgs ws_event ws_queue ws_phase]. rewrite post_head. cbn [wt_make wt_id wt_timeout wt_persistent wt_async wt_left wt_due]. auto 15. Qed.
Print Assumptions C84_posted.

(** A task is not started early, as far as no wait is ended by an event whose message was taken before, but for the time of the
    waits that were interrupted by a new task: all together they are the most it can be early. *)
Theorem C84_not_early_partial now es s t a : ws_run (ws_init now) es = Some s -> wfresh (ws_init now) es -> In (t, a) (ws_runs s) -> wt_due t - wcut (ws_init now) es <= a.
Proof.
  intros E HF Hi. destruct (run_einv es _ _ 0 ltac:(lia) (init_winv now) (init_einv now) HF E) as ((_ & HR & _) & _). specialize (HR t a Hi). lia.
Qed.
Print Assumptions C84_not_early_partial.
Example C84_nonvacuous_early :
  let es := [WPost 1 1000 true false false; WPeek; WPeek; WPass 1000; WTimeout; WPass 3; WDone; WPeek; WPass 400; WPost 2 700 false true false; WPeek] in
  exists s, ws_run (ws_init 0) (firstn 9 es) = Some s /\ wfresh (ws_init 0) (firstn 9 es) /\ wcut (ws_init 0) (firstn 9 es) = 0 /\ map (fun r => (wt_id (fst r), snd r)) (ws_runs s) = [(1, 1000)].
Proof. cbv zeta. eexists. split; [vm_compute; reflexivity|]. split; [vm_compute; repeat split|]. split; vm_compute; reflexivity. Qed.

(** Two tasks posted before the scheduler looks: the event remains after both were taken, and the first of them starts at once,
    60 seconds early. *)
Theorem C84_stale_refuted : exists es s t a, ws_run (ws_init 0) es = Some s /\ In (t, a) (ws_runs s) /\ wcut (ws_init 0) es = 0 /\ wt_due t = 60000 /\ a = 0.
Proof.
  exists [WPost 1 60000 true false false; WPost 2 90000 true false false; WPeek; WPeek; WPeek; WSignal; WTake].
  eexists. eexists. eexists. split; [vm_compute; reflexivity|]. split; [left; reflexivity|]. vm_compute. repeat split.
Qed.
Print Assumptions C84_stale_refuted.
(** A task posted 5 seconds before another is due: the other one is started 5 seconds early, no event being stale. *)
Theorem C84_twice_refuted : exists es s t a, ws_run (ws_init 0) es = Some s /\ wfresh (ws_init 0) es /\ In (t, a) (ws_runs s) /\ wt_due t = 10000 /\ a = 5000.
Proof.
  exists [WPeek; WPost 1 10000 true false false; WSignal; WTake; WPeek; WPass 5000; WPost 2 90000 true false false; WSignal; WTake; WPeek; WTimeout].
  eexists. eexists. eexists. split; [vm_compute; reflexivity|]. split; [vm_compute; repeat split; discriminate|]. split; [left; reflexivity|]. vm_compute. repeat split.
Qed.
Print Assumptions C84_twice_refuted.
(** Reachable states that meet the hypotheses of the theorems on the turns: a message while a task is waited for, and a stale event. *)
Example C84_nonvacuous :
  (exists s t, ws_run (ws_init 0) [WPeek; WPost 1 10000 true false false; WSignal; WTake; WPeek; WPass 5000; WPost 2 90000 true true false] = Some s /\ ws_phase s = Waiting (Some t) 0 /\ length (ws_msgs s) = 1%nat) /\
  (exists s t, ws_run (ws_init 0) [WPost 1 60000 true false false; WPost 2 90000 true false false; WPeek; WPeek; WPeek] = Some s /\ ws_phase s = Waiting (Some t) 0 /\ ws_msgs s = [] /\ ws_event s = true) /\
  (exists s t, ws_run (ws_init 0) [WPost 1 60000 true false true; WPeek; WPeek; WTimeout] = Some s /\ ws_phase s = Running t /\ wt_persistent t = true) /\
  (exists s t, ws_run (ws_init 0) [WPost 1 60000 true true true; WPeek; WPeek; WTimeout] = Some s /\ nth_error (ws_flight s) 0 = Some t /\ wt_persistent t = true).
Proof.
  split; [|split; [|split]]; eexists; eexists; (split; [vm_compute; reflexivity|]); vm_compute; repeat split.
Qed.
