From Verif Require Import Base BaseFacts List2Facts Queue_Model Queue_Props.
From Coq Require Import Permutation Sorting.Sorted.
Require Import ZifyBool ZifyNat.

(** * C34: timed tasks *)
Definition tv_ok (t : tv) : Prop := 0 <= fst t /\ 0 <= snd t < 1000000.
Lemma tv_compare_usec a b : tv_ok a -> tv_ok b -> (tv_compare a b <= 0 <-> usec a <= usec b).
Proof. unfold tv_ok, tv_compare, usec. intros (A1 & A2) (B1 & B2). destruct (Z.eqb_spec (fst a) (fst b)); lia. Qed.
Lemma tv_subtract_ok a b : tv_ok a -> tv_ok b -> tv_ok (tv_subtract a b) /\ usec (tv_subtract a b) = Z.max 0 (usec a - usec b).
Proof.
  intros Ha Hb. pose proof (tv_compare_usec a b Ha Hb) as HC. unfold tv_subtract. destruct (Z.leb_spec (tv_compare a b) 0) as [H|H]; [split; [unfold tv_ok; cbn [fst snd]; lia|]; change (usec (0, 0)) with 0; lia|].
  assert (Hlt : usec b < usec a) by lia. clear HC H. unfold tv_ok, usec in *. destruct Ha as (A1 & A2), Hb as (B1 & B2). destruct (Z.leb_spec (snd b) (snd a)); cbn [fst snd]; lia.
Qed.
Lemma ti_preorder : preorder ti_compare.
Proof.
  unfold preorder, ti_compare, tv_compare. split; intros; repeat match goal with |- context[?x =? ?y] => destruct (Z.eqb_spec x y) | H : context[?x =? ?y] |- _ => destruct (Z.eqb_spec x y) end; lia.
Qed.
(** All tasks of a state, whatever they wait for. *)
Definition all_tasks (s : sched) : list task := st_queue s ++ st_pipe s ++ st_flight s ++ st_over s.
Definition task_ok (t : task) : Prop := tv_ok (ti_timeout t) /\ tv_ok (ti_left t).
Definition waiting (now : Z) (t : task) : Prop := task_ok t /\ ti_due t <= now + usec (ti_left t).
Definition sinv (s : sched) : Prop :=
  Forall (waiting (st_now s)) (st_queue s) /\ Forall (waiting (st_now s)) (st_pipe s) /\ Forall task_ok (st_flight s) /\
  StronglySorted (leq ti_compare) (st_queue s) /\ (forall t a, In (t, a) (st_runs s) -> ti_due t <= a <= st_now s) /\ Forall (fun t => ti_persistent t = false) (st_over s).
Lemma tt_make_ok now id ms p a im : 0 <= ms -> waiting now (tt_make now id ms p a im) /\ usec (ti_timeout (tt_make now id ms p a im)) = ms * 1000 /\ ti_due (tt_make now id ms p a im) = now + (if im then 0 else ms * 1000).
Proof.
  intros H. unfold tt_make, waiting, task_ok. cbn [ti_timeout ti_left ti_due]. pose proof (Z.quot_rem' ms 1000) as Q. pose proof (Z.rem_bound_pos ms 1000 ltac:(lia) ltac:(lia)) as R. pose proof (Z.quot_pos ms 1000 ltac:(lia) ltac:(lia)) as P.
  unfold tv_ok, usec. cbn [fst snd]. destruct im; cbn [fst snd]; lia.
Qed.
Lemma tt_again_ok now t : task_ok t -> waiting now (tt_again now t).
Proof. unfold waiting, task_ok, tt_again. cbn [ti_timeout ti_left ti_due]. intros (H & _). repeat split; try apply H. lia. Qed.
Lemma waiting_later n1 n2 t : n1 <= n2 -> waiting n1 t -> waiting n2 t.
Proof. unfold waiting. intros H (H1 & H2). split; [exact H1|lia]. Qed.
Lemma waiting_laters n1 n2 l : n1 <= n2 -> Forall (waiting n1) l -> Forall (waiting n2) l.
Proof. intros H. apply Forall_impl. intros t. apply waiting_later, H. Qed.
Definition less (d : tv) (t : task) : task := mk_task (ti_id t) (ti_timeout t) (tv_subtract (ti_left t) d) (ti_persistent t) (ti_async t) (ti_due t).
Lemma reduce_ok now d now' q : tv_ok d -> now + usec d <= now' -> Forall (waiting now) q -> Forall (waiting now') (tt_reduce d q).
Proof.
  intros Hd Hn. induction 1 as [|t q ((H1 & H2) & H3) HF IH]; cbn [tt_reduce map]; constructor; [|exact IH]. destruct (tv_subtract_ok (ti_left t) d H2 Hd) as (G1 & G2). unfold waiting, task_ok. cbn [ti_timeout ti_left ti_due]. repeat split; try assumption; try apply H1; try apply G1. lia.
Qed.
Lemma reduce_sorted now d q : tv_ok d -> Forall (waiting now) q -> StronglySorted (leq ti_compare) q -> StronglySorted (leq ti_compare) (tt_reduce d q).
Proof.
  intros Hd HF HS. induction HS as [|t q HS IH HL]; cbn [tt_reduce map]; [constructor|]. inversion HF as [|? ? Ht HF']; subst. constructor; [apply IH, HF'|].
  apply Forall_forall. intros y Hy. apply in_map_iff in Hy. destruct Hy as (z & <- & Hz). pose proof (proj1 (Forall_forall _ _) HL z Hz) as L. pose proof (proj1 (Forall_forall _ _) HF' z Hz) as Wz. unfold leq, ti_compare in *. cbn [ti_left].
  destruct Ht as ((_ & Ot) & _), Wz as ((_ & Oz) & _). destruct (tv_subtract_ok _ d Ot Hd) as (G1 & G2), (tv_subtract_ok _ d Oz Hd) as (G3 & G4). apply (tv_compare_usec _ _ G1 G3). apply (tv_compare_usec _ _ Ot Oz) in L. lia.
Qed.
Lemma q_add_Forall (P : task -> Prop) x q : P x -> Forall P q -> Forall P (q_add ti_compare x q).
Proof. intros Hx Hq. eapply Permutation_Forall; [symmetry; apply q_add_perm|]. constructor; assumption. Qed.
Lemma tv_zero : tv_ok (0, 0).
Proof. unfold tv_ok. cbn [fst snd]. lia. Qed.
Lemma in_remove {A} (l : list A) k x : nth_error l k = Some x -> Permutation l (x :: firstn k l ++ skipn (S k) l).
Proof. intros H. rewrite <- (firstn_skipn k l) at 1. assert (E : skipn k l = x :: skipn (S k) l). { revert l H. induction k as [|k IH]; intros [|y l] H; cbn [nth_error skipn] in *; try discriminate; [injection H as ->; reflexivity|]. apply IH, H. } rewrite E. symmetry. apply Permutation_middle. Qed.
Lemma Forall_remove {A} (P : A -> Prop) l k x : nth_error l k = Some x -> Forall P l -> P x /\ Forall P (firstn k l ++ skipn (S k) l).
Proof. intros H HF. pose proof (Permutation_Forall (in_remove l k x H) HF) as X. inversion X; subst. auto. Qed.
Lemma step_inv s e s' : sinv s -> tt_step s e = Some s' -> sinv s' /\ st_now s <= st_now s'.
Proof.
  intros (HQ & HP & HFl & HS & HR & HO) E. destruct e as [d|id ms p a im|k|d work|d rest]; cbn [tt_step] in E.
  - destruct (Z.leb_spec 0 d); [|discriminate]. injection E as <-. split; [|cbn [st_now]; lia]. unfold sinv. cbn [st_now st_queue st_pipe st_flight st_runs st_over]. split; [eapply waiting_laters; [|exact HQ]; lia|]. split; [eapply waiting_laters; [|exact HP]; lia|]. split; [exact HFl|]. split; [exact HS|]. split; [|exact HO]. intros t a Hi. specialize (HR t a Hi). lia.
  - destruct (Z.leb_spec 0 ms); [|discriminate]. injection E as <-. split; [|cbn [st_now]; lia]. unfold sinv. cbn [st_now st_queue st_pipe st_flight st_runs st_over]. split; [exact HQ|]. split; [|split; [exact HFl|split; [exact HS|split; [exact HR|exact HO]]]]. apply Forall_app. split; [exact HP|]. constructor; [apply tt_make_ok; assumption|constructor].
  - destruct (nth_error (st_flight s) k) as [t|] eqn:Et; [|discriminate]. destruct (Forall_remove _ _ _ _ Et HFl) as (Ht & HFl'). injection E as <-. destruct (ti_persistent t) eqn:Ep; (split; [|cbn [st_now]; lia]); unfold sinv; cbn [st_now st_queue st_pipe st_flight st_runs st_over]; (split; [exact HQ|]).
    + split; [apply Forall_app; split; [exact HP|constructor; [apply tt_again_ok, Ht|constructor]]|]. split; [exact HFl'|]. split; [exact HS|]. split; [exact HR|exact HO].
    + split; [exact HP|]. split; [exact HFl'|]. split; [exact HS|]. split; [exact HR|]. constructor; assumption.
  - destruct (st_queue s) as [|t q] eqn:Eq; cbn [q_get] in E; [discriminate|]. destruct (Z.leb_spec (usec (ti_left t)) d) as [Hd|]; [|discriminate]. destruct (Z.leb_spec 0 work) as [Hw|]; [|discriminate]. cbn [andb] in E.
    inversion HQ as [|? ? Wt HQ']; subst. inversion HS as [|? ? HS' HL]; subst. destruct Wt as (Ot & Dt). destruct (tv_subtract_ok (ti_left t) (0, 0) (proj2 Ot) tv_zero) as (Oe & Ue). change (usec (0, 0)) with 0 in Ue.
    assert (Hpos : 0 <= usec (ti_left t)). { destruct Ot as (_ & (X1 & X2)). unfold usec. lia. } set (el := tv_subtract (ti_left t) (0, 0)) in *. clearbody el.
    injection E as <-. assert (HQ1 : Forall (waiting (st_now s + d)) (tt_reduce el q)) by (eapply reduce_ok; [exact Oe| |exact HQ']; lia). assert (HS1 : StronglySorted (leq ti_compare) (tt_reduce el q)) by (eapply reduce_sorted; eassumption).
    assert (HP1 : Forall (waiting (st_now s + d)) (st_pipe s)) by (eapply waiting_laters; [|exact HP]; lia).
    assert (HR1 : forall t0 a, In (t0, a) ((t, st_now s + d) :: st_runs s) -> ti_due t0 <= a <= st_now s + d). { intros t0 a [X|X]; [injection X as <- <-; lia|]. specialize (HR t0 a X). lia. }
    destruct (ti_async t) eqn:Ea; [|destruct (ti_persistent t) eqn:Ep]; (split; [|cbn [st_now]; lia]); unfold sinv; cbn [st_now st_queue st_pipe st_flight st_runs st_over].
    + split; [exact HQ1|]. split; [exact HP1|]. split; [constructor; assumption|]. split; [exact HS1|]. split; [exact HR1|exact HO].
    + split; [apply q_add_Forall; [apply tt_again_ok, Ot|eapply waiting_laters; [|exact HQ1]; lia]|]. split; [eapply waiting_laters; [|exact HP1]; lia|]. split; [exact HFl|]. split; [apply q_add_sorted; [apply ti_preorder|exact HS1]|]. split; [|exact HO]. intros t0 a X. specialize (HR1 t0 a X). lia.
    + split; [eapply waiting_laters; [|exact HQ1]; lia|]. split; [eapply waiting_laters; [|exact HP1]; lia|]. split; [exact HFl|]. split; [exact HS1|]. split; [|constructor; assumption]. intros t0 a X. specialize (HR1 t0 a X). lia.
  - destruct (st_pipe s) as [|n pipe] eqn:Ep; [discriminate|]. destruct (Z.leb_spec 0 d) as [Hd|]; [|discriminate]. inversion HP as [|? ? Wn HP']; subst.
    assert (HR1 : forall t0 a, In (t0, a) (st_runs s) -> ti_due t0 <= a <= st_now s + d) by (intros t0 a X; specialize (HR t0 a X); lia).
    destruct (st_queue s) as [|t q] eqn:Eq; cbn [q_get] in E.
    + injection E as <-. split; [|cbn [st_now]; lia]. unfold sinv. cbn [st_now st_queue st_pipe st_flight st_runs st_over]. split; [constructor; [eapply waiting_later; [|exact Wn]; lia|constructor]|]. split; [eapply waiting_laters; [|exact HP']; lia|]. split; [exact HFl|]. split; [repeat constructor|]. split; [exact HR1|exact HO].
    + match type of E with (if ?c then _ else _) = _ => destruct c eqn:Ec; [|discriminate] end. injection E as <-. apply andb_true_iff in Ec. destruct Ec as (Ec & C5). apply andb_true_iff in Ec. destruct Ec as (Ec & C4). apply andb_true_iff in Ec. destruct Ec as (Ec & C3). apply andb_true_iff in Ec. destruct Ec as (C1 & C2).
      apply Z.leb_le in C1, C2, C4, C5. apply Z.ltb_lt in C3. assert (Or : tv_ok rest) by (split; lia). inversion HQ as [|? ? Wt HQ']; subst. inversion HS as [|? ? HS' HL]; subst. destruct Wt as (Ot & Dt).
      destruct (tv_subtract_ok (ti_left t) rest (proj2 Ot) Or) as (Oe & Ue). set (el := tv_subtract (ti_left t) rest) in *. clearbody el. split; [|cbn [st_now]; lia]. unfold sinv. cbn [st_now st_queue st_pipe st_flight st_runs st_over].
      split; [|split; [eapply waiting_laters; [|exact HP']; lia|split; [exact HFl|split; [|split; [exact HR1|exact HO]]]]].
      * apply q_add_Forall; [|apply q_add_Forall; [eapply waiting_later; [|exact Wn]; lia|eapply reduce_ok; [exact Oe| |exact HQ']; lia]]. unfold waiting, task_ok. cbn [ti_timeout ti_left ti_due]. split; [split; [apply Ot|exact Or]|]. lia.
      * apply q_add_sorted; [apply ti_preorder|]. apply q_add_sorted; [apply ti_preorder|]. eapply reduce_sorted; eassumption.
Qed.
Lemma init_inv now : sinv (tt_init now).
Proof. unfold sinv, tt_init. cbn [st_now st_queue st_pipe st_flight st_runs st_over]. repeat split; try constructor; contradiction. Qed.
Lemma run_inv es : forall s s', sinv s -> tt_run s es = Some s' -> sinv s' /\ st_now s <= st_now s'.
Proof. induction es as [|e es IH]; intros s s' HI E; cbn [tt_run] in E; [injection E as <-; split; [exact HI|lia]|]. destruct (tt_step s e) as [s1|] eqn:E1; [|discriminate]. destruct (step_inv s e s1 HI E1) as (HI1 & L1). destruct (IH s1 s' HI1 E) as (HI2 & L2). split; [exact HI2|lia]. Qed.

Definition posted (e : event) : list Z := match e with Post id _ _ _ _ => [id] | _ => [] end.
Fixpoint all_posted (es : list event) : list Z := match es with [] => [] | e :: es' => posted e ++ all_posted es' end.
Definition ids (l : list task) : list Z := map ti_id l.
Lemma ids_reduce d q : ids (tt_reduce d q) = ids q.
Proof. unfold ids, tt_reduce. rewrite map_map. reflexivity. Qed.
Lemma ids_add x q : Permutation (ids (q_add ti_compare x q)) (ti_id x :: ids q).
Proof. unfold ids. rewrite q_add_perm. reflexivity. Qed.
Ltac perm := repeat rewrite ?app_nil_r, ?map_app, <- ?app_assoc; cbn [map app ti_id tt_again];
  repeat match goal with
  | |- Permutation ?a ?a => reflexivity
  | |- Permutation (?x :: ?a) (?x :: ?b) => apply perm_skip
  | |- Permutation (?l ++ ?a) (?l ++ ?b) => apply Permutation_app_head
  end.
Lemma all_ids s : ids (all_tasks s) = ids (st_queue s) ++ ids (st_pipe s) ++ ids (st_flight s) ++ ids (st_over s).
Proof. unfold all_tasks, ids. rewrite !map_app. reflexivity. Qed.
Lemma ids_app a b : ids (a ++ b) = ids a ++ ids b.
Proof. apply map_app. Qed.
Lemma step_ids s e s' : tt_step s e = Some s' -> Permutation (ids (all_tasks s')) (posted e ++ ids (all_tasks s)).
Proof.
  intros E. rewrite !all_ids. destruct e as [d|id ms p a im|k|d work|d rest]; cbn [tt_step posted] in E |- *; cbn [app].
  - destruct (0 <=? d); [|discriminate]. injection E as <-. reflexivity.
  - destruct (0 <=? ms); [|discriminate]. injection E as <-. cbn [st_queue st_pipe st_flight st_over]. rewrite ids_app. change (ids [tt_make (st_now s) id ms p a im]) with [id]. rewrite <- !app_assoc. cbn [app]. rewrite (app_assoc (ids (st_queue s))). symmetry. rewrite (app_assoc (ids (st_queue s)) (ids (st_pipe s))). apply Permutation_middle.
  - destruct (nth_error (st_flight s) k) as [t|] eqn:Et; [|discriminate]. injection E as <-. pose proof (Permutation_map ti_id (in_remove _ _ _ Et)) as X. fold (ids (st_flight s)) in X. cbn [map] in X. fold (ids (firstn k (st_flight s) ++ skipn (S k) (st_flight s))) in X.
    destruct (ti_persistent t); cbn [st_queue st_pipe st_flight st_over].
    + rewrite ids_app. change (ids [tt_again (st_now s) t]) with [ti_id t]. rewrite <- !app_assoc. cbn [app]. apply Permutation_app_head, Permutation_app_head. rewrite X. reflexivity.
    + change (ids (t :: st_over s)) with (ti_id t :: ids (st_over s)). apply Permutation_app_head, Permutation_app_head. rewrite X. cbn [app]. symmetry. apply Permutation_middle.
  - destruct (st_queue s) as [|t q] eqn:Eq; cbn [q_get] in E; [discriminate|]. destruct (_ && _); [|discriminate]. injection E as <-. change (ids (t :: q)) with (ti_id t :: ids q).
    destruct (ti_async t); [|destruct (ti_persistent t)]; cbn [st_queue st_pipe st_flight st_over].
    + rewrite ids_reduce. change (ids (t :: st_flight s)) with (ti_id t :: ids (st_flight s)). cbn [app]. rewrite (app_assoc (ids q)), (app_assoc (ids q)). symmetry. apply Permutation_middle.
    + rewrite ids_add, ids_reduce. reflexivity.
    + rewrite ids_reduce. change (ids (t :: st_over s)) with (ti_id t :: ids (st_over s)). cbn [app]. rewrite !app_assoc. symmetry. apply Permutation_middle.
  - destruct (st_pipe s) as [|n pipe] eqn:Ep; [discriminate|]. destruct (0 <=? d); [|discriminate]. change (ids (n :: pipe)) with (ti_id n :: ids pipe). destruct (st_queue s) as [|t q] eqn:Eq; cbn [q_get] in E.
    + injection E as <-. cbn [st_queue st_pipe st_flight st_over]. reflexivity.
    + match type of E with (if ?c then _ else _) = _ => destruct c; [|discriminate] end. injection E as <-. cbn [st_queue st_pipe st_flight st_over]. change (ids (t :: q)) with (ti_id t :: ids q). rewrite !ids_add. cbn [ti_id]. rewrite ids_reduce. cbn [app]. apply perm_skip. apply Permutation_middle.
Qed.
Lemma run_ids es : forall s s', tt_run s es = Some s' -> Permutation (ids (all_tasks s')) (all_posted es ++ ids (all_tasks s)).
Proof.
  induction es as [|e es IH]; intros s s' E; cbn [tt_run all_posted] in *; [injection E as <-; reflexivity|]. destruct (tt_step s e) as [s1|] eqn:E1; [|discriminate]. rewrite (IH s1 s' E), (step_ids s e s1 E1). rewrite <- app_assoc. rewrite Permutation_app_swap_app. reflexivity.
Qed.

(** No task is lost or invented, and only tasks that are not periodic are ever over, for all executions. *)
Theorem C34_none_lost now es s : tt_run (tt_init now) es = Some s -> Permutation (ids (st_queue s ++ st_pipe s ++ st_flight s ++ st_over s)) (all_posted es) /\ forall t, In t (st_over s) -> ti_persistent t = false.
Proof.
  intros E. split; [pose proof (run_ids es _ _ E) as X; change (ids (all_tasks (tt_init now))) with (@nil Z) in X; rewrite app_nil_r in X; exact X|]. destruct (run_inv es _ _ (init_inv now) E) as ((_ & _ & _ & _ & _ & HO) & _). intros t Ht. apply (proj1 (Forall_forall _ _) HO t Ht).
Qed.
Print Assumptions C34_none_lost.
(** The scheduler starts the task with the least remaining time, and it starts it only when that time is over; it can always do so. *)
Theorem C34_order now es s d work s' : tt_run (tt_init now) es = Some s -> tt_step s (Expire d work) = Some s' ->
  exists t, In t (st_queue s) /\ st_runs s' = (t, st_now s + d) :: st_runs s /\ usec (ti_left t) <= d /\ forall y, In y (st_queue s) -> usec (ti_left t) <= usec (ti_left y).
Proof.
  intros E E2. destruct (run_inv es _ _ (init_inv now) E) as ((HQ & _ & _ & HS & _) & _). cbn [tt_step] in E2. destruct (st_queue s) as [|t q] eqn:Eq; cbn [q_get] in E2; [discriminate|]. destruct (Z.leb_spec (usec (ti_left t)) d) as [Hd|]; [|discriminate]. destruct (0 <=? work); [|discriminate]. cbn [andb] in E2. injection E2 as <-.
  exists t. split; [left; reflexivity|]. split; [destruct (ti_async t); [|destruct (ti_persistent t)]; reflexivity|]. split; [exact Hd|]. inversion HS as [|? ? _ HL]; subst. intros y [<-|Hy]; [lia|]. inversion HQ as [|? ? Wt HQ']; subst. pose proof (proj1 (Forall_forall _ _) HQ' y Hy) as Wy. apply (tv_compare_usec _ _ (proj2 (proj1 Wt)) (proj2 (proj1 Wy))). apply (proj1 (Forall_forall _ _) HL y Hy).
Qed.
Print Assumptions C34_order.
Theorem C34_progress s : st_queue s <> [] -> exists d s', tt_step s (Expire d 0) = Some s'.
Proof. intros H. destruct (st_queue s) as [|t q] eqn:Eq; [contradiction|]. exists (usec (ti_left t)). cbn [tt_step]. rewrite Eq. cbn [q_get]. rewrite Z.leb_refl. cbn [andb]. change (0 <=? 0) with true. cbn iota. eexists. reflexivity. Qed.
Print Assumptions C34_progress.

(** What the queue becomes in a turn of the scheduler: all other tasks have as much less to wait as the first one waited. *)
Definition shortened (by_ : Z) (t t' : task) : Prop :=
  ti_id t' = ti_id t /\ ti_timeout t' = ti_timeout t /\ ti_persistent t' = ti_persistent t /\ ti_async t' = ti_async t /\ usec (ti_left t') = Z.max 0 (usec (ti_left t) - by_).
Lemma reduce_shortened now d q : tv_ok d -> Forall (waiting now) q -> Forall2 (shortened (usec d)) q (tt_reduce d q).
Proof. intros Hd. induction 1 as [|t q ((_ & H2) & _) HF IH]; cbn [tt_reduce map]; constructor; [|exact IH]. destruct (tv_subtract_ok (ti_left t) d H2 Hd) as (_ & G). unfold shortened. cbn [ti_id ti_timeout ti_persistent ti_async ti_left]. auto. Qed.
Theorem C34_wake now es s d rest s' : tt_run (tt_init now) es = Some s -> tt_step s (Wake d rest) = Some s' ->
  exists n pipe, st_pipe s = n :: pipe /\ st_pipe s' = pipe /\ st_runs s' = st_runs s /\ st_flight s' = st_flight s /\
  match st_queue s with
  | [] => st_queue s' = [n]
  | t :: q => exists t' q', shortened (usec (ti_left t) - usec rest) t t' /\ Forall2 (shortened (usec (ti_left t) - usec rest)) q q' /\ Permutation (st_queue s') (n :: t' :: q')
  end.
Proof.
  intros E E2. destruct (run_inv es _ _ (init_inv now) E) as ((HQ & _) & _). cbn [tt_step] in E2. destruct (st_pipe s) as [|n pipe]; [discriminate|]. exists n, pipe. destruct (0 <=? d); [|discriminate]. split; [reflexivity|]. destruct (st_queue s) as [|t q] eqn:Eq; cbn [q_get] in E2; [injection E2 as <-; auto|].
  match type of E2 with (if ?c then _ else _) = _ => destruct c eqn:Ec; [|discriminate] end. injection E2 as <-. cbn [st_pipe st_runs st_flight st_queue]. split; [reflexivity|]. split; [reflexivity|]. split; [reflexivity|].
  assert (Or : tv_ok rest /\ usec rest <= usec (ti_left t)) by (unfold tv_ok; lia). clear Ec. inversion HQ as [|? ? Wt HQ']; subst. destruct (tv_subtract_ok (ti_left t) rest (proj2 (proj1 Wt)) (proj1 Or)) as (Oe & Ue).
  eexists. eexists. split; [|split; [|rewrite q_add_perm, q_add_perm; apply perm_swap]].
  - unfold shortened. cbn [ti_id ti_timeout ti_persistent ti_async ti_left]. repeat split. assert (0 <= usec rest) by (destruct Or as ((X & Y) & _); unfold usec; lia). lia.
  - replace (usec (ti_left t) - usec rest) with (usec (tv_subtract (ti_left t) rest)) by lia. eapply reduce_shortened; eassumption.
Qed.
Print Assumptions C34_wake.
Theorem C34_expire now es s d work s' : tt_run (tt_init now) es = Some s -> tt_step s (Expire d work) = Some s' ->
  exists t q q', st_queue s = t :: q /\ Forall2 (shortened (usec (ti_left t))) q q' /\ st_pipe s' = st_pipe s /\
  if ti_async t then st_queue s' = q' /\ st_flight s' = t :: st_flight s
  else if ti_persistent t then exists t', ti_id t' = ti_id t /\ ti_left t' = ti_timeout t /\ ti_timeout t' = ti_timeout t /\ ti_persistent t' = true /\ ti_async t' = false /\ Permutation (st_queue s') (t' :: q')
  else st_queue s' = q' /\ st_over s' = t :: st_over s.
Proof.
  intros E E2. destruct (run_inv es _ _ (init_inv now) E) as ((HQ & _) & _). cbn [tt_step] in E2. destruct (st_queue s) as [|t q] eqn:Eq; cbn [q_get] in E2; [discriminate|]. destruct (_ && _); [|discriminate]. injection E2 as <-. inversion HQ as [|? ? Wt HQ']; subst.
  destruct (tv_subtract_ok (ti_left t) (0, 0) (proj2 (proj1 Wt)) tv_zero) as (Oe & Ue). change (usec (0, 0)) with 0 in Ue. exists t, q, (tt_reduce (tv_subtract (ti_left t) (0, 0)) q). split; [reflexivity|].
  assert (Hpos : 0 <= usec (ti_left t)). { destruct Wt as ((_ & (X1 & X2)) & _). unfold usec. lia. }
  split; [replace (usec (ti_left t)) with (usec (tv_subtract (ti_left t) (0, 0))) by lia; eapply reduce_shortened; eassumption|]. destruct (ti_async t) eqn:Ea; [|destruct (ti_persistent t) eqn:Ep]; cbn [st_pipe st_queue st_flight st_over]; (split; [reflexivity|]); auto.
  exists (tt_again (st_now s + d + work) t). unfold tt_again. cbn [ti_id ti_timeout ti_persistent ti_async ti_left]. repeat split; auto. apply q_add_perm.
Qed.
Print Assumptions C34_expire.

(** ** Not early, and the distance of runs *)
(** About the task with number [i], posted at [c0] with [delay] and [period] microseconds: the tasks that wait are not due before,
    and there is only one of them. *)
Definition tinv (i c0 period : Z) (s : sched) : Prop :=
  (forall t, In t (all_tasks s) -> ti_id t = i -> usec (ti_timeout t) = period) /\
  (forall t, In t (st_queue s ++ st_pipe s) -> ti_id t = i -> c0 <= ti_due t /\ forall t1 a1, In (t1, a1) (st_runs s) -> ti_id t1 = i -> a1 + period <= ti_due t) /\
  (forall t1 a1, In (t1, a1) (st_runs s) -> ti_id t1 = i -> c0 <= a1) /\
  (forall t, In t (st_flight s) -> ti_id t = i -> exists a, In (t, a) (st_runs s)) /\
  (forall l1 t2 a2 l2 t1 a1 l3, st_runs s = l1 ++ (t2, a2) :: l2 ++ (t1, a1) :: l3 -> ti_id t1 = i -> ti_id t2 = i -> a1 + period <= a2).
Lemma in_ids t l : In t l -> In (ti_id t) (ids l).
Proof. apply in_map. Qed.
Lemma reduce_in d q t : In t (tt_reduce d q) -> exists t0, In t0 q /\ ti_id t = ti_id t0 /\ ti_due t = ti_due t0 /\ ti_timeout t = ti_timeout t0.
Proof. unfold tt_reduce. intros H. apply in_map_iff in H. destruct H as (t0 & <- & H). exists t0. auto. Qed.
Lemma q_add_in x q t : In t (q_add ti_compare x q) <-> t = x \/ In t q.
Proof. split; intros H; [apply (Permutation_in _ (q_add_perm ti_compare x q)) in H; destruct H as [<-|H]; auto|apply (Permutation_in _ (Permutation_sym (q_add_perm ti_compare x q))); destruct H as [->|H]; [left; reflexivity|right; exact H]]. Qed.
Lemma remove_in {A} (l : list A) k x y : nth_error l k = Some x -> In y (firstn k l ++ skipn (S k) l) -> In y l.
Proof. intros H Hy. apply (Permutation_in _ (Permutation_sym (in_remove l k x H))). right. exact Hy. Qed.
Lemma runs_cons (x : task * Z) rs l1 y l2 z l3 : x :: rs = l1 ++ y :: l2 ++ z :: l3 -> (l1 = [] /\ y = x /\ In z rs) \/ exists l1', rs = l1' ++ y :: l2 ++ z :: l3.
Proof. destruct l1 as [|w l1]; cbn [app]; intros E; injection E as E1 E2; [left; split; [reflexivity|]; split; [auto|]; rewrite E2; apply in_app_iff; right; left; reflexivity|right; exists l1; exact E2]. Qed.
Lemma nodup_two (l1 l2 : list task) t y : NoDup (ids (t :: l1 ++ l2)) -> In y (l1 ++ l2) -> ti_id y <> ti_id t.
Proof. intros HN Hy E. cbn [ids map] in HN. inversion HN as [|? ? Hn _]; subst. apply Hn. rewrite <- E. apply in_ids, Hy. Qed.
Lemma step_tinv i c0 period s e s' : sinv s -> NoDup (ids (all_tasks s)) -> ~ In i (posted e) -> 0 <= period -> tt_step s e = Some s' -> tinv i c0 period s -> tinv i c0 period s'.
Proof.
  intros HI HN He Hper E (T1 & T2 & T3 & T5 & T4). destruct HI as (HQ & HP & HFl & HS & HR & HO). destruct e as [d|id ms p a im|k|d work|d rest]; cbn [tt_step] in E.
  - destruct (0 <=? d); [|discriminate]. injection E as <-. unfold tinv, all_tasks in *. cbn [st_now st_queue st_pipe st_flight st_runs st_over]. auto.
  - destruct (0 <=? ms); [|discriminate]. injection E as <-. unfold tinv, all_tasks in *. cbn [st_now st_queue st_pipe st_flight st_runs st_over]. split; [|split; [|auto]].
    + intros t Ht Ei. rewrite !in_app_iff in Ht. apply T1; [|exact Ei]. rewrite !in_app_iff. destruct Ht as [Ht|[[Ht|[<-|[]]]|Ht]]; try tauto. exfalso. apply He. left. exact Ei.
    + intros t Ht Ei. rewrite !in_app_iff in Ht. apply T2; [|exact Ei]. rewrite in_app_iff. destruct Ht as [Ht|[Ht|[<-|[]]]]; try tauto. exfalso. apply He. left. exact Ei.
  - destruct (nth_error (st_flight s) k) as [t|] eqn:Et; [|discriminate]. pose proof (fun y => remove_in (st_flight s) k t y Et) as Hrm. set (fl := firstn k (st_flight s) ++ skipn (S k) (st_flight s)) in *. clearbody fl. injection E as <-. pose proof (nth_error_In _ _ Et) as Ht. assert (Hta : In t (all_tasks s)) by (unfold all_tasks; rewrite !in_app_iff; tauto).
    destruct (ti_persistent t) eqn:Ep; unfold tinv, all_tasks in *; cbn [st_now st_queue st_pipe st_flight st_runs st_over].
    + split; [|split; [|split; [exact T3|split; [|exact T4]]]].
      * intros y Hy Ei. rewrite !in_app_iff in Hy. destruct Hy as [Hy|[[Hy|[<-|[]]]|[Hy|Hy]]]; [apply T1; [rewrite !in_app_iff; tauto|exact Ei]..| | |apply T1; [rewrite !in_app_iff; tauto|exact Ei]].
        -- apply (T1 t Hta Ei).
        -- apply T1; [|exact Ei]. rewrite !in_app_iff. right. right. left. apply Hrm, Hy.
      * intros y Hy Ei. rewrite !in_app_iff in Hy. destruct Hy as [Hy|[Hy|[<-|[]]]]; [apply T2; [rewrite in_app_iff; tauto|exact Ei]..|]. cbn [tt_again ti_due ti_id] in *. rewrite (T1 t Hta Ei). split.
        -- destruct (T5 t Ht Ei) as (a & Ha). pose proof (T3 _ _ Ha Ei). pose proof (HR _ _ Ha). lia.
        -- intros t1 a1 H1 _. pose proof (HR _ _ H1). lia.
      * intros y Hy Ei. apply T5; [apply Hrm, Hy|exact Ei].
    + split; [|split; [exact T2|split; [exact T3|split; [|exact T4]]]].
      * intros y Hy Ei. rewrite !in_app_iff in Hy. destruct Hy as [Hy|[Hy|[Hy|[<-|Hy]]]]; apply T1; try exact Ei; rewrite !in_app_iff; try tauto. right. right. left. apply Hrm, Hy.
      * intros y Hy Ei. apply T5; [apply Hrm, Hy|exact Ei].
  - destruct (st_queue s) as [|t q] eqn:Eq; cbn [q_get] in E; [discriminate|]. destruct (Z.leb_spec (usec (ti_left t)) d) as [Hd|]; [|discriminate]. destruct (Z.leb_spec 0 work) as [Hw|]; [|discriminate]. cbn [andb] in E. injection E as <-.
    assert (Hall : all_tasks s = t :: q ++ st_pipe s ++ st_flight s ++ st_over s) by (unfold all_tasks; rewrite Eq; reflexivity). rewrite Hall in *. inversion HQ as [|? ? (Ot & Dt) HQ']; subst.
    assert (Hpos : 0 <= usec (ti_left t)). { destruct Ot as (_ & (X1 & X2)). unfold usec. lia. }
    set (q1 := tt_reduce (tv_subtract (ti_left t) (0, 0)) q). assert (Hq1 : forall y, In y q1 -> exists y0, In y0 q /\ ti_id y = ti_id y0 /\ ti_due y = ti_due y0 /\ ti_timeout y = ti_timeout y0) by (intros y; apply reduce_in). clearbody q1.
    assert (Ht2 : ti_id t = i -> c0 <= st_now s + d /\ forall t1 a1, In (t1, a1) (st_runs s) -> ti_id t1 = i -> a1 + period <= st_now s + d).
    { intros Ei. destruct (T2 t (or_introl eq_refl) Ei) as (X1 & X2). split; [lia|]. intros t1 a1 H1 E1. specialize (X2 t1 a1 H1 E1). lia. }
    assert (T3' : forall t1 a1, In (t1, a1) ((t, st_now s + d) :: st_runs s) -> ti_id t1 = i -> c0 <= a1). { intros t1 a1 [X|X] Ei; [injection X as <- <-; apply (Ht2 Ei)|apply (T3 _ _ X Ei)]. }
    assert (T4' : forall l1 t2 a2 l2 t1 a1 l3, (t, st_now s + d) :: st_runs s = l1 ++ (t2, a2) :: l2 ++ (t1, a1) :: l3 -> ti_id t1 = i -> ti_id t2 = i -> a1 + period <= a2).
    { intros l1 t2 a2 l2 t1 a1 l3 X E1 E2. apply runs_cons in X. destruct X as [(_ & X & Hin)|(l1' & X)]; [|apply (T4 _ _ _ _ _ _ _ X E1 E2)]. injection X as -> ->. apply (proj2 (Ht2 E2) t1 a1 Hin E1). }
    assert (Told : forall y, In y (q1 ++ st_pipe s) -> ti_id y = i -> c0 <= ti_due y /\ forall t1 a1, In (t1, a1) ((t, st_now s + d) :: st_runs s) -> ti_id t1 = i -> a1 + period <= ti_due y).
    { intros y Hy Ei. assert (Hy0 : exists y0, In y0 (q ++ st_pipe s) /\ ti_id y = ti_id y0 /\ ti_due y = ti_due y0) by (apply in_app_iff in Hy; destruct Hy as [Hy|Hy]; [destruct (Hq1 y Hy) as (y0 & H1 & H2 & H3 & _); exists y0; rewrite in_app_iff; auto|exists y; rewrite in_app_iff; auto]).
      destruct Hy0 as (y0 & Hy0 & Eid & ->). rewrite Eid in Ei. destruct (T2 y0) as (X1 & X2); [right; exact Hy0|exact Ei|]. split; [exact X1|]. intros t1 a1 [X|X] E1; [|apply (X2 t1 a1 X E1)]. injection X as <- <-. exfalso.
      rewrite app_assoc in HN. apply (nodup_two (q ++ st_pipe s) (st_flight s ++ st_over s) t y0 HN); [apply in_app_iff; left; exact Hy0|congruence]. }
    assert (T1q : forall y, In y q1 -> ti_id y = i -> usec (ti_timeout y) = period) by (intros y Hy Ei; destruct (Hq1 y Hy) as (y0 & H1 & H2 & _ & ->); apply T1; [right; apply in_app_iff; left; exact H1|congruence]).
    assert (T1o : forall y, In y (st_pipe s ++ st_flight s ++ st_over s) -> ti_id y = i -> usec (ti_timeout y) = period) by (intros y Hy Ei; apply T1; [right; apply in_app_iff; right; exact Hy|exact Ei]).
    assert (T1t : ti_id t = i -> usec (ti_timeout t) = period) by (intros Ei; apply T1; [left; reflexivity|exact Ei]).
    assert (T5' : forall y, In y (st_flight s) -> ti_id y = i -> exists a, In (y, a) ((t, st_now s + d) :: st_runs s)) by (intros y Hy Ei; destruct (T5 y Hy Ei) as (a & Ha); exists a; right; exact Ha).
    destruct (ti_async t) eqn:Ea; [|destruct (ti_persistent t) eqn:Ep]; unfold tinv, all_tasks; cbn [st_now st_queue st_pipe st_flight st_runs st_over].
    + split; [|split; [exact Told|split; [exact T3'|split; [|exact T4']]]].
      * intros y Hy Ei. rewrite !in_app_iff in Hy. destruct Hy as [Hy|[Hy|[[<-|Hy]|Hy]]]; auto; apply T1o; try exact Ei; rewrite !in_app_iff; tauto.
      * intros y [<-|Hy] Ei; [eexists; left; reflexivity|apply T5'; assumption].
    + split; [|split; [|split; [exact T3'|split; [exact T5'|exact T4']]]].
      * intros y Hy Ei. rewrite in_app_iff, q_add_in in Hy. destruct Hy as [[->|Hy]|Hy]; [apply T1t, Ei|apply T1q; assumption|apply T1o; assumption].
      * intros y Hy Ei. rewrite in_app_iff, q_add_in in Hy. destruct Hy as [[->|Hy]|Hy]; [|apply Told; [rewrite in_app_iff; auto|exact Ei]..]. cbn [tt_again ti_due ti_id] in *. rewrite (T1t Ei). split; [pose proof (proj1 (Ht2 Ei)); lia|].
        intros t1 a1 [X|X] E1; [injection X as <- <-; lia|]. pose proof (proj2 (Ht2 Ei) t1 a1 X E1). lia.
    + split; [|split; [exact Told|split; [exact T3'|split; [exact T5'|exact T4']]]].
      intros y Hy Ei. rewrite !in_app_iff in Hy. destruct Hy as [Hy|[Hy|[Hy|[<-|Hy]]]]; auto; apply T1o; try exact Ei; rewrite !in_app_iff; tauto.
  - destruct (st_pipe s) as [|n pipe] eqn:Ep; [discriminate|]. destruct (0 <=? d); [|discriminate]. assert (Hall : all_tasks s = st_queue s ++ n :: pipe ++ st_flight s ++ st_over s) by (unfold all_tasks; rewrite Ep; reflexivity). rewrite Hall in *.
    destruct (st_queue s) as [|t q] eqn:Eq; cbn [q_get] in E.
    + injection E as <-. unfold tinv, all_tasks. cbn [st_now st_queue st_pipe st_flight st_runs st_over q_add]. auto.
    + match type of E with (if ?c then _ else _) = _ => destruct c; [|discriminate] end. injection E as <-. unfold tinv, all_tasks. cbn [st_now st_queue st_pipe st_flight st_runs st_over]. split; [|split; [|auto]].
      * intros y Hy Ei. rewrite in_app_iff, !q_add_in in Hy. destruct Hy as [[->|[->|Hy]]|Hy]; cbn [ti_timeout ti_id] in *.
        -- apply T1; [left; reflexivity|exact Ei].
        -- apply T1; [apply in_app_iff; right; left; reflexivity|exact Ei].
        -- destruct (reduce_in _ _ _ Hy) as (y0 & H1 & H2 & _ & ->). apply T1; [right; apply in_app_iff; left; exact H1|congruence].
        -- apply T1; [apply in_app_iff; right; right; exact Hy|exact Ei].
      * intros y Hy Ei. rewrite in_app_iff, !q_add_in in Hy. destruct Hy as [[->|[->|Hy]]|Hy]; cbn [ti_due ti_id] in *.
        -- apply T2; [left; reflexivity|exact Ei].
        -- apply T2; [apply in_app_iff; right; left; reflexivity|exact Ei].
        -- destruct (reduce_in _ _ _ Hy) as (y0 & H1 & H2 & -> & _). apply T2; [right; apply in_app_iff; left; exact H1|congruence].
        -- apply T2; [apply in_app_iff; right; right; exact Hy|exact Ei].
Qed.
Lemma nodup_left {A} (a b : list A) : NoDup (a ++ b) -> NoDup a.
Proof. induction a as [|x a IH]; intros H; [constructor|]. cbn [app] in H. inversion H as [|? ? Hn H']; subst. constructor; [intros X; apply Hn, in_app_iff; left; exact X|apply IH, H']. Qed.
Lemma run_app es1 es2 s : tt_run s (es1 ++ es2) = match tt_run s es1 with None => None | Some s1 => tt_run s1 es2 end.
Proof. revert s. induction es1 as [|e es1 IH]; intros s; cbn [app tt_run]; [reflexivity|]. destruct (tt_step s e); [apply IH|reflexivity]. Qed.
Lemma runs_ids es : forall s s', tt_run s es = Some s' -> (forall t a, In (t, a) (st_runs s) -> In (ti_id t) (ids (all_tasks s))) -> forall t a, In (t, a) (st_runs s') -> In (ti_id t) (ids (all_tasks s')).
Proof.
  induction es as [|e es IH]; intros s s' E H; cbn [tt_run] in E; [injection E as <-; exact H|]. destruct (tt_step s e) as [s1|] eqn:E1; [|discriminate]. apply (IH s1 s' E). clear IH E s'. pose proof (step_ids s e s1 E1) as HP.
  intros t a Hi. apply (Permutation_in _ (Permutation_sym HP)). apply in_app_iff. right. destruct e as [d|id ms p b im|k|d work|d rest]; cbn [tt_step] in E1.
  - destruct (0 <=? d); [|discriminate]. injection E1 as <-. apply (H t a Hi).
  - destruct (0 <=? ms); [|discriminate]. injection E1 as <-. apply (H t a Hi).
  - destruct (nth_error (st_flight s) k) as [u|]; [|discriminate]. injection E1 as <-. destruct (ti_persistent u); apply (H t a Hi).
  - destruct (st_queue s) as [|u q] eqn:Eq; cbn [q_get] in E1; [discriminate|]. destruct (_ && _); [|discriminate]. injection E1 as <-.
    assert (X : In (t, a) ((u, st_now s + d) :: st_runs s)) by (destruct (ti_async u); [exact Hi|destruct (ti_persistent u); exact Hi]). destruct X as [X|X]; [injection X as <- _|apply (H t a X)]. apply in_ids. unfold all_tasks. rewrite Eq. left. reflexivity.
  - destruct (st_pipe s) as [|n pipe]; [discriminate|]. destruct (0 <=? d); [|discriminate]. destruct (st_queue s) as [|u q]; cbn [q_get] in E1; [injection E1 as <-; apply (H t a Hi)|]. match type of E1 with (if ?c then _ else _) = _ => destruct c; [|discriminate] end. injection E1 as <-. apply (H t a Hi).
Qed.
(** A task that is added at some moment never starts before its delay is over (at once if it is immediate), and its runs are at
    least the whole period apart: in all executions, wherever in it the task is added (tasks are told apart by their numbers). *)
Theorem C34_not_early now es1 id ms p a im es2 s1 s2 : NoDup (all_posted (es1 ++ Post id ms p a im :: es2)) ->
  tt_run (tt_init now) es1 = Some s1 -> tt_run s1 (Post id ms p a im :: es2) = Some s2 ->
  (forall t at_, In (t, at_) (st_runs s2) -> ti_id t = id -> st_now s1 + (if im then 0 else ms * 1000) <= at_) /\
  (forall l1 t2 a2 l2 t1 a1 l3, st_runs s2 = l1 ++ (t2, a2) :: l2 ++ (t1, a1) :: l3 -> ti_id t1 = id -> ti_id t2 = id -> a1 + ms * 1000 <= a2).
Proof.
  intros HN E1 E2. assert (Hap : forall x y, all_posted (x ++ y) = all_posted x ++ all_posted y) by (induction x as [|e x IH]; intros y; cbn [app all_posted]; [reflexivity|rewrite IH, app_assoc; reflexivity]). rewrite Hap in HN. cbn [all_posted posted app] in HN.
  destruct (run_inv es1 _ _ (init_inv now) E1) as (HI1 & _). pose proof (run_ids es1 _ _ E1) as HP1. change (ids (all_tasks (tt_init now))) with (@nil Z) in HP1. rewrite app_nil_r in HP1.
  assert (HR1 : forall t b, In (t, b) (st_runs s1) -> In (ti_id t) (ids (all_tasks s1))) by (apply (runs_ids es1 _ _ E1); intros t b []).
  cbn [tt_run] in E2. destruct (tt_step s1 (Post id ms p a im)) as [s|] eqn:Es; [|discriminate]. destruct (step_inv _ _ _ HI1 Es) as (HI & _). pose proof (step_ids _ _ _ Es) as HPs. cbn [posted app] in HPs. rewrite HP1 in HPs.
  assert (Hnew : ~ In id (all_posted es1)). { intros X. apply NoDup_remove_2 in HN. apply HN. apply in_app_iff. left. exact X. }
  assert (Hold : forall t, In t (all_tasks s1) -> ti_id t <> id). { intros t Ht X. apply Hnew. apply (Permutation_in _ HP1). rewrite <- X. apply in_ids, Ht. }
  cbn [tt_step] in Es. destruct (Z.leb_spec 0 ms) as [Hms|]; [|discriminate]. injection Es as Es. destruct (tt_make_ok (st_now s1) id ms p a im Hms) as (_ & Hto & Hdue).
  assert (HT : tinv id (st_now s1 + (if im then 0 else ms * 1000)) (ms * 1000) s).
  { subst s. unfold tinv, all_tasks in *. cbn [st_now st_queue st_pipe st_flight st_runs st_over]. assert (HRn : forall t b, In (t, b) (st_runs s1) -> ti_id t <> id) by (intros t b X Y; apply Hnew; apply (Permutation_in _ HP1); rewrite <- Y; apply (HR1 t b X)).
    split; [|split; [|split; [|split]]].
    - intros t Ht Ei. rewrite !in_app_iff in Ht. destruct Ht as [Ht|[[Ht|[<-|[]]]|Ht]]; try exact Hto; exfalso; apply (Hold t); try exact Ei; rewrite !in_app_iff; tauto.
    - intros t Ht Ei. rewrite !in_app_iff in Ht. destruct Ht as [Ht|[Ht|[<-|[]]]]; [exfalso; apply (Hold t); try exact Ei; rewrite !in_app_iff; tauto..|]. rewrite Hdue. split; [lia|]. intros t1 a1 H1 X. exfalso. apply (HRn t1 a1 H1 X).
    - intros t1 a1 H1 X. exfalso. apply (HRn t1 a1 H1 X).
    - intros t Ht Ei. exfalso. apply (Hold t); try exact Ei; rewrite !in_app_iff; tauto.
    - intros l1 t2 a2 l2 t1 a1 l3 X Y _. exfalso. apply (HRn t1 a1); [|exact Y]. rewrite X. apply in_app_iff. right. right. apply in_app_iff. right. left. reflexivity. }
  assert (HNs : NoDup (ids (all_tasks s) ++ all_posted es2)). { apply (Permutation_NoDup (l := all_posted es1 ++ id :: all_posted es2)); [|exact HN]. rewrite HPs. cbn [app]. symmetry. apply Permutation_middle. }
  assert (Hnid : ~ In id (all_posted es2)). { apply NoDup_remove_2 in HN. intros X. apply HN, in_app_iff. right. exact X. }
  clear - HI HT HNs Hnid E2 Hms. revert s HI HT HNs E2. induction es2 as [|e es IH]; intros s HI HT HNs E2; cbn [tt_run all_posted] in *.
  - injection E2 as <-. destruct HT as (_ & _ & X & _ & Y). split; [exact X|exact Y].
  - destruct (tt_step s e) as [s3|] eqn:E3; [|discriminate]. destruct (step_inv _ _ _ HI E3) as (HI3 & _). assert (HNa : NoDup (ids (all_tasks s))) by (apply nodup_left in HNs; exact HNs).
    apply (IH ltac:(intros X; apply Hnid, in_app_iff; right; exact X) s3 HI3); [|apply (Permutation_NoDup (l := ids (all_tasks s) ++ posted e ++ all_posted es)); [|exact HNs]; rewrite (step_ids _ _ _ E3), app_assoc; apply Permutation_app_tail, Permutation_app_comm|exact E2].
    eapply step_tinv; [exact HI|exact HNa| |lia|exact E3|exact HT]. intros X. apply Hnid, in_app_iff. left. exact X.
Qed.
Print Assumptions C34_not_early.
(** A run starts a task that is then over, runs in a thread, or will run again: a task that is not periodic is started once. *)
Definition once (l : list task) : list Z := ids (filter (fun t => negb (ti_persistent t)) l).
Lemma once_app a b : once (a ++ b) = once a ++ once b.
Proof. unfold once. rewrite filter_app. apply map_app. Qed.
Theorem C34_once now es s : tt_run (tt_init now) es = Some s -> Permutation (once (map fst (st_runs s))) (once (st_flight s ++ st_over s)).
Proof.
  assert (HS : forall e s s', tt_step s e = Some s' -> Permutation (once (map fst (st_runs s))) (once (st_flight s ++ st_over s)) -> Permutation (once (map fst (st_runs s'))) (once (st_flight s' ++ st_over s'))).
  { clear. intros e s s' E H. rewrite once_app in *. destruct e as [d|id ms p a im|k|d work|d rest]; cbn [tt_step] in E.
    - destruct (0 <=? d); [|discriminate]. injection E as <-. exact H.
    - destruct (0 <=? ms); [|discriminate]. injection E as <-. exact H.
    - destruct (nth_error (st_flight s) k) as [t|] eqn:Et; [|discriminate]. injection E as <-. pose proof (in_remove _ _ _ Et) as X.
      assert (Y : Permutation (once (st_flight s)) (once (t :: firstn k (st_flight s) ++ skipn (S k) (st_flight s)))) by (unfold once, ids; apply Permutation_map; clear - X; induction X as [|x l l' X IH|x y l|l l' l'' X1 IH1 X2 IH2]; cbn [filter]; [reflexivity|destruct (negb (ti_persistent x)); [apply perm_skip|]; exact IH|destruct (negb (ti_persistent x)), (negb (ti_persistent y)); try reflexivity; apply perm_swap|etransitivity; eassumption]).
      destruct (ti_persistent t) eqn:Ep; cbn [st_runs st_flight st_over]; rewrite H, Y; unfold once at 1 3; cbn [filter]; rewrite Ep; cbn [negb].
      + reflexivity.
      + unfold once. cbn [filter]. rewrite Ep. cbn [negb ids map app]. apply Permutation_middle.
    - destruct (st_queue s) as [|t q]; cbn [q_get] in E; [discriminate|]. destruct (_ && _); [|discriminate]. injection E as <-. destruct (ti_async t) eqn:Ea; [|destruct (ti_persistent t) eqn:Ep]; cbn [st_runs st_flight st_over map fst].
      + change (t :: map fst (st_runs s)) with ([t] ++ map fst (st_runs s)). change (t :: st_flight s) with ([t] ++ st_flight s). rewrite !once_app. rewrite <- app_assoc. apply Permutation_app_head, H.
      + unfold once at 1. cbn [filter]. rewrite Ep. cbn [negb]. exact H.
      + change (t :: map fst (st_runs s)) with ([t] ++ map fst (st_runs s)). change (t :: st_over s) with ([t] ++ st_over s). rewrite !once_app, H. rewrite Permutation_app_swap_app. reflexivity.
    - destruct (st_pipe s) as [|n pipe]; [discriminate|]. destruct (0 <=? d); [|discriminate]. destruct (st_queue s) as [|t q]; cbn [q_get] in E; [injection E as <-; exact H|]. match type of E with (if ?c then _ else _) = _ => destruct c; [|discriminate] end. injection E as <-. exact H. }
  assert (HG : forall es s0 s, tt_run s0 es = Some s -> Permutation (once (map fst (st_runs s0))) (once (st_flight s0 ++ st_over s0)) -> Permutation (once (map fst (st_runs s))) (once (st_flight s ++ st_over s))).
  { clear now es s. induction es as [|e es IH]; intros s0 s E H; cbn [tt_run] in E; [injection E as <-; exact H|]. destruct (tt_step s0 e) as [s1|] eqn:E1; [|discriminate]. apply (IH s1 s E). eapply HS; eassumption. }
  intros E. apply (HG es _ _ E). reflexivity.
Qed.
Print Assumptions C34_once.
(** Two periodic tasks of 2 and 3 ms and one of 1 ms that runs once, with a late wake-up and a slow task. *)
Example C34_nonvacuous : exists s, tt_run (tt_init 0) [Post 1 2 true false false; Wake 0 (0, 0); Post 2 3 true true false; Wake 500 (0, 1500); Post 3 1 false false false; Wake 200 (0, 1300); Expire 1000 0; Expire 350 50; Expire 1500 0; Finish 0; Wake 10 (0, 490)] = Some s /\
  map (fun r => (ti_id (fst r), snd r)) (st_runs s) = [(2, 3600); (1, 2050); (3, 1700)] /\ map (fun t => (ti_id t, ti_left t)) (st_queue s) = [(1, (0, 490)); (2, (0, 3000))] /\ ids (st_over s) = [3].
Proof. eexists. vm_compute. repeat split. Qed.
