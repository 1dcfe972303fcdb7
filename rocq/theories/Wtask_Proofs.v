From Verif Require Import Base BaseFacts List2Facts Queue_Model Queue_Props Wtask_Model Wtask_Spec.
From Coq Require Import Permutation Sorting.Sorted.
Require Import ZifyBool ZifyNat.

Lemma some_inj {A} (a b : A) : Some a = Some b -> a = b.
Proof. intros H. injection H as ->. reflexivity. Qed.
Ltac sinj E := apply some_inj in E; subst.
Definition wok (t : wtask) : Prop := 0 <= wt_timeout t < 2147483648 /\ 0 <= wt_left t < 2147483648.
Definition wle (a b : wtask) : Prop := wt_left a <= wt_left b.
Definition zcmp (a b : wtask) : Z := wt_left a - wt_left b.
Lemma int_of_id d : -2147483648 <= d < 2147483648 -> int_of d = d.
Proof.
  intros H. unfold int_of. destruct (Z.leb_spec 0 d) as [G|G].
  - rewrite Z.mod_small by lia. destruct (Z.ltb_spec d 2147483648); lia.
  - replace (d mod 4294967296) with (d + 4294967296). { destruct (Z.ltb_spec (d + 4294967296) 2147483648); lia. }
    rewrite <- (Z.mod_add d 1) by lia. rewrite Z.mod_small by lia. lia.
Qed.
Lemma q_insert_ext {A} (c1 c2 : A -> A -> Z) x q : (forall y, In y q -> c1 x y = c2 x y) -> q_insert c1 x q = q_insert c2 x q.
Proof. induction q as [|y q IH]; intros H; [reflexivity|]. cbn [q_insert]. rewrite (H y) by (left; reflexivity). rewrite IH by (intros z Hz; apply H; right; exact Hz). reflexivity. Qed.
Lemma q_add_ext {A} (c1 c2 : A -> A -> Z) x q : (forall y, In y q -> c1 x y = c2 x y) -> q_add c1 x q = q_add c2 x q.
Proof. destruct q as [|y q]; intros H; [reflexivity|]. cbn [q_add]. rewrite (H y) by (left; reflexivity). rewrite (q_insert_ext c1 c2) by (intros z Hz; apply H; right; exact Hz). reflexivity. Qed.
Lemma zcmp_pre : preorder zcmp.
Proof. unfold preorder, zcmp. split; intros; lia. Qed.
Lemma sorted_conv q : StronglySorted wle q <-> StronglySorted (leq zcmp) q.
Proof. split; induction 1 as [|x q HS IH HF]; constructor; try assumption; (eapply Forall_impl; [|exact HF]); intros y; unfold wle, leq, zcmp; lia. Qed.
Lemma wadd_perm t q : Permutation (q_add wt_compare t q) (t :: q).
Proof. apply q_add_perm. Qed.
Lemma wadd_sorted t q : wok t -> Forall wok q -> StronglySorted wle q -> StronglySorted wle (q_add wt_compare t q).
Proof.
  intros Ht Hq HS. rewrite (q_add_ext wt_compare zcmp). 2:{ intros y Hy. pose proof (proj1 (Forall_forall _ _) Hq y Hy) as Hw. unfold wt_compare, zcmp. apply int_of_id. unfold wok in *. lia. }
  apply sorted_conv. apply q_add_sorted; [apply zcmp_pre|]. apply sorted_conv, HS.
Qed.
Lemma wadd_Forall (P : wtask -> Prop) t q : P t -> Forall P q -> Forall P (q_add wt_compare t q).
Proof. intros H1 H2. eapply Permutation_Forall; [symmetry; apply wadd_perm|]. constructor; assumption. Qed.
Lemma wadd_Forall_iff (P : wtask -> Prop) t q : Forall P (q_add wt_compare t q) <-> P t /\ Forall P q.
Proof. split; [|intros (A & B); apply wadd_Forall; assumption]. intros H. pose proof (Permutation_Forall (wadd_perm t q) H) as X. inversion X; auto. Qed.
Lemma cut_left l d : 0 <= l -> 0 <= d -> (if l <? d then 0 else l - d) = Z.max 0 (l - d).
Proof. intros. destruct (Z.ltb_spec l d); lia. Qed.
Lemma wreduce_Forall (P Q : wtask -> Prop) d q : 0 <= d -> Forall wok q -> Forall P q -> (forall t, wok t -> P t -> Q (wt_set (Z.max 0 (wt_left t - d)) t)) -> Forall Q (wt_reduce d q).
Proof. intros Hd Hw HP H. unfold wt_reduce. induction q as [|t q IH]; cbn [map]; constructor; inversion Hw; inversion HP; subst; [rewrite cut_left; [apply H; assumption|unfold wok in *; lia|exact Hd]|apply IH; assumption]. Qed.
Lemma wok_set t l : wok t -> 0 <= l < 2147483648 -> wok (wt_set l t).
Proof. unfold wok, wt_set. cbn [wt_timeout wt_left]. tauto. Qed.
Lemma wreduce_ok d q : 0 <= d -> Forall wok q -> Forall wok (wt_reduce d q).
Proof. intros Hd Hw. apply (wreduce_Forall (fun _ => True)); [exact Hd|exact Hw|apply Forall_forall; auto|]. intros t Ht _. apply wok_set; [exact Ht|]. unfold wok in Ht. lia. Qed.
Lemma wreduce_sorted d q : 0 <= d -> Forall wok q -> StronglySorted wle q -> StronglySorted wle (wt_reduce d q).
Proof.
  intros Hd Hw HS. induction HS as [|t q HS IH HF]; [constructor|]. inversion Hw as [|? ? Ht Hq]; subst. cbn [wt_reduce map]. constructor; [apply IH, Hq|]. apply (wreduce_Forall (wle t)); [exact Hd|exact Hq|exact HF|].
  intros y Hy. unfold wle, wt_set, wok in *. cbn [wt_left]. rewrite cut_left by lia. lia.
Qed.
Lemma wreduce_short d q : 0 <= d -> Forall wok q -> Forall2 (wshort d) q (wt_reduce d q).
Proof. intros Hd. induction 1 as [|t q Ht Hq IH]; cbn [wt_reduce map]; constructor; [|exact IH]. unfold wshort, wt_set. cbn [wt_id wt_timeout wt_left wt_persistent wt_async wt_due]. rewrite cut_left by (unfold wok in Ht; lia). auto 10. Qed.
Lemma wids_reduce d q : wids (wt_reduce d q) = wids q.
Proof. unfold wids, wt_reduce. rewrite map_map. reflexivity. Qed.
Lemma wids_add t q : Permutation (wids (q_add wt_compare t q)) (wt_id t :: wids q).
Proof. unfold wids. rewrite wadd_perm. reflexivity. Qed.
Lemma wids_app a b : wids (a ++ b) = wids a ++ wids b.
Proof. apply map_app. Qed.
Lemma in_remove {A} (l : list A) k x : nth_error l k = Some x -> Permutation l (x :: firstn k l ++ skipn (S k) l).
Proof. intros H. rewrite <- (firstn_skipn k l) at 1. assert (E : skipn k l = x :: skipn (S k) l). { revert l H. induction k as [|k IH]; intros [|y l] H; cbn [nth_error skipn] in *; try discriminate; [injection H as ->; reflexivity|]. apply IH, H. } rewrite E. symmetry. apply Permutation_middle. Qed.
Lemma post_head (m : wtask) l : q_add (fun _ _ => 0) m l = m :: l.
Proof. destruct l; reflexivity. Qed.
Lemma make_ok now id ms p a im : 0 <= ms < 2147483648 -> wok (wt_make now id ms p a im).
Proof. intros H. unfold wok, wt_make. destruct im; cbn [wt_timeout wt_left]; lia. Qed.
Lemma again_ok now t : wok t -> wok (wt_again now t).
Proof. unfold wok, wt_again. cbn [wt_timeout wt_left]. tauto. Qed.

(** ** The state of the scheduler *)
Definition phase_ok (s : wsched) : Prop :=
  match ws_phase s with
  | Waiting h st => st <= ws_now s /\ (ws_msgs s <> [] -> ws_event s = true) /\
                    match h with Some t => wok t /\ Forall (wle t) (ws_queue s) | None => ws_queue s = [] end
  | Woken h => match h with Some t => wok t /\ 0 <= ws_elapsed s /\ Forall (fun y => wt_left t + ws_elapsed s <= wt_left y) (ws_queue s) | None => ws_queue s = [] end
  | Running t => wok t
  | Top => True
  end.
Definition winv (s : wsched) : Prop :=
  Forall wok (ws_queue s) /\ Forall wok (ws_msgs s) /\ Forall wok (ws_flight s) /\ StronglySorted wle (ws_queue s) /\ phase_ok s.
Lemma init_winv now : winv (ws_init now).
Proof. unfold winv, ws_init, phase_ok. cbn. repeat split; constructor. Qed.
Lemma new_winv h q n ms el s : Forall wok q -> Forall wok ms -> Forall wok (ws_flight s) -> StronglySorted wle q -> wok n ->
  match h with Some t => wok t /\ 0 <= el | None => True end -> winv (ws_new h q n ms el s).
Proof.
  intros Hq Hm Hf HS Hn Hh. unfold ws_new, winv, phase_ok. cbn [ws_queue ws_msgs ws_flight ws_phase].
  assert (X : forall q', Forall wok q' -> StronglySorted wle q' -> Forall wok (q_add wt_compare n q') /\ StronglySorted wle (q_add wt_compare n q')). { intros q' A B. split; [apply wadd_Forall; assumption|apply wadd_sorted; assumption]. }
  assert (G : let q2 := match h with Some i => wt_reduce el (q_add wt_compare i q) | None => q end in Forall wok q2 /\ StronglySorted wle q2).
  { destruct h as [t|]; cbv zeta; [|split; assumption]. destruct Hh as (Ht & He). split; [apply wreduce_ok; [exact He|]; apply wadd_Forall; assumption|]. apply wreduce_sorted; [exact He|apply wadd_Forall; assumption|apply wadd_sorted; assumption]. }
  cbv zeta in G. destruct (X _ (proj1 G) (proj2 G)) as (X1 & X2). repeat split; assumption.
Qed.
Lemma start_winv h q el s : Forall wok q -> Forall wok (ws_msgs s) -> Forall wok (ws_flight s) -> StronglySorted wle q ->
  match h with Some t => wok t /\ 0 <= el | None => q = [] end -> winv (ws_start h q el s).
Proof.
  intros Hq Hm Hf HS Hh. unfold ws_start. destruct h as [t|]; [|subst q; unfold winv, phase_ok; cbn; repeat split; try assumption; constructor].
  destruct Hh as (Ht & He). pose proof (wreduce_ok el q He Hq). pose proof (wreduce_sorted el q He Hq HS). destruct (wt_async t); unfold winv, phase_ok; cbn [ws_queue ws_msgs ws_flight ws_phase]; repeat split; try assumption; try apply Ht. constructor; assumption.
Qed.
Lemma post_phase m s : phase_ok s -> phase_ok (ws_post m s).
Proof. unfold phase_ok, ws_post. cbn [ws_phase ws_msgs ws_event ws_now ws_queue ws_elapsed]. destruct (ws_phase s) as [|h st|h|t]; auto. intros (A & _ & B). auto. Qed.
Lemma step_winv s e s' : winv s -> ws_step s e = Some s' -> winv s'.
Proof.
  intros (HQ & HM & HF & HS & HP) E. destruct e as [d|id ms p a im|k| | | | | ]; cbn [ws_step] in E.
  - destruct (Z.leb_spec 0 d); [|discriminate]. sinj E. unfold winv, phase_ok in *. cbn [ws_queue ws_msgs ws_flight ws_phase ws_now ws_event ws_elapsed]. repeat split; try assumption. destruct (ws_phase s); auto. destruct HP as (A & B). split; [lia|exact B].
  - destruct (Z.leb_spec 0 ms); [|discriminate]. destruct (Z.ltb_spec ms 2147483648); [|discriminate]. cbn [andb] in E. sinj E. pose proof (post_phase (wt_make (ws_now s) id ms p a im) s HP). unfold winv. cbn [ws_post ws_queue ws_msgs ws_flight]. rewrite post_head. repeat split; try assumption. constructor; [apply make_ok; lia|exact HM].
  - destruct (nth_error (ws_flight s) k) as [t|] eqn:Et; [|discriminate]. sinj E. pose proof (Permutation_Forall (in_remove _ _ _ Et) HF) as X. inversion X as [|? ? Ht HF']; subst.
    destruct (wt_persistent t).
    + assert (P2 : phase_ok (ws_post (wt_again (ws_now s) t) (mk_wsched (ws_now s) (ws_queue s) (ws_msgs s) (ws_event s) (ws_phase s) (ws_elapsed s) (firstn k (ws_flight s) ++ skipn (S k) (ws_flight s)) (ws_runs s) (ws_over s)))) by (apply post_phase; exact HP).
      unfold winv. split; [exact HQ|]. split; [cbn [ws_post ws_msgs]; rewrite post_head; constructor; [apply again_ok, Ht|exact HM]|]. split; [exact HF'|]. split; [exact HS|exact P2].
    + unfold winv. split; [exact HQ|]. split; [exact HM|]. split; [exact HF'|]. split; [exact HS|exact HP].
  - unfold phase_ok in HP. destruct (ws_phase s) eqn:Ep; try discriminate. destruct (ws_queue s) as [|t q] eqn:Eq; cbn [q_get] in E.
    + destruct (ws_msgs s) as [|n ms] eqn:Em; cbn [q_get] in E; sinj E.
      * unfold winv, phase_ok. cbn [ws_queue ws_msgs ws_flight ws_phase ws_now]. repeat split; try assumption; try constructor; try lia. congruence.
      * inversion HM; subst. apply new_winv; auto.
    + inversion HQ as [|? ? Ht HQ']; inversion HS as [|? ? HS' HL]; subst. destruct (ws_msgs s) as [|n ms] eqn:Em; cbn [q_get] in E; sinj E.
      * unfold winv, phase_ok. cbn [ws_queue ws_msgs ws_flight ws_phase ws_now]. repeat split; try assumption; try apply Ht; try constructor; try lia. congruence.
      * inversion HM; subst. apply new_winv; auto. split; [exact Ht|lia].
  - unfold phase_ok in HP. destruct (ws_phase s) as [|h st| |] eqn:Ep; try discriminate. destruct (ws_event s); [|discriminate]. destruct HP as (Hst & _ & Hh). destruct h as [t|]; cbv zeta in E; sinj E; unfold winv, phase_ok; cbn [ws_queue ws_msgs ws_flight ws_phase ws_elapsed]; repeat (split; [assumption|]); [|exact Hh].
    destruct Hh as (Ht & HL). pose proof (Z.mod_pos_bound (ws_now s - st) 4294967296 ltac:(lia)) as Hm. rewrite cut_left by (unfold wok in Ht; lia). set (el := (ws_now s - st) mod 4294967296) in *. clearbody el.
    split; [apply wok_set; [exact Ht|unfold wok in Ht; lia]|]. unfold wok in Ht. split; [lia|]. eapply Forall_impl; [|exact HL]. intros y. unfold wle, wt_set. cbn [wt_left]. lia.
  - unfold phase_ok in HP. destruct (ws_phase s) as [|[t|] st| |] eqn:Ep; try discriminate. destruct (Z.leb_spec (wt_left t) (ws_now s - st)); [|discriminate]. sinj E. destruct HP as (Hst & _ & Ht & HL). apply start_winv; try assumption. split; [apply wok_set; [exact Ht|lia]|unfold wok in Ht; lia].
  - unfold phase_ok in HP. destruct (ws_phase s) as [| |h|] eqn:Ep; try discriminate. destruct (ws_msgs s) as [|n ms] eqn:Em; cbn [q_get] in E; sinj E.
    + apply start_winv; try assumption; [rewrite Em; constructor|]. destruct h as [t|]; [destruct HP as (A & B & _); auto|exact HP].
    + inversion HM; subst. apply new_winv; try assumption. destruct h as [t|]; [destruct HP as (A & B & _); auto|exact I].
  - unfold phase_ok in HP. destruct (ws_phase s) as [| | |t] eqn:Ep; try discriminate. sinj E. destruct (wt_persistent t); unfold winv, phase_ok; cbn [ws_queue ws_msgs ws_flight ws_phase]; repeat split; try assumption; [apply wadd_Forall; [apply again_ok, HP|exact HQ]|apply wadd_sorted; [apply again_ok, HP|exact HQ|exact HS]].
Qed.
Lemma run_winv es : forall s s', winv s -> ws_run s es = Some s' -> winv s'.
Proof. induction es as [|e es IH]; intros s s' HI E; cbn [ws_run] in E; [sinj E; exact HI|]. destruct (ws_step s e) as [s1|] eqn:E1; [|discriminate]. apply (IH s1 s' (step_winv _ _ _ HI E1) E). Qed.
Lemma reach_winv now es s : ws_run (ws_init now) es = Some s -> winv s.
Proof. apply run_winv, init_winv. Qed.

(** ** None is lost *)
Lemma all_wids s : wids (all_of s) = wids (ws_queue s) ++ wids (held_of (ws_phase s)) ++ wids (ws_msgs s) ++ wids (ws_flight s) ++ wids (ws_over s).
Proof. unfold all_of. rewrite !wids_app. reflexivity. Qed.
Definition hl (h : option wtask) : list wtask := match h with Some t => [t] | None => [] end.
Lemma new_wids h q n ms el s : Permutation (wids (all_of (ws_new h q n ms el s))) (wids q ++ wids (hl h) ++ wids (n :: ms) ++ wids (ws_flight s) ++ wids (ws_over s)).
Proof.
  rewrite all_wids. unfold ws_new. cbn [ws_queue ws_phase held_of ws_msgs ws_flight ws_over]. change (wids []) with (@nil Z). cbn [app]. rewrite wids_add. change (wids (n :: ms)) with (wt_id n :: wids ms).
  destruct h as [t|]; cbn [hl]; [rewrite wids_reduce, wids_add; change (wids [t]) with [wt_id t]|change (wids []) with (@nil Z)]; cbn [app]; [|apply Permutation_middle].
  etransitivity; [apply perm_swap|]. rewrite <- Permutation_middle. apply perm_skip. apply Permutation_middle.
Qed.
Lemma start_wids h q el s : Permutation (wids (all_of (ws_start h q el s))) (wids q ++ wids (hl h) ++ wids (ws_msgs s) ++ wids (ws_flight s) ++ wids (ws_over s)).
Proof.
  rewrite all_wids. unfold ws_start. destruct h as [t|]; [destruct (wt_async t)|]; cbn [ws_queue ws_phase held_of ws_msgs ws_flight ws_over hl]; rewrite wids_reduce; try reflexivity.
  change (wids [t]) with [wt_id t]. change (wids (t :: ws_flight s)) with (wt_id t :: wids (ws_flight s)). change (wids []) with (@nil Z). cbn [app]. apply Permutation_app_head. symmetry. apply Permutation_middle.
Qed.
Lemma step_wids s e s' : ws_step s e = Some s' -> Permutation (wids (all_of s')) (wposted e ++ wids (all_of s)).
Proof.
  intros E. destruct e as [d|id ms p a im|k| | | | | ]; cbn [ws_step wposted] in E |- *; cbn [app].
  - destruct (0 <=? d); [|discriminate]. sinj E. reflexivity.
  - destruct (_ && _); [|discriminate]. sinj E. rewrite !all_wids. cbn [ws_post ws_queue ws_phase ws_msgs ws_flight ws_over]. rewrite post_head. change (wids (wt_make (ws_now s) id ms p a im :: ws_msgs s)) with (id :: wids (ws_msgs s)).
    rewrite (app_assoc (wids (ws_queue s))). symmetry. rewrite (app_assoc (wids (ws_queue s)) (wids (held_of (ws_phase s)))). cbn [app]. apply Permutation_middle.
  - destruct (nth_error (ws_flight s) k) as [t|] eqn:Et; [|discriminate]. sinj E. pose proof (Permutation_map wt_id (in_remove _ _ _ Et)) as X. fold (wids (ws_flight s)) in X. cbn [map] in X. fold (wids (firstn k (ws_flight s) ++ skipn (S k) (ws_flight s))) in X.
    rewrite !all_wids. destruct (wt_persistent t); cbn [ws_post ws_queue ws_phase ws_msgs ws_flight ws_over].
    + rewrite post_head. change (wids (wt_again (ws_now s) t :: ws_msgs s)) with (wt_id t :: wids (ws_msgs s)). apply Permutation_app_head, Permutation_app_head. rewrite X. cbn [app]. apply Permutation_middle.
    + apply Permutation_app_head, Permutation_app_head, Permutation_app_head. change (wids (t :: ws_over s)) with (wt_id t :: wids (ws_over s)). rewrite X. cbn [app]. symmetry. apply Permutation_middle.
  - destruct (ws_phase s) eqn:Ep; try discriminate. rewrite (all_wids s), Ep. cbn [held_of]. destruct (ws_queue s) as [|t q] eqn:Eq; cbn [q_get] in E; destruct (ws_msgs s) as [|n ms] eqn:Em; cbn [q_get] in E; sinj E.
    + rewrite all_wids. cbn [ws_queue ws_phase ws_msgs ws_flight ws_over held_of]. reflexivity.
    + rewrite new_wids. cbn [hl]. reflexivity.
    + rewrite all_wids. cbn [ws_queue ws_phase ws_msgs ws_flight ws_over held_of]. change (wids (t :: q)) with (wt_id t :: wids q). change (wids [t]) with [wt_id t]. change (wids []) with (@nil Z). cbn [app]. symmetry. apply Permutation_middle.
    + rewrite new_wids. cbn [hl]. change (wids (t :: q)) with (wt_id t :: wids q). change (wids [t]) with [wt_id t]. change (wids []) with (@nil Z). cbn [app]. symmetry. apply Permutation_middle.
  - destruct (ws_phase s) as [|h st| |] eqn:Ep; try discriminate. destruct (ws_event s); [|discriminate]. rewrite (all_wids s), Ep. destruct h as [t|]; cbv zeta in E; sinj E; rewrite all_wids; cbn [ws_queue ws_phase ws_msgs ws_flight ws_over held_of]; reflexivity.
  - destruct (ws_phase s) as [|[t|] st| |] eqn:Ep; try discriminate. destruct (_ <=? _); [|discriminate]. sinj E. rewrite start_wids, (all_wids s), Ep. cbn [hl held_of]. reflexivity.
  - destruct (ws_phase s) as [| |h|] eqn:Ep; try discriminate. rewrite (all_wids s), Ep. destruct (ws_msgs s) as [|n ms] eqn:Em; cbn [q_get] in E; sinj E; [rewrite start_wids, Em|rewrite new_wids]; destruct h; reflexivity.
  - destruct (ws_phase s) as [| | |t] eqn:Ep; try discriminate. sinj E. rewrite (all_wids s), Ep, all_wids. destruct (wt_persistent t); cbn [ws_queue ws_phase ws_msgs ws_flight ws_over held_of]; change (wids [t]) with [wt_id t]; change (wids []) with (@nil Z); cbn [app].
    + rewrite wids_add. cbn [wt_again wt_id app]. apply Permutation_middle.
    + apply Permutation_app_head. change (wids (t :: ws_over s)) with (wt_id t :: wids (ws_over s)). rewrite app_assoc. rewrite <- Permutation_middle. rewrite <- app_assoc. reflexivity.
Qed.
Lemma run_wids es : forall s s', ws_run s es = Some s' -> Permutation (wids (all_of s')) (wall_posted es ++ wids (all_of s)).
Proof.
  induction es as [|e es IH]; intros s s' E; cbn [ws_run wall_posted] in *; [sinj E; reflexivity|]. destruct (ws_step s e) as [s1|] eqn:E1; [|discriminate]. rewrite (IH s1 s' E), (step_wids s e s1 E1). rewrite <- app_assoc. rewrite Permutation_app_swap_app. reflexivity.
Qed.
Definition only_once (s : wsched) : Prop := Forall (fun t => wt_persistent t = false) (ws_over s).
Lemma step_over s e s' : only_once s -> ws_step s e = Some s' -> only_once s'.
Proof.
  unfold only_once. intros H E. destruct e as [d|id ms p a im|k| | | | | ]; cbn [ws_step] in E.
  - destruct (0 <=? d); [|discriminate]. sinj E. exact H.
  - destruct (_ && _); [|discriminate]. sinj E. exact H.
  - destruct (nth_error (ws_flight s) k) as [t|]; [|discriminate]. sinj E. destruct (wt_persistent t) eqn:Et; [exact H|constructor; assumption].
  - destruct (ws_phase s); try discriminate. destruct (q_get (ws_queue s)) as (h & q). destruct (q_get (ws_msgs s)) as ([n|] & ms); sinj E; exact H.
  - destruct (ws_phase s) as [|h st| |]; try discriminate. destruct (ws_event s); [|discriminate]. destruct h; cbv zeta in E; sinj E; exact H.
  - destruct (ws_phase s) as [|[t|] st| |]; try discriminate. destruct (_ <=? _); [|discriminate]. sinj E. unfold ws_start. cbn [wt_set wt_async]. destruct (wt_async t); exact H.
  - destruct (ws_phase s) as [| |h|]; try discriminate. destruct (q_get (ws_msgs s)) as ([n|] & ms); sinj E; [exact H|]. unfold ws_start. destruct h as [t|]; [destruct (wt_async t)|]; exact H.
  - destruct (ws_phase s) as [| | |t]; try discriminate. sinj E. destruct (wt_persistent t) eqn:Et; [exact H|constructor; assumption].
Qed.
Lemma run_over es : forall s s', only_once s -> ws_run s es = Some s' -> only_once s'.
Proof. induction es as [|e es IH]; intros s s' H E; cbn [ws_run] in E; [sinj E; exact H|]. destruct (ws_step s e) as [s1|] eqn:E1; [|discriminate]. apply (IH s1 s' (step_over _ _ _ H E1) E). Qed.

(** ** Early only by the waits that were cut short *)
Definition due_in (at_ c : Z) (t : wtask) : Prop := wt_due t <= at_ + wt_left t + c.
Definition einv (c : Z) (s : wsched) : Prop :=
  Forall (due_in (ws_now s) c) (ws_msgs s) /\ (forall t a, In (t, a) (ws_runs s) -> wt_due t <= a + c) /\
  match ws_phase s with
  | Top | Running _ => Forall (due_in (ws_now s) c) (ws_queue s)
  | Waiting h st => Forall (due_in st c) (ws_queue s) /\ Forall (due_in st c) (hl h)
  | Woken h => match h with Some t => Forall (due_in (ws_now s - ws_elapsed s) c) (ws_queue s) /\ due_in (ws_now s - ws_elapsed s) c t | None => True end
  end.
Lemma due_more a1 a2 c1 c2 l : a1 + c1 <= a2 + c2 -> Forall (due_in a1 c1) l -> Forall (due_in a2 c2) l.
Proof. intros H. apply Forall_impl. unfold due_in. intros t. lia. Qed.
Lemma set_due l t : wt_due (wt_set l t) = wt_due t. Proof. reflexivity. Qed.
Lemma runs_more c1 c2 (rs : list (wtask * Z)) : c1 <= c2 -> (forall t a, In (t, a) rs -> wt_due t <= a + c1) -> forall t a, In (t, a) rs -> wt_due t <= a + c2.
Proof. intros H G t a Hi. specialize (G t a Hi). lia. Qed.
Lemma new_einv h q n ms el c s : Forall wok q -> match h with Some t => wok t /\ 0 <= el /\ Forall (due_in (ws_now s - el) c) q /\ due_in (ws_now s - el) c t | None => Forall (due_in (ws_now s) c) q end ->
  Forall (due_in (ws_now s) c) (n :: ms) -> (forall t a, In (t, a) (ws_runs s) -> wt_due t <= a + c) -> einv c (ws_new h q n ms el s).
Proof.
  intros Hq Hh Hm HR. inversion Hm; subst. unfold einv, ws_new. cbn [ws_msgs ws_now ws_runs ws_phase ws_queue]. split; [assumption|]. split; [exact HR|]. apply wadd_Forall; [assumption|]. destruct h as [t|]; [|exact Hh].
  destruct Hh as (Ht & He & Dq & Dt). apply (wreduce_Forall (due_in (ws_now s - el) c)); [exact He|apply wadd_Forall; assumption|apply wadd_Forall; assumption|]. intros y Hy. unfold due_in, wt_set. cbn [wt_due wt_left]. lia.
Qed.
Lemma start_einv t q el c s : Forall wok q -> 0 <= el -> Forall (due_in (ws_now s - el) c) q -> wt_due t <= ws_now s + c -> Forall (due_in (ws_now s) c) (ws_msgs s) ->
  (forall t a, In (t, a) (ws_runs s) -> wt_due t <= a + c) -> einv c (ws_start (Some t) q el s).
Proof.
  intros Hq He Dq Dt Hm HR. assert (X : Forall (due_in (ws_now s) c) (wt_reduce el q)). { apply (wreduce_Forall (due_in (ws_now s - el) c)); [exact He|exact Hq|exact Dq|]. intros y Hy. unfold due_in, wt_set. cbn [wt_due wt_left]. lia. }
  assert (Y : forall t0 a, In (t0, a) ((t, ws_now s) :: ws_runs s) -> wt_due t0 <= a + c). { intros t0 a [G|G]; [injection G as <- <-; lia|apply HR, G]. }
  unfold ws_start. destruct (wt_async t); unfold einv; cbn [ws_msgs ws_now ws_runs ws_phase ws_queue]; auto.
Qed.
Lemma make_due now id ms p a im c : 0 <= ms -> 0 <= c -> due_in now c (wt_make now id ms p a im).
Proof. intros. unfold due_in, wt_make. cbn [wt_due wt_left]. destruct im; lia. Qed.
Lemma again_due now t c : 0 <= c -> due_in now c (wt_again now t).
Proof. intros. unfold due_in, wt_again. cbn [wt_due wt_left]. lia. Qed.
Lemma step_einv s e s' c : 0 <= c -> winv s -> einv c s -> fresh s e -> ws_step s e = Some s' -> einv (c + cut_of s e) s' /\ 0 <= cut_of s e.
Proof.
  intros Hc (HQ & HM & HF & HS & HP) (EM & ER & EP) Fr E. destruct e as [d|id ms p a im|k| | | | | ]; cbn [ws_step] in E; cbn [cut_of].
  - replace (c + 0) with c by lia. destruct (Z.leb_spec 0 d); [|discriminate]. sinj E. split; [|lia]. unfold einv. cbn [ws_queue ws_msgs ws_runs ws_phase ws_now ws_elapsed]. split; [eapply due_more; [|exact EM]; lia|]. split; [exact ER|].
    destruct (ws_phase s) as [|h st|[t|]|t]; auto; try (eapply due_more; [|exact EP]; lia). destruct EP as (A & B). split; [eapply due_more; [|exact A]; lia|]. unfold due_in in *. lia.
  - replace (c + 0) with c by lia. destruct (_ && _) eqn:Eb; [|discriminate]. sinj E. split; [|lia]. unfold einv. cbn [ws_post ws_queue ws_msgs ws_runs ws_phase ws_now ws_elapsed]. rewrite post_head. split; [|auto]. constructor; [apply make_due; lia|exact EM].
  - replace (c + 0) with c by lia. destruct (nth_error (ws_flight s) k) as [t|] eqn:Et; [|discriminate]. sinj E. split; [|lia]. destruct (wt_persistent t); unfold einv; cbn [ws_post ws_queue ws_msgs ws_runs ws_phase ws_now ws_elapsed]; [|auto]. rewrite post_head. split; [|auto]. constructor; [apply again_due, Hc|exact EM].
  - replace (c + 0) with c by lia. split; [|lia]. destruct (ws_phase s) eqn:Ep; try discriminate. destruct (ws_queue s) as [|t q] eqn:Eq; cbn [q_get] in E; destruct (ws_msgs s) as [|n ms] eqn:Em; cbn [q_get] in E; sinj E.
    + unfold einv. cbn [ws_queue ws_msgs ws_runs ws_phase ws_now ws_elapsed hl]. auto.
    + apply new_einv; auto.
    + unfold einv. cbn [ws_queue ws_msgs ws_runs ws_phase ws_now ws_elapsed hl]. inversion EP; subst. auto.
    + inversion EP; inversion HQ; subst. apply new_einv; auto. split; [assumption|]. split; [lia|]. replace (ws_now s - (wt_left t - wt_left t)) with (ws_now s) by lia. auto.
  - unfold phase_ok in HP. destruct (ws_phase s) as [|h st| |] eqn:Ep; try discriminate. destruct (ws_event s); [|discriminate]. destruct HP as (Hst & _ & Hh). destruct EP as (Eq & Eh). destruct h as [t|]; cbv zeta in E; sinj E; (split; [|lia]); unfold einv; cbn [ws_queue ws_msgs ws_runs ws_phase ws_now ws_elapsed].
    + split; [eapply due_more; [|exact EM]; lia|]. split; [apply (runs_more c); [lia|exact ER]|]. destruct Hh as (Ht & _). pose proof (Z.mod_pos_bound (ws_now s - st) 4294967296 ltac:(lia)) as Hm. pose proof (Z.mod_le (ws_now s - st) 4294967296 ltac:(lia) ltac:(lia)) as Hm2. rewrite cut_left by (unfold wok in Ht; lia). set (el := (ws_now s - st) mod 4294967296) in *. clearbody el. unfold wok in Ht.
      split; [eapply due_more; [|exact Eq]; lia|]. cbn [hl] in Eh. inversion Eh as [|? ? X _]; subst. unfold due_in in *. rewrite set_due. unfold wt_set. cbn [wt_left]. lia.
    + replace (c + 0) with c by lia. auto.
  - replace (c + 0) with c by lia. split; [|lia]. unfold phase_ok in HP. destruct (ws_phase s) as [|[t|] st| |] eqn:Ep; try discriminate. destruct (Z.leb_spec (wt_left t) (ws_now s - st)); [|discriminate]. sinj E. destruct HP as (Hst & _ & Ht & HL). destruct EP as (Eq & Eh). cbn [hl] in Eh. inversion Eh as [|? ? X _]; subst. unfold wok in Ht.
    apply start_einv; auto; [lia|eapply due_more; [|exact Eq]; lia|]. rewrite set_due. unfold due_in in X. lia.
  - replace (c + 0) with c by lia. split; [|lia]. unfold phase_ok in HP. cbn [fresh] in Fr. destruct (ws_phase s) as [| |h|] eqn:Ep; try discriminate. destruct h as [t|].
    + destruct (ws_msgs s) as [|n ms] eqn:Em; [congruence|]. cbn [q_get] in E. sinj E. destruct HP as (A & B & _). apply new_einv; auto.
    + rewrite HP in E. destruct (ws_msgs s) as [|n ms] eqn:Em; cbn [q_get] in E; sinj E; [unfold ws_start, einv; cbn [ws_queue ws_msgs ws_runs ws_phase ws_now ws_elapsed]; rewrite Em; repeat split; try constructor; exact ER|]. apply new_einv; auto.
  - replace (c + 0) with c by lia. split; [|lia]. destruct (ws_phase s) as [| | |t] eqn:Ep; try discriminate. sinj E. destruct (wt_persistent t); unfold einv; cbn [ws_queue ws_msgs ws_runs ws_phase ws_now ws_elapsed]; repeat (split; [assumption|]); [|exact EP]. apply wadd_Forall; [apply again_due, Hc|exact EP].
Qed.
Lemma run_einv es : forall s s' c, 0 <= c -> winv s -> einv c s -> wfresh s es -> ws_run s es = Some s' -> einv (c + wcut s es) s' /\ 0 <= wcut s es.
Proof.
  induction es as [|e es IH]; intros s s' c Hc HI HE HF E; cbn [ws_run wcut wfresh] in *; [sinj E; replace (c + 0) with c by lia; split; [exact HE|lia]|]. destruct (ws_step s e) as [s1|] eqn:E1; [|discriminate]. destruct HF as (F1 & F2). destruct (step_einv s e s1 c Hc HI HE F1 E1) as (G1 & G2).
  destruct (IH s1 s' (c + cut_of s e) ltac:(lia) (step_winv _ _ _ HI E1) G1 F2 E) as (G3 & G4). split; [|lia]. rewrite Z.add_assoc. exact G3.
Qed.
Lemma init_einv now : einv 0 (ws_init now).
Proof. unfold einv, ws_init. cbn. repeat split; try constructor. contradiction. Qed.
