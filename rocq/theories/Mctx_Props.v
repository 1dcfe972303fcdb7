(** C21, C22, C23: pending queries. *)
From Verif Require Import Base BaseFacts Hash_Model Bst_Model Bst_Spec Bst_Proofs Bst2_Proofs Mctx_Model Mctx_Spec Mctx_Proofs.
Require Import Permutation ZifyBool ZifyNat.

(** C21.  Every history of queries, replies and sweeps is a run of the collection of pending queries: a delivered
    reply takes one pending query with its id and hash out of the collection and carries that query's client; it
    cannot be delivered again since the query is gone.  Partial: the names themselves are not compared. *)
Theorem C21_replies_partial os : Forall op_hash_ok os ->
  exists es b pending, mc_run bst_init os = Ret (es, b) /\ mtrace [] os es pending /\ table b pending.
Proof.
  intros HO. destruct (mc_run_ok os bst_init Leaf [] (@binv_init mctx)) as (es & b & t & fl & HE & HB & HT); [intros q []|exact HO|].
  exists es, b, (map snd (elems t)). split; [exact HE|]. split; [exact HT|]. apply (table_vals b t fl HB). reflexivity.
Qed.
Print Assumptions C21_replies_partial.

(** Each query gets at most one of: a delivery, a timeout; the others are still pending. *)
Definition queries (os : list mop) : list mctx := flat_map (fun o => match o with MQuery c now => [stamped c now] | _ => [] end) os.
Inductive answered_by : list mevent -> list mctx -> list mctx -> Prop :=
| A_nil : answered_by [] [] []
| A_added c es d t : answered_by es d t -> answered_by (EAdded c :: es) d t
| A_ignored es d t : answered_by es d t -> answered_by (EIgnored :: es) d t
| A_delivered q r es d t : matches q r -> answered_by es d t -> answered_by (EDelivered (addressed q r) :: es) (q :: d) t
| A_timeout l es d t : answered_by es d t -> answered_by (ETimeout l :: es) d (map fst l ++ t).
Theorem C21_conservation os : Forall op_hash_ok os ->
  exists es b delivered timedout pending, mc_run bst_init os = Ret (es, b) /\ answered_by es delivered timedout /\ table b pending /\
    Permutation (queries os) (delivered ++ timedout ++ pending).
Proof.
  intros HO. destruct (C21_replies_partial os HO) as (es & b & p & HE & HT & Hp).
  assert (H : exists d t, answered_by es d t /\ Permutation ([] ++ queries os) (d ++ t ++ p)).
  { clear HE HO Hp b. induction HT as [p|p o e p1 os es p2 HS HT IH]; cbn [queries flat_map].
    - exists [], []. split; [constructor|]. rewrite app_nil_r. reflexivity.
    - destruct IH as (d & t & HA & HP). fold (queries os). destruct HS as [c now p1 Hp|r q p1 Hp Hm|r p1 Hp|now out p1 Hp _ _ _]; cbn [app].
      + exists d, t. split; [constructor; exact HA|]. rewrite <- HP, Hp. cbn [app]. apply Permutation_sym, Permutation_middle.
      + exists (q :: d), t. split; [constructor; assumption|]. rewrite Hp. cbn [app]. constructor. exact HP.
      + exists d, t. split; [constructor; exact HA|]. rewrite <- HP, Hp. reflexivity.
      + exists d, (map fst out ++ t). split; [constructor; exact HA|]. rewrite Hp, <- app_assoc, HP, <- app_assoc.
        rewrite !(Permutation_app_comm (map fst out)), <- !app_assoc. reflexivity. }
  destruct H as (d & t & HA & HP). exists es, b, d, t, p. auto.
Qed.
Print Assumptions C21_conservation.

(** A query for a name, as IHeader_Fill labels it. *)
Definition ask (id : Z) (name : list Z) (client : list Z) : mctx :=
  mk_ctx (mk_ih None false 0 (Some client) 3 name (bkdr name) 1 true false 29 [65]) (be16 id ++ [1; 0; 0; 1; 0; 0; 0; 0; 0; 0]).
Definition com : list Z := [46; 99; 111; 109].
(** lwwnkix.com and fdgmghi.com have the same hash. *)
Definition coll1 : list Z := [108; 119; 119; 110; 107; 105; 120] ++ com.
Definition coll2 : list Z := [102; 100; 103; 109; 103; 104; 105] ++ com.
Theorem C21_replies_refuted : exists os es b q r, Forall op_hash_ok os /\ mc_run bst_init os = Ret (es, b) /\ In (MReply r) os /\
  In (EDelivered (addressed q r)) es /\ h_domain (c_h q) <> h_domain (c_h r) /\
  h_hash (c_h q) = bkdr (h_domain (c_h q)) /\ h_hash (c_h r) = bkdr (h_domain (c_h r)).
Proof.
  exists [MQuery (ask 7 coll1 [10; 0; 0; 1]) 100; MReply (ask 7 coll2 [])].
  destruct (mc_run bst_init [MQuery (ask 7 coll1 [10; 0; 0; 1]) 100; MReply (ask 7 coll2 [])]) as [[es b]| | |] eqn:E; try (vm_compute in E; discriminate).
  exists es, b, (stamped (ask 7 coll1 [10; 0; 0; 1]) 100), (ask 7 coll2 []). split; [repeat constructor; vm_compute; congruence|].
  split; [reflexivity|]. split; [cbn; auto|]. vm_compute in E. injection E as <- <-. repeat split.
  - vm_compute. auto.
  - vm_compute. congruence.
Qed.
Print Assumptions C21_replies_refuted.

(** C22.  When the hashes of the queries pending under one id always lie within one half of the hash range,
    a reply to a pending query is delivered.  Partial: without the hypothesis it is false. *)
Theorem C22_recognised_partial os es b pending q r : Forall op_hash_ok os -> always_tame os ->
  mc_run bst_init os = Ret (es, b) -> table b pending -> In q pending -> matches q r ->
  exists q' b', mc_answer b r = Ret (0, addressed q' r, b') /\ In q' pending /\ matches q' r.
Proof.
  intros HO HT HE Hp Hq Hm.
  destruct (mc_run_ord os bst_init Leaf [] es b (@binv_init mctx)) as (t & fl & HB & Hord & HH); auto; [intros x []|exact I|].
  apply (table_vals b t fl HB) in Hp. assert (Hq' : In q (map snd (elems t))) by (eapply Permutation_in; [symmetry; exact Hp|exact Hq]).
  apply in_map_iff in Hq'. destruct Hq' as (x & <- & Hx). destruct (srch ctx_cmp r t) as [a|] eqn:ES.
  - destruct (mc_answer_some b t fl r a HB ES) as (q' & b' & t' & fl' & HI & H0 & HA & _). exists q', b'. split; [exact HA|].
    assert (Hq' : In q' (map snd (elems t))) by (apply in_map_iff; exists (a, q'); auto).
    split; [eapply Permutation_in; eauto|]. apply ctx_cmp_zero in H0.
    + destruct H0; split; auto.
    + unfold hash_ok. destruct Hm as (_ & <-). apply (HH (snd x)), in_map, Hx.
    + apply HH. exact Hq'.
  - exfalso. destruct (srch_complete ctx_cmp r t x Hord Hx) as (a & Ha); [| |congruence].
    + intros y Hy. f_equal. apply matches_cmp. exact Hm.
    + apply ctx_cmp_refl.
Qed.
Print Assumptions C22_recognised_partial.

(** In particular when queries pending at the same time never share an id. *)
Theorem C22_distinct_ids_partial os es b pending q r : Forall op_hash_ok os ->
  (forall os1 os2 es1 b1 p1, os = os1 ++ os2 -> mc_run bst_init os1 = Ret (es1, b1) -> table b1 p1 -> NoDup (map ctx_id p1)) ->
  mc_run bst_init os = Ret (es, b) -> table b pending -> In q pending -> matches q r ->
  exists b', mc_answer b r = Ret (0, addressed q r, b').
Proof.
  intros HO HD HE Hp Hq Hm.
  assert (HT : always_tame os).
  { intros os1 os2 es1 b1 p1 E E1 Hp1. pose proof (HD os1 os2 es1 b1 p1 E E1 Hp1) as ND.
    assert (HO1 : Forall op_hash_ok os1) by (rewrite E in HO; apply Forall_app in HO; tauto).
    assert (HH : forall x, In x p1 -> hash_ok x).
    { assert (G : forall os0 b0 t0 fl0 es0 b2, binv b0 t0 fl0 -> (forall y, In y (map snd (elems t0)) -> hash_ok y) -> Forall op_hash_ok os0 ->
        mc_run b0 os0 = Ret (es0, b2) -> exists t2 fl2, binv b2 t2 fl2 /\ forall y, In y (map snd (elems t2)) -> hash_ok y).
      { induction os0 as [|o os0 IH]; intros b0 t0 fl0 es0 b2 HB HH0 HO0 HE0; cbn [mc_run] in HE0.
        - injection HE0 as _ <-. eauto.
        - inversion HO0 as [|? ? Ho1 Ho2]; subst. destruct (mc_step_ok b0 t0 fl0 o HB HH0 Ho1) as (e & b3 & t3 & fl3 & HE3 & HB3 & HH3 & _).
          rewrite HE3 in HE0. cbn [bind fst snd] in HE0. destruct (mc_run b3 os0) as [[es4 b4]| | |] eqn:E4; try discriminate.
          cbn [bind fst snd] in HE0. injection HE0 as _ <-. eapply IH; eauto. }
      destruct (G os1 bst_init Leaf [] es1 b1 (@binv_init mctx)) as (t2 & fl2 & HB2 & HH2); auto; [intros y []|].
      intros x Hx. apply HH2. apply (table_vals b1 t2 fl2 HB2) in Hp1. eapply Permutation_in; [symmetry; exact Hp1|exact Hx]. }
    exists (fun id => match find (fun x => ctx_id x =? id) p1 with Some x => h_hash (c_h x) | None => 0 end).
    intros x Hx. split; [apply (HH x Hx)|].
    assert (EF : find (fun y => ctx_id y =? ctx_id x) p1 = Some x).
    { clear - ND Hx. induction p1 as [|y p IH]; [destruct Hx|]. cbn [find map] in *. apply NoDup_cons_iff in ND. destruct ND as [N1 N2].
      destruct (Z.eqb_spec (ctx_id y) (ctx_id x)) as [Hid|Hid].
      - destruct Hx as [->|Hx]; [reflexivity|]. exfalso. apply N1. rewrite Hid. apply in_map, Hx.
      - destruct Hx as [->|Hx]; [congruence|]. auto. }
    rewrite EF. replace (h_hash (c_h x) - h_hash (c_h x)) with 0 by lia. reflexivity. }
  destruct (C22_recognised_partial os es b pending q r HO HT HE Hp Hq Hm) as (q' & b' & HA & Hq' & Hm').
  assert (ND : NoDup (map ctx_id pending)) by (eapply (HD os []); eauto using app_nil_r; rewrite app_nil_r; reflexivity).
  assert (q' = q).
  { assert (Hid : ctx_id q' = ctx_id q) by (destruct Hm, Hm'; congruence). clear - ND Hq Hq' Hid.
    induction pending as [|y p IH]; [destruct Hq|]. cbn [map] in ND. apply NoDup_cons_iff in ND. destruct ND as [N1 N2].
    destruct Hq as [->|Hq], Hq' as [->|Hq']; auto; exfalso; apply N1; [rewrite <- Hid|rewrite Hid]; apply in_map; assumption. }
  subst q'. eauto.
Qed.
Print Assumptions C22_distinct_ids_partial.

(** google.com, github.com and h.com are asked with the same id; once the first is answered the third cannot be found. *)
Definition google : list Z := [103; 111; 111; 103; 108; 101] ++ com.
Definition github : list Z := [103; 105; 116; 104; 117; 98] ++ com.
Definition hcom : list Z := 104 :: com.
Definition c22_ops : list mop :=
  [MQuery (ask 7 google [1]) 100; MQuery (ask 7 github [1]) 100; MQuery (ask 7 hcom [1]) 100; MReply (ask 7 google [])].
Theorem C22_recognised_refuted : exists os es b pending q r, Forall op_hash_ok os /\ mc_run bst_init os = Ret (es, b) /\ table b pending /\
  In q pending /\ matches q r /\ h_domain (c_h q) = h_domain (c_h r) /\ mc_answer b r = Ret (-60, r, b).
Proof.
  assert (H : match mc_run bst_init c22_ops with
    | Ret (_, b) => bst_enum b (fun (acc : list mctx) _ c => (acc ++ [c], false)) [] = Ret [stamped (ask 7 github [1]) 100; stamped (ask 7 hcom [1]) 100] /\
                    mc_find b (ask 7 hcom []) = Ret None
    | _ => False end) by (vm_compute; split; reflexivity).
  exists c22_ops. destruct (mc_run bst_init c22_ops) as [[es b]| | |] eqn:E; [|destruct H..]. destruct H as [H1 H2].
  exists es, b, [stamped (ask 7 github [1]) 100; stamped (ask 7 hcom [1]) 100], (stamped (ask 7 hcom [1]) 100), (ask 7 hcom []).
  split; [repeat constructor; vm_compute; congruence|]. split; [reflexivity|].
  split; [eexists; split; [exact H1|apply Permutation_refl]|]. split; [cbn; auto|]. split; [split; reflexivity|]. split; [reflexivity|].
  unfold mc_answer. rewrite H2. reflexivity.
Qed.
Print Assumptions C22_recognised_refuted.

(** C23.  In every reachable state a sweep removes exactly the queries older than two seconds and calls back once for
    each, numbering the calls. *)
Theorem C23_sweep_exact os es b pending now : Forall op_hash_ok os -> mc_run bst_init os = Ret (es, b) -> table b pending ->
  exists out b' kept, mc_sweep b now = Ret (out, b') /\ table b' kept /\ Permutation pending (map fst out ++ kept) /\
    (forall q, In q (map fst out) -> now - h_time (c_h q) > 2) /\ (forall q, In q kept -> now - h_time (c_h q) <= 2) /\
    map snd out = map Z.of_nat (seq 1 (length out)).
Proof.
  intros HO HE Hp. destruct (mc_run_ok os bst_init Leaf [] (@binv_init mctx)) as (es' & b0 & t & fl & HE' & HB & _); [intros x []|exact HO|].
  assert (b0 = b) by congruence. subst b0.
  destruct (mc_sweep_ok b t fl now HB) as (out & b' & t' & fl' & HS & HB' & H1 & H2 & H3 & H4 & _).
  exists out, b', (map snd (elems t')). split; [exact HS|]. split; [apply (table_vals b' t' fl' HB'); reflexivity|].
  split; [apply (table_vals b t fl HB) in Hp; rewrite <- Hp; exact H1|]. rewrite Forall_forall in H2, H3. split; [exact H2|]. split; [|exact H4].
  intros q Hq. specialize (H3 q Hq). unfold expired in H3. lia.
Qed.
Print Assumptions C23_sweep_exact.

(** Three queries at different times, one answered, one swept, one left. *)
Definition c21_ops : list mop :=
  [MQuery (ask 7 google [1]) 100; MQuery (ask 7 github [2]) 102; MQuery (ask 9 hcom [3]) 101; MReply (ask 9 hcom []); MReply (ask 9 hcom []); MSweep 103].
Example C21_nonvacuous : exists b, mc_run bst_init c21_ops =
  Ret ([EAdded (stamped (ask 7 google [1]) 100); EAdded (stamped (ask 7 github [2]) 102); EAdded (stamped (ask 9 hcom [3]) 101);
        EDelivered (addressed (stamped (ask 9 hcom [3]) 101) (ask 9 hcom [])); EIgnored; ETimeout [(stamped (ask 7 google [1]) 100, 1)]], b) /\
  table b [stamped (ask 7 github [2]) 102].
Proof. eexists. split; [vm_compute; reflexivity|]. eexists. split; [vm_compute; reflexivity|apply Permutation_refl]. Qed.
Example C22_nonvacuous : always_tame c21_ops.
Proof.
  assert (HT : tame (queries c21_ops)).
  { exists (fun i => if i =? 7 then bkdr google else bkdr hcom). intros q [<-|[<-|[<-|[]]]]; vm_compute; repeat split; congruence. }
  intros os1 os2 es1 b1 p1 E HE (l & Hl & HP). eapply tame_incl; [|exact HT]. intros x Hx. apply (Permutation_in _ (Permutation_sym HP)) in Hx.
  assert (E1 : os1 = firstn (length os1) c21_ops) by (rewrite E, firstn_app, firstn_all, Nat.sub_diag, firstn_O, app_nil_r; reflexivity).
  assert (HL : (length os1 <= 6)%nat) by (apply (f_equal (@length mop)) in E; rewrite app_length in E; cbn [length c21_ops] in E; lia).
  rewrite E1 in HE. clear E E1. destruct (length os1) as [|[|[|[|[|[|[|n]]]]]]]; [..|lia];
    vm_compute in HE; injection HE as <- <-; vm_compute in Hl; injection Hl as <-; cbn [In] in Hx; cbn [queries flat_map c21_ops app In]; intuition (subst; auto).
Qed.
