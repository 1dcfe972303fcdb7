(** Lemmas about the table of pending queries. *)
From Verif Require Import Base BaseFacts ListFacts Hash_Model Bst_Model Bst_Spec Bst_Proofs Bst2_Proofs Mctx_Model Mctx_Spec.
Require Import Permutation ZifyBool ZifyNat.
Set Default Proof Using "Type".

Notation vals t := (map snd (elems t)).

Lemma to_int32_zero x y : 0 <= x < 4294967296 -> 0 <= y < 4294967296 -> (to_int32 (x - y) = 0 <-> x = y).
Proof. intros Hx Hy. unfold to_int32, u32. cbv zeta. destruct (_ <? _) eqn:E; lia. Qed.
Lemma to_int32_self x : to_int32 (x - x) = 0.
Proof. unfold to_int32, u32. replace (x - x) with 0 by lia. reflexivity. Qed.


Lemma ctx_cmp_zero a b : hash_ok a -> hash_ok b -> (ctx_cmp a b = 0 <-> matches a b).
Proof.
  unfold ctx_cmp, matches, hash_ok. intros Ha Hb. destruct (ctx_id a =? ctx_id b) eqn:E; cbn [negb].
  - rewrite to_int32_zero by assumption. lia.
  - lia.
Qed.
Lemma matches_cmp q r y : matches q r -> ctx_cmp r y = ctx_cmp q y.
Proof. intros (H1 & H2). unfold ctx_cmp. rewrite H1, H2. reflexivity. Qed.
Lemma ctx_cmp_refl a : ctx_cmp a a = 0.
Proof. unfold ctx_cmp. rewrite Z.eqb_refl. cbn [negb]. apply to_int32_self. Qed.

(** On tame sets the comparison is an order. *)
Definition in_window (lo : Z -> Z) (c : mctx) : Prop :=
  hash_ok c /\ (h_hash (c_h c) - lo (ctx_id c)) mod 4294967296 < 2147483648.
Lemma to_int32_window x y lo : 0 <= x < 4294967296 -> 0 <= y < 4294967296 ->
  (x - lo) mod 4294967296 < 2147483648 -> (y - lo) mod 4294967296 < 2147483648 ->
  to_int32 (x - y) = (x - lo) mod 4294967296 - (y - lo) mod 4294967296.
Proof. intros Hx Hy H1 H2. unfold to_int32, u32. cbv zeta. destruct (_ <? _) eqn:E; lia. Qed.
Lemma window_orders lo : orders ctx_cmp (in_window lo).
Proof.
  split.
  - intros x y (Hx & Wx) (Hy & Wy). unfold ctx_cmp, hash_ok in *. rewrite (Z.eqb_sym (ctx_id y)).
    destruct (ctx_id x =? ctx_id y) eqn:E; cbn [negb]; [|lia]. apply Z.eqb_eq in E. rewrite E in *.
    rewrite (to_int32_window _ _ (lo (ctx_id y)) Hx Hy Wx Wy), (to_int32_window _ _ (lo (ctx_id y)) Hy Hx Wy Wx). lia.
  - intros x y z (Hx & Wx) (Hy & Wy) (Hz & Wz). unfold ctx_cmp, hash_ok in *.
    destruct (Z.eqb_spec (ctx_id x) (ctx_id y)) as [E1|E1], (Z.eqb_spec (ctx_id y) (ctx_id z)) as [E2|E2], (Z.eqb_spec (ctx_id x) (ctx_id z)) as [E3|E3]; cbn [negb]; try lia.
    rewrite E1, E2 in *.
    rewrite (to_int32_window _ _ (lo (ctx_id z)) Hx Hy Wx Wy), (to_int32_window _ _ (lo (ctx_id z)) Hy Hz Wy Wz), (to_int32_window _ _ (lo (ctx_id z)) Hx Hz Wx Wz). lia.
Qed.
Lemma tame_window pending : tame pending <-> exists lo, forall q, In q pending -> in_window lo q.
Proof. split; intros (lo & H); exists lo; exact H. Qed.
Lemma tame_incl p p' : incl p' p -> tame p -> tame p'.
Proof. intros HI (lo & H). exists lo. intros q Hq. apply H, HI, Hq. Qed.

(** ** Content *)
Lemma fold_collect {A B} (f : A -> B) l : forall acc, fold_left (fun s x => s ++ [f x]) l acc = acc ++ map f l.
Proof. induction l as [|x l IH]; intros acc; cbn [fold_left map]; [now rewrite app_nil_r|]. rewrite IH, <- app_assoc. reflexivity. Qed.
Lemma table_vals b t fl : binv b t fl -> forall p, table b p <-> Permutation (vals t) p.
Proof.
  intros HB p. unfold table.
  assert (E : bst_enum b (fun (acc : list mctx) _ c => (acc ++ [c], false)) [] = Ret (map snd (preorder t))).
  { rewrite (bst_enum_ok _ b t fl [] HB). rewrite visit_never_stop by reflexivity. cbn [fst]. rewrite (fold_collect snd). reflexivity. }
  rewrite E. assert (HP : Permutation (map snd (preorder t)) (vals t)) by (apply Permutation_map, preorder_perm). split.
  - intros (l & El & H). injection El as <-. rewrite <- HP. exact H.
  - intros H. eexists. split; [reflexivity|]. rewrite HP. exact H.
Qed.

(** ** Steps *)
Lemma mc_query_ok b t fl c now : binv b t fl -> exists a b' fl', mc_add b c now = Ret (a, b') /\ binv b' (ins ctx_cmp (stamped c now) a t) fl'.
Proof. intros HB. destruct (bst_add_ok ctx_cmp b t fl (stamped c now) HB) as (a & b' & fl' & H1 & _ & H2). eauto. Qed.

Lemma mc_answer_none b t fl c : binv b t fl -> srch ctx_cmp c t = None -> mc_answer b c = Ret (-60, c, b).
Proof. intros HB HS. unfold mc_answer, mc_find. rewrite (bst_search_ok ctx_cmp b t fl c HB), HS. reflexivity. Qed.
Lemma mc_answer_some b t fl c a : binv b t fl -> srch ctx_cmp c t = Some a ->
  exists q b' t' fl', In (a, q) (elems t) /\ ctx_cmp c q = 0 /\ mc_answer b c = Ret (0, addressed q c, b') /\ deleted t a t' /\ binv b' t' fl'.
Proof.
  intros HB HS. destruct (srch_sound ctx_cmp c t a HS) as (q & HI & H0).
  destruct (locate a q t HI) as (fs & l & r & E). destruct (binv_deref b t fl a q HB HI) as (n & Hn & Hd).
  pose proof (store_data b t fl fs l a q r n (mk_ctx (ih_reset (c_h q)) (c_entity q)) HB E Hn) as HB1.
  destruct (bst_delete_at _ _ fl fs l a _ r HB1 eq_refl) as (b' & t' & HE & HD & HB').
  exists q, b', t', (a :: fl). split; [exact HI|]. split; [exact H0|]. split; [|split; [rewrite E; apply HD|exact HB']].
  unfold mc_answer, mc_find. rewrite (bst_search_ok ctx_cmp b t fl c HB), HS. cbn [bind]. unfold deref. rewrite Hn. cbn [bind].
  rewrite Hd. rewrite HE. reflexivity.
Qed.

Lemma deleted_vals (t t' : tree (D := mctx)) a q : NoDup (addrs t) -> deleted t a t' -> In (a, q) (elems t) -> Permutation (vals t) (q :: vals t').
Proof.
  intros ND HD HI. destruct (deleted_elems _ _ _ HD) as (d & e1 & e2 & E1 & E2).
  assert (d = q).
  { rewrite E1 in HI. unfold addrs in ND. rewrite E1, map_app in ND. cbn [map fst] in ND. apply NoDup_remove_2 in ND.
    apply in_app_iff in HI. cbn [In] in HI. destruct HI as [HI|[HI|HI]]; [|congruence|]; exfalso; apply ND, in_app_iff; [left|right];
      apply in_map_iff; eexists; (split; [|exact HI]); reflexivity. }
  subst d. rewrite E1, E2, !map_app. cbn [map snd]. symmetry. apply Permutation_middle.
Qed.
Lemma deleted_incl (t t' : tree (D := mctx)) a : deleted t a t' -> incl (elems t') (elems t).
Proof.
  intros HD. destruct (deleted_elems _ _ _ HD) as (d & e1 & e2 & -> & ->). intros x. rewrite !in_app_iff. cbn. tauto.
Qed.
Lemma deleted_keeps (t t' : tree (D := mctx)) a x d : deleted t a t' -> In (x, d) (elems t) -> x <> a -> In (x, d) (elems t').
Proof.
  intros HD. destruct (deleted_elems _ _ _ HD) as (d' & e1 & e2 & -> & ->). rewrite !in_app_iff. cbn [In]. intros [H|[H|H]] Hx; auto. congruence.
Qed.

Definition old (now : Z) (x : nat * mctx) : bool := 2 <? now - h_time (c_h (snd x)).
Lemma sweep_loop_ok l : forall b t fl i, binv b t fl -> NoDup (map fst l) -> incl l (elems t) ->
  exists out b' t' fl', sweep_loop b i (map fst l) = Ret (out, b') /\ binv b' t' fl' /\ map fst out = map snd l /\
    map snd out = map (fun k => i + Z.of_nat k) (seq 1 (length l)) /\ Permutation (elems t) (l ++ elems t') /\
    (forall P, orders ctx_cmp P -> (forall x, In x (elems t) -> P (snd x)) -> ord ctx_cmp t -> ord ctx_cmp t').
Proof.
  induction l as [|[a q] l IH]; intros b t fl i HB ND HI; cbn [map fst sweep_loop].
  - exists [], b, t, fl. split; [reflexivity|]. split; [exact HB|]. repeat split; auto.
  - assert (Ha : In (a, q) (elems t)) by (apply HI; cbn; auto).
    destruct (binv_deref b t fl a q HB Ha) as (n & Hn & Hd). unfold deref. rewrite Hn. cbn [bind].
    destruct (bst_delete_ok b t fl a q HB Ha) as (b1 & t1 & HE1 & HD1 & HB1). rewrite HE1. cbn [bind].
    cbn [map fst] in ND. apply NoDup_cons_iff in ND. destruct ND as [Hna ND'].
    destruct (IH b1 t1 (a :: fl) (i + 1) HB1 ND') as (out & b' & t' & fl' & HE & HB' & H1 & H2 & H3 & H4).
    { intros [x d] Hx. eapply deleted_keeps; [exact HD1|apply HI; cbn; auto|]. intros ->. apply Hna. apply in_map_iff. exists (a, d). auto. }
    rewrite HE. cbn [bind fst snd]. eexists _, b', t', fl'. split; [reflexivity|]. split; [exact HB'|].
    assert (Hel : Permutation (elems t) ((a, q) :: elems t1)).
    { destruct (deleted_elems _ _ _ HD1) as (d & e1 & e2 & E1 & E2). pose proof (binv_nodup _ _ _ HB) as NDt. unfold addrs in NDt.
      rewrite E1 in Ha, NDt. rewrite map_app in NDt. cbn [map fst] in NDt. apply NoDup_remove_2 in NDt.
      assert (d = q).
      { apply in_app_iff in Ha. cbn [In] in Ha. destruct Ha as [Ha|[Ha|Ha]]; [|congruence|]; exfalso; apply NDt, in_app_iff; [left|right];
          apply in_map_iff; eexists; (split; [|exact Ha]); reflexivity. }
      subst d. rewrite E1, E2. symmetry. apply Permutation_middle. }
    cbn [map fst snd length]. split; [congruence|]. split; [|split].
    + cbn [seq map]. f_equal. rewrite H2. rewrite <- (seq_shift (length l) 1), map_map. apply map_ext. intros; lia.
    + rewrite Hel. cbn [app]. constructor. exact H3.
    + intros P Ho HP Hord. eapply (H4 P Ho).
      * intros x Hx. apply HP. eapply deleted_incl; eauto.
      * eapply ord_deleted; eauto using orders_preorder.
Qed.

Lemma mc_sweep_ok b t fl now : binv b t fl ->
  exists out b' t' fl', mc_sweep b now = Ret (out, b') /\ binv b' t' fl' /\
    Permutation (vals t) (map fst out ++ vals t') /\ Forall (expired now) (map fst out) /\ Forall (fun q => ~ expired now q) (vals t') /\
    map snd out = map Z.of_nat (seq 1 (length out)) /\
    (forall P, orders ctx_cmp P -> (forall x, In x (elems t) -> P (snd x)) -> ord ctx_cmp t -> ord ctx_cmp t').
Proof.
  intros HB. unfold mc_sweep.
  set (l := filter (old now) (preorder t)).
  assert (E : bst_enum b (collect now) [] = Ret (map fst l)).
  { rewrite (bst_enum_ok _ b t fl [] HB). rewrite visit_never_stop by reflexivity. cbn [fst]. f_equal. unfold l. clear.
    change (map fst (filter (old now) (preorder t))) with ([] ++ map fst (filter (old now) (preorder t))). generalize (@nil nat) as acc.
    induction (preorder t) as [|x p IH]; intros acc; cbn [fold_left filter]; [cbn; now rewrite app_nil_r|]. unfold collect at 2. cbn [fst snd].
    fold (old now x). change (2 <? now - h_time (c_h (snd x))) with (old now x). destruct (old now x); rewrite IH; [cbn [map]; rewrite <- app_assoc|]; reflexivity. }
  rewrite E. cbn [bind].
  assert (HPt : Permutation (preorder t) (elems t)) by apply preorder_perm.
  assert (ND : NoDup (map fst (preorder t))).
  { eapply Permutation_NoDup; [apply Permutation_map; symmetry; exact HPt|]. apply (binv_nodup _ _ _ HB). }
  assert (NDl : NoDup (map fst l)).
  { unfold l. clear - ND. induction (preorder t) as [|x p IH]; cbn [filter map] in *; [constructor|]. inversion ND; subst. destruct (old now x); auto. cbn [map].
    constructor; auto. intros HI. apply H1. apply in_map_iff in HI. destruct HI as (y & <- & Hy). apply filter_In in Hy. apply in_map. tauto. }
  assert (Hincl : incl l (elems t)).
  { intros x Hx. apply filter_In in Hx. eapply Permutation_in; [exact HPt|tauto]. }
  destruct (sweep_loop_ok l b t fl 0 HB NDl Hincl) as (out & b' & t' & fl' & HE & HB' & H1 & H2 & H3 & H4).
  exists out, b', t', fl'. split; [exact HE|]. split; [exact HB'|]. split; [rewrite (Permutation_map snd H3), map_app, H1; reflexivity|]. split; [|split; [|split]].
  - rewrite H1. apply Forall_forall. intros q Hq. apply in_map_iff in Hq. destruct Hq as (x & <- & Hx). apply filter_In in Hx.
    unfold expired. destruct Hx as [_ Hx]. unfold old in Hx. lia.
  - apply Forall_forall. intros q Hq He. apply in_map_iff in Hq. destruct Hq as (x & <- & Hx).
    assert (HNe : NoDup (l ++ elems t')).
    { eapply Permutation_NoDup; [exact H3|]. pose proof (binv_nodup _ _ _ HB) as N. unfold addrs in N. eapply NoDup_map_inv; exact N. }
    eapply nodup_app_disj; [exact HNe| |exact Hx]. unfold l. apply filter_In. split.
    + eapply Permutation_in; [symmetry; exact HPt|]. eapply Permutation_in; [symmetry; exact H3|]. apply in_app_iff. auto.
    + unfold old. unfold expired in He. lia.
  - rewrite H2. assert (EL : length out = length l) by (rewrite <- (map_length fst out), H1, map_length; reflexivity). rewrite EL.
    apply map_ext. intros; lia.
  - exact H4.
Qed.

(** One step: refinement, and the order is kept when the pending queries are tame. *)
Lemma mc_step_ok b t fl o : binv b t fl -> (forall q, In q (vals t) -> hash_ok q) ->
  (match o with MQuery c _ | MReply c => hash_ok c | MSweep _ => True end) ->
  exists e b' t' fl', mc_step b o = Ret (e, b') /\ binv b' t' fl' /\ (forall q, In q (vals t') -> hash_ok q) /\
    mspec (vals t) o e (vals t') /\ (tame (vals t) -> ord ctx_cmp t -> ord ctx_cmp t').
Proof.
  intros HB HH Ho. destruct o as [c now|c|now]; cbn [mc_step].
  - destruct (mc_query_ok b t fl c now HB) as (a & b' & fl' & HE & HB'). rewrite HE. cbn [bind snd].
    assert (HP : Permutation (vals (ins ctx_cmp (stamped c now) a t)) (stamped c now :: vals t)).
    { rewrite (Permutation_map snd (ins_elems ctx_cmp (stamped c now) a t)). reflexivity. }
    eexists _, b', _, fl'. split; [reflexivity|]. split; [exact HB'|]. split; [|split].
    + intros q Hq. apply (Permutation_in _ HP) in Hq. destruct Hq as [<-|Hq]; [exact Ho|auto].
    + constructor. exact HP.
    + intros _ Hord. now apply ord_ins.
  - destruct (srch ctx_cmp c t) as [a|] eqn:ES.
    + destruct (mc_answer_some b t fl c a HB ES) as (q & b' & t' & fl' & HI & H0 & HE & HD & HB'). rewrite HE. cbn [bind fst snd Z.eqb].
      assert (HP : Permutation (vals t) (q :: vals t')) by (eapply deleted_vals; eauto; eapply binv_nodup; eauto).
      assert (Hq : hash_ok q) by (apply HH; eapply Permutation_in; [symmetry; exact HP|cbn; auto]).
      eexists _, b', t', fl'. split; [reflexivity|]. split; [exact HB'|]. split; [|split].
      * intros x Hx. apply HH. eapply Permutation_in; [symmetry; exact HP|cbn; auto].
      * econstructor; [exact HP|]. apply ctx_cmp_zero in H0; auto. destruct H0. split; auto.
      * intros (lo & HT) Hord. eapply ord_deleted; [apply orders_preorder, (window_orders lo)| |exact Hord|exact HD].
        intros x Hx. apply HT. apply in_map. exact Hx.
    + rewrite (mc_answer_none b t fl c HB ES). cbn [bind fst snd]. eexists _, b, t, fl. split; [reflexivity|]. split; [exact HB|]. split; [exact HH|]. split; [|auto].
      constructor. reflexivity.
  - destruct (mc_sweep_ok b t fl now HB) as (out & b' & t' & fl' & HE & HB' & H1 & H2 & H3 & H4 & H5). rewrite HE. cbn [bind fst snd].
    eexists _, b', t', fl'. split; [reflexivity|]. split; [exact HB'|]. split; [|split].
    + intros q Hq. apply HH. eapply Permutation_in; [symmetry; exact H1|]. apply in_app_iff. auto.
    + constructor; auto.
    + intros (lo & HT). apply (H5 (in_window lo) (window_orders lo)). intros x Hx. apply HT, in_map, Hx.
Qed.


Lemma mc_run_ok os : forall b t fl, binv b t fl -> (forall q, In q (vals t) -> hash_ok q) -> Forall op_hash_ok os ->
  exists es b' t' fl', mc_run b os = Ret (es, b') /\ binv b' t' fl' /\ mtrace (vals t) os es (vals t').
Proof.
  induction os as [|o os IH]; intros b t fl HB HH HO; cbn [mc_run].
  - exists [], b, t, fl. split; [reflexivity|]. split; [exact HB|]. constructor.
  - inversion HO as [|? ? HO1 HO2]; subst. destruct (mc_step_ok b t fl o HB HH HO1) as (e & b1 & t1 & fl1 & HE & HB1 & HH1 & HS & _).
    rewrite HE. cbn [bind fst snd]. destruct (IH b1 t1 fl1 HB1 HH1 HO2) as (es & b' & t' & fl' & HE' & HB' & HT). rewrite HE'. cbn [bind fst snd].
    eexists _, b', t', fl'. split; [reflexivity|]. split; [exact HB'|]. econstructor; eauto.
Qed.

Lemma mc_run_ord os : forall b t fl es b', binv b t fl -> (forall q, In q (vals t) -> hash_ok q) -> Forall op_hash_ok os -> ord ctx_cmp t ->
  (forall os1 os2 es1 b1 p1, os = os1 ++ os2 -> mc_run b os1 = Ret (es1, b1) -> table b1 p1 -> tame p1) ->
  mc_run b os = Ret (es, b') -> exists t' fl', binv b' t' fl' /\ ord ctx_cmp t' /\ (forall q, In q (vals t') -> hash_ok q).
Proof.
  induction os as [|o os IH]; intros b t fl es b' HB HH HO Hord HT HE; cbn [mc_run] in HE.
  - injection HE as <- <-. eauto.
  - inversion HO as [|? ? HO1 HO2]; subst. destruct (mc_step_ok b t fl o HB HH HO1) as (e & b1 & t1 & fl1 & HE1 & HB1 & HH1 & _ & Hord1).
    rewrite HE1 in HE. cbn [bind fst snd] in HE. destruct (mc_run b1 os) as [[es2 b2]| | |] eqn:E2; try discriminate. cbn [bind fst snd] in HE. injection HE as <- <-.
    eapply (IH b1 t1 fl1 es2 b2); eauto.
    + apply Hord1; [|exact Hord]. apply (HT [] (o :: os) [] b); [reflexivity|reflexivity|]. apply (table_vals b t fl HB). reflexivity.
    + intros os1 os2 es1 b3 p1 E3 E4 Hp. apply (HT (o :: os1) os2 (e :: es1) b3); [rewrite E3; reflexivity| |exact Hp].
      cbn [mc_run]. rewrite HE1. cbn [bind fst snd]. rewrite E4. reflexivity.
Qed.
