From Verif Require Import Base BaseFacts Name_Model Name_Spec Name_Proofs Parser_Model Parser_Spec.
Require Import ZifyBool ZifyNat.

Lemma name_extent_iff m pos n : Forall is_byte m ->
  (name_extent m pos = Ret n <-> exists w, extent m pos w /\ n = Z.of_nat w).
Proof.
  intros HF. unfold name_extent. split.
  - destruct (name_loop (S (length m)) false 0 m pos None 0 0 false) as [r| | |] eqn:E; try discriminate.
    apply jump_loop_sound in E; auto. destruct E as (w & HE & ->). cbn [bind fst].
    intros H; inversion H. exists w; auto.
  - intros (w & HE & ->). rewrite (jump_loop_complete m pos w HE) by lia. reflexivity.
Qed.

Lemma name_extent_not_fuel m pos : Forall is_byte m -> name_extent m pos <> Fuel.
Proof.
  intros HF. unfold name_extent.
  pose proof (jump_loop_terminates m HF (S (length m)) pos 0 ltac:(lia) ltac:(lia)) as H.
  destruct (name_loop (S (length m)) false 0 m pos None 0 0 false); cbn [bind]; congruence.
Qed.

Lemma extent_pos m o w : extent m o w -> (1 <= w)%nat.
Proof. intros H; destruct H; lia. Qed.

Lemma name_extent_pos m pos n : Forall is_byte m -> name_extent m pos = Ret n -> 1 <= n.
Proof.
  intros HF H. apply name_extent_iff in H; auto. destruct H as (w & HE & ->).
  apply extent_pos in HE. lia.
Qed.

Lemma rd16_not_fuel m i : rd16 m i <> Fuel.
Proof. unfold rd16. destruct (get16 m i); discriminate. Qed.
Lemma rd32_not_fuel m i : rd32 m i <> Fuel.
Proof. unfold rd32. destruct (get32 m i); discriminate. Qed.
Lemma jump_not_fuel m i : Forall is_byte m -> jump m i <> Fuel.
Proof.
  intros HF. unfold jump. pose proof (name_extent_not_fuel m i HF).
  destruct (name_extent m i); cbn [bind]; congruence.
Qed.

Lemma get16_byte m i v : Forall is_byte m -> get16 m i = Some v -> 0 <= v < 65536.
Proof.
  intros HF. unfold get16. destruct (slice m i 2) as [l|] eqn:E; simpl; intros H; inversion H; subst.
  pose proof (slice_length _ _ _ _ E) as HL.
  assert (Forall is_byte l).
  { apply slice_split in E. rewrite E in HF. apply Forall_app in HF. destruct HF as [_ HF].
    apply Forall_app in HF. tauto. }
  destruct l as [|a [|b [|]]]; try discriminate. inversion H0 as [|? ? Ha HF2]; subst.
  inversion HF2 as [|? ? Hb _]; subst. unfold is_byte in *. simpl. lia.
Qed.

(** ** The iterator *)
Definition same_counts (i j : iter) : Prop :=
  it_qf i = it_qf j /\ it_ql i = it_ql j /\ it_af i = it_af j /\ it_al i = it_al j /\
  it_nf i = it_nf j /\ it_nl i = it_nl j /\ it_df i = it_df j /\ it_dl i = it_dl j /\ it_all i = it_all j.

Lemma same_counts_refl i : same_counts i i.
Proof. repeat split. Qed.
Lemma same_counts_trans i j k : same_counts i j -> same_counts j k -> same_counts i k.
Proof. unfold same_counts. intuition congruence. Qed.
Lemma same_counts_stop i : same_counts i (iter_stop i).
Proof. repeat split. Qed.
Lemma same_counts_info i a b c d e f : same_counts i (iter_info i a b c d e f).
Proof. repeat split. Qed.

Lemma determine_purpose_counts i j r : same_counts i j -> determine_purpose i r = determine_purpose j r.
Proof.
  unfold same_counts, determine_purpose.
  intros (-> & -> & -> & -> & -> & -> & -> & -> & _). reflexivity.
Qed.

Lemma iter_init_ok m p0 t0 k0 d0 i : iter_init m p0 t0 k0 d0 = Ret i ->
  exists qd an ns ar, get16 m 4 = Some qd /\ get16 m 6 = Some an /\ get16 m 8 = Some ns /\ get16 m 10 = Some ar /\
   it_all i = qd + an + ns + ar /\ it_pos i = None /\
   it_ql i = (if qd =? 0 then 0 else 1) + qd - 1 /\ it_qf i = (if qd =? 0 then 0 else 1) /\
   (Forall is_byte m -> 0 < qd -> forall r, 1 <= r -> determine_purpose i r = section_of qd an ns ar r).
Proof.
  unfold iter_init, rd16.
  destruct (get16 m 4) as [qd|] eqn:Eqd; [|discriminate].
  destruct (get16 m 6) as [an|] eqn:Ean; [|discriminate].
  destruct (get16 m 8) as [ns|] eqn:Ens; [|discriminate].
  destruct (get16 m 10) as [ar|] eqn:Ear; [|discriminate].
  cbn [bind]. intros H; inversion H; subst; clear H. exists qd, an, ns, ar. cbn.
  repeat split; auto. intros HF Hq r Hr.
  pose proof (get16_byte _ _ _ HF Eqd). pose proof (get16_byte _ _ _ HF Ean).
  pose proof (get16_byte _ _ _ HF Ens). pose proof (get16_byte _ _ _ HF Ear).
  unfold determine_purpose, section_of. cbn.
  destruct (qd =? 0) eqn:E0; [lia|].
  destruct (r <? 1) eqn:E1; [lia|].
  destruct (r <=? qd) eqn:E2.
  { assert (negb (1 =? 0) && (1 <=? r) && (r <=? 1 + qd - 1) = true)%bool as -> by lia. reflexivity. }
  assert (negb (1 =? 0) && (1 <=? r) && (r <=? 1 + qd - 1) = false)%bool as -> by lia.
  destruct (r <=? qd + an) eqn:E3.
  { destruct (an =? 0) eqn:Ea; [lia|].
    assert (negb (1 + qd =? 0) && (1 + qd <=? r) && (r <=? 1 + qd + an - 1) = true)%bool as -> by lia. reflexivity. }
  destruct (an =? 0) eqn:Ea.
  - assert (negb (0 =? 0) && (0 <=? r) && (r <=? 0 + an - 1) = false)%bool as -> by lia.
    destruct (r <=? qd + an + ns) eqn:E4.
    { destruct (ns =? 0) eqn:En; [lia|].
      assert (negb (1 + qd + an =? 0) && (1 + qd + an <=? r) && (r <=? 1 + qd + an + ns - 1) = true)%bool as -> by lia. reflexivity. }
    destruct (ns =? 0) eqn:En.
    + assert (negb (0 =? 0) && (0 <=? r) && (r <=? 0 + ns - 1) = false)%bool as -> by lia.
      destruct (r <=? qd + an + ns + ar) eqn:E5; destruct (ar =? 0) eqn:Er; try lia.
      * assert (negb (1 + qd + an + ns =? 0) && (1 + qd + an + ns <=? r) && (r <=? 1 + qd + an + ns + ar - 1) = true)%bool as -> by lia. reflexivity.
      * reflexivity.
      * assert (negb (1 + qd + an + ns =? 0) && (1 + qd + an + ns <=? r) && (r <=? 1 + qd + an + ns + ar - 1) = false)%bool as -> by lia. reflexivity.
    + assert (negb (1 + qd + an =? 0) && (1 + qd + an <=? r) && (r <=? 1 + qd + an + ns - 1) = false)%bool as -> by lia.
      destruct (r <=? qd + an + ns + ar) eqn:E5; destruct (ar =? 0) eqn:Er; try lia.
      * assert (negb (1 + qd + an + ns =? 0) && (1 + qd + an + ns <=? r) && (r <=? 1 + qd + an + ns + ar - 1) = true)%bool as -> by lia. reflexivity.
      * reflexivity.
      * assert (negb (1 + qd + an + ns =? 0) && (1 + qd + an + ns <=? r) && (r <=? 1 + qd + an + ns + ar - 1) = false)%bool as -> by lia. reflexivity.
  - assert (negb (1 + qd =? 0) && (1 + qd <=? r) && (r <=? 1 + qd + an - 1) = false)%bool as -> by lia.
    destruct (r <=? qd + an + ns) eqn:E4.
    { destruct (ns =? 0) eqn:En; [lia|].
      assert (negb (1 + qd + an =? 0) && (1 + qd + an <=? r) && (r <=? 1 + qd + an + ns - 1) = true)%bool as -> by lia. reflexivity. }
    destruct (ns =? 0) eqn:En.
    + assert (negb (0 =? 0) && (0 <=? r) && (r <=? 0 + ns - 1) = false)%bool as -> by lia.
      destruct (r <=? qd + an + ns + ar) eqn:E5; destruct (ar =? 0) eqn:Er; try lia.
      * assert (negb (1 + qd + an + ns =? 0) && (1 + qd + an + ns <=? r) && (r <=? 1 + qd + an + ns + ar - 1) = true)%bool as -> by lia. reflexivity.
      * reflexivity.
      * assert (negb (1 + qd + an + ns =? 0) && (1 + qd + an + ns <=? r) && (r <=? 1 + qd + an + ns + ar - 1) = false)%bool as -> by lia. reflexivity.
    + assert (negb (1 + qd + an =? 0) && (1 + qd + an <=? r) && (r <=? 1 + qd + an + ns - 1) = false)%bool as -> by lia.
      destruct (r <=? qd + an + ns + ar) eqn:E5; destruct (ar =? 0) eqn:Er; try lia.
      * assert (negb (1 + qd + an + ns =? 0) && (1 + qd + an + ns <=? r) && (r <=? 1 + qd + an + ns + ar - 1) = true)%bool as -> by lia. reflexivity.
      * reflexivity.
      * assert (negb (1 + qd + an + ns =? 0) && (1 + qd + an + ns <=? r) && (r <=? 1 + qd + an + ns + ar - 1) = false)%bool as -> by lia. reflexivity.
Qed.

(** One successful step of the iterator. *)
Lemma iter_at_some m dlen i pos rec q i' : Forall is_byte m ->
  iter_at m dlen i pos rec = Ret (Some q, i') ->
  q = pos /\ same_counts i i' /\ it_pos i' = Some pos /\ it_rec i' = rec /\ rec <= it_all i /\
  Z.of_nat pos <= dlen /\
  it_purpose i' = determine_purpose i rec /\ it_purpose i' <> P_unknown /\
  rec_type m pos = Ret (it_type i') /\ rec_class m pos = Ret (it_klass i') /\ it_type i' <> 0 /\ it_klass i' <> 0 /\
  (it_purpose i' <> P_question -> rec_dlen m pos = Ret (it_dlen i')).
Proof.
  intros HF. unfold iter_at. destruct (_ || _)%bool eqn:E; [discriminate|].
  destruct (rec_type m pos) as [ty| | |]; try discriminate. cbn [bind].
  destruct (rec_class m pos) as [kl| | |]; try discriminate. cbn [bind].
  destruct (negb _ && negb _ && negb _)%bool eqn:E2; [|discriminate].
  destruct (purpose_eqb (determine_purpose i rec) P_question) eqn:Eq; cbn [bind].
  - intros H; inversion H; subst; clear H. cbn. repeat split; auto; try lia.
    + intros Hu. rewrite Hu in E2. discriminate.
    + intros Hn. exfalso. apply Hn. destruct (determine_purpose i rec); simpl in Eq; congruence.
  - destruct (rec_dlen m pos) as [dl| | |] eqn:Ed; try discriminate. cbn [bind].
    intros H; inversion H; subst; clear H. cbn. repeat split; auto; try lia.
    intros Hu. rewrite Hu in E2. discriminate.
Qed.

Lemma iter_at_not_fuel m dlen i pos rec : Forall is_byte m -> iter_at m dlen i pos rec <> Fuel.
Proof.
  intros HF. unfold iter_at. destruct (_ || _)%bool; [discriminate|].
  unfold rec_type, rec_class, rec_dlen. pose proof (jump_not_fuel m pos HF) as HJ.
  destruct (jump m pos) as [p| | |]; cbn [bind]; try congruence.
  pose proof (rd16_not_fuel m p) as H1. destruct (rd16 m p); cbn [bind]; try congruence.
  pose proof (rd16_not_fuel m (p + 2)) as H2. destruct (rd16 m (p + 2)); cbn [bind]; try congruence.
  destruct (_ && _)%bool; try discriminate.
  destruct (purpose_eqb _ P_question); cbn [bind]; try discriminate.
  pose proof (rd16_not_fuel m (p + 8)) as H3. destruct (rd16 m (p + 8)); cbn [bind]; try congruence.
Qed.

Lemma iter_next_not_fuel m dlen i : Forall is_byte m -> iter_next m dlen i <> Fuel.
Proof.
  intros HF. unfold iter_next. destruct (it_pos i) as [pos|]; [|now apply iter_at_not_fuel].
  destruct (it_rec i <? it_all i); [|discriminate].
  pose proof (name_extent_not_fuel m pos HF) as HN.
  destruct (name_extent m pos); cbn [bind]; try congruence.
  destruct (_ <? _); [discriminate|]. now apply iter_at_not_fuel.
Qed.

Lemma iter_next_some m dlen i q i' : Forall is_byte m ->
  iter_next m dlen i = Ret (Some q, i') ->
  exists rec,
  match it_pos i with
  | None => q = 12%nat /\ rec = 1
  | Some pos => it_rec i < it_all i /\ rec = it_rec i + 1 /\ exists w, extent m pos w /\
      q = Z.to_nat (Z.of_nat pos + (Z.of_nat w + if purpose_eqb (it_purpose i) P_question then 4 else 10 + it_dlen i))
  end /\
  same_counts i i' /\ it_pos i' = Some q /\ it_rec i' = rec /\ rec <= it_all i /\
  Z.of_nat q <= dlen /\
  it_purpose i' = determine_purpose i rec /\ it_purpose i' <> P_unknown /\
  rec_type m q = Ret (it_type i') /\ rec_class m q = Ret (it_klass i') /\ it_type i' <> 0 /\ it_klass i' <> 0 /\
  (it_purpose i' <> P_question -> rec_dlen m q = Ret (it_dlen i')).
Proof.
  intros HF. unfold iter_next. destruct (it_pos i) as [pos|].
  - destruct (it_rec i <? it_all i) eqn:E; [|discriminate].
    destruct (name_extent m pos) as [n| | |] eqn:En; try discriminate. cbn [bind].
    match goal with |- context [if ?a <? ?b then Ret (None, i) else _] => destruct (a <? b) eqn:E2 end; intros H; [discriminate H|].
    apply iter_at_some in H; auto. destruct H as (-> & H).
    exists (it_rec i + 1). split; [|exact H]. split; [lia|]. split; [reflexivity|].
    apply name_extent_iff in En; auto. destruct En as (w & HE & ->). exists w. split; auto.
  - intros H. apply iter_at_some in H; auto. destruct H as (-> & H). exists 1. split; [|exact H]. auto.
Qed.

Lemma view_of_some m i pos v : view_of m i pos = Ret v ->
  v_pos v = pos /\ v_purpose v = it_purpose i /\ v_type v = it_type i /\ v_class v = it_klass i /\
  (it_purpose i = P_question -> v_rr v = None) /\
  (it_purpose i <> P_question -> exists ttl dp, v_rr v = Some (ttl, it_dlen i, dp) /\
      rec_ttl m pos = Ret ttl /\ rec_dpos m pos = Ret dp).
Proof.
  unfold view_of. destruct (purpose_eqb (it_purpose i) P_question) eqn:E.
  - intros H; inversion H; subst. cbn. repeat split; auto.
    intros Hn. destruct (it_purpose i); simpl in E; congruence.
  - destruct (rec_ttl m pos) as [ttl| | |]; try discriminate. cbn [bind].
    destruct (rec_dpos m pos) as [dp| | |]; try discriminate. cbn [bind].
    intros H; inversion H; subst. cbn. repeat split; auto.
    + intros Hx. rewrite Hx in E. discriminate.
    + intros _. exists ttl, dp. auto.
Qed.

(** size of a record after its name *)
Definition after_name (v : rec_view) : Z :=
  match v_rr v with None => 4 | Some (_, dl, _) => 10 + dl end.

Lemma view_of_after m i pos v : view_of m i pos = Ret v ->
  after_name v = if purpose_eqb (it_purpose i) P_question then 4 else 10 + it_dlen i.
Proof.
  intros H. apply view_of_some in H. destruct H as (_ & _ & _ & _ & Hq & Hr). unfold after_name.
  destruct (purpose_eqb (it_purpose i) P_question) eqn:E.
  - rewrite Hq; auto. destruct (it_purpose i); simpl in E; congruence.
  - destruct Hr as (ttl & dp & -> & _); auto. intros Hp. rewrite Hp in E. discriminate.
Qed.

Fixpoint linked (m : list Z) (vs : list rec_view) : Prop :=
  match vs with
  | a :: ((b :: _) as r) =>
      (exists w, extent m (v_pos a) w /\
         Z.of_nat (v_pos b) = Z.of_nat (v_pos a) + Z.of_nat w + after_name a) /\ linked m r
  | _ => True
  end.

Lemma rec_dlen_range m q d : Forall is_byte m -> rec_dlen m q = Ret d -> 0 <= d < 65536.
Proof.
  intros HF. unfold rec_dlen. destruct (jump m q) as [p| | |]; try discriminate. cbn [bind]. unfold rd16.
  destruct (get16 m (p + 8)) eqn:E; try discriminate. intros H; inversion H; subst. eapply get16_byte; eauto.
Qed.

Lemma rec_type_range m q d : Forall is_byte m -> rec_type m q = Ret d -> 0 <= d < 65536.
Proof.
  intros HF. unfold rec_type. destruct (jump m q) as [p| | |]; try discriminate. cbn [bind]. unfold rd16.
  destruct (get16 m p) eqn:E; try discriminate. intros H; inversion H; subst. eapply get16_byte; eauto.
Qed.

Lemma walk_bound m dlen : Forall is_byte m -> forall fuel i vs,
  (forall p, it_pos i = Some p -> it_purpose i <> P_question -> 0 <= it_dlen i) ->
  walk fuel m dlen i = Ret vs ->
  let r0 := match it_pos i with None => 0 | Some _ => it_rec i end in
  Z.of_nat (length vs) <= Z.max 0 (it_all i - r0) /\
  (forall k v, nth_error vs k = Some v ->
     v_purpose v = determine_purpose i (r0 + 1 + Z.of_nat k) /\ v_purpose v <> P_unknown /\
     Z.of_nat (v_pos v) <= dlen /\
     rec_type m (v_pos v) = Ret (v_type v) /\ rec_class m (v_pos v) = Ret (v_class v) /\
     (v_rr v = None <-> v_purpose v = P_question) /\
     (forall ttl dl dp, v_rr v = Some (ttl, dl, dp) ->
        rec_ttl m (v_pos v) = Ret ttl /\ rec_dlen m (v_pos v) = Ret dl /\ rec_dpos m (v_pos v) = Ret dp)) /\
  linked m vs /\
  match vs with
  | [] => True
  | v :: _ => match it_pos i with
              | None => v_pos v = 12%nat
              | Some p => exists w, extent m p w /\
                  Z.of_nat (v_pos v) = Z.of_nat p + Z.of_nat w +
                     (if purpose_eqb (it_purpose i) P_question then 4 else 10 + it_dlen i)
              end
  end.
Proof.
  intros HF. induction fuel as [|fuel IH]; intros i vs Hdl H; [discriminate|].
  cbn [walk] in H. destruct (iter_next m dlen i) as [[[q|] i']| | |] eqn:EN; try discriminate; cbn [bind] in H.
  - destruct (view_of m i' q) as [v| | |] eqn:EV; try discriminate. cbn [bind] in H.
    destruct (walk fuel m dlen i') as [vs'| | |] eqn:EW; try discriminate. cbn [bind] in H.
    inversion H; subst vs; clear H.
    apply iter_next_some in EN; auto.
    destruct EN as (rec & Hpos & Hsc & Hp' & Hr' & Hle & Hd & Hpu & Hpn & Hty & Hkl & Hty0 & Hkl0 & Hdle).
    assert (Hdl' : forall p, it_pos i' = Some p -> it_purpose i' <> P_question -> 0 <= it_dlen i').
    { intros p _ Hnq. apply Hdle in Hnq. apply rec_dlen_range in Hnq; auto. lia. }
    specialize (IH i' vs' Hdl' EW). cbn zeta in IH. rewrite Hp' in IH.
    destruct IH as (IH1 & IH2 & IH3 & IH4).
    assert (Hall : it_all i' = it_all i) by (symmetry; apply Hsc).
    pose proof (view_of_after _ _ _ _ EV) as Haft.
    apply view_of_some in EV. destruct EV as (Vp & Vpu & Vty & Vkl & Vq & Vr).
    assert (Hrec : rec = match it_pos i with None => 0 | Some _ => it_rec i end + 1).
    { destruct (it_pos i); [destruct Hpos as (_ & -> & _)|destruct Hpos as (_ & ->)]; lia. }
    cbn zeta. split; [|split; [|split]].
    + cbn [length]. rewrite Hall, Hr' in IH1.
      destruct (it_pos i); [destruct Hpos as (? & ? & _)|destruct Hpos as (? & ?)]; lia.
    + intros [|k] v' Hk.
      * cbn in Hk. inversion Hk; subst v'. rewrite Vpu, Hpu, Vp, Vty, Vkl, <- Hrec.
        rewrite Z.add_0_r. repeat split; auto; try congruence.
        -- intros Hn. destruct (determine_purpose i rec) eqn:Ed; auto; exfalso.
           all: destruct Vr as (? & ? & Hs & _); [rewrite Hpu; discriminate|rewrite Hs in Hn; discriminate].
        -- intros Hq. apply Vq. congruence.
        -- intros. destruct (determine_purpose i rec) eqn:Ed.
           all: try (destruct Vr as (? & ? & Hs & Ht & Hdp); [rewrite Hpu; discriminate|];
             rewrite Hs in H; inversion H; subst; assumption).
           rewrite Vq in H by congruence. discriminate.
        -- intros. destruct (determine_purpose i rec) eqn:Ed.
           all: try (destruct Vr as (? & ? & Hs & Ht & Hdp); [rewrite Hpu; discriminate|];
             rewrite Hs in H; inversion H; subst; apply Hdle; rewrite Hpu; discriminate).
           rewrite Vq in H by congruence. discriminate.
        -- intros. destruct (determine_purpose i rec) eqn:Ed.
           all: try (destruct Vr as (? & ? & Hs & Ht & Hdp); [rewrite Hpu; discriminate|];
             rewrite Hs in H; inversion H; subst; assumption).
           rewrite Vq in H by congruence. discriminate.
      * cbn in Hk. apply IH2 in Hk. rewrite Hr' in Hk.
        rewrite <- (determine_purpose_counts i i') in Hk by assumption.
        rewrite <- Hrec. replace (rec + Z.of_nat (S k)) with (rec + 1 + Z.of_nat k) by lia. exact Hk.
    + destruct vs' as [|v2 vs']; [exact I|]. split; [|exact IH3].
      destruct IH4 as (w & HE & HP). exists w. rewrite Vp, Haft. split; [exact HE|]. lia.
    + destruct (it_pos i) as [p|].
      * destruct Hpos as (_ & _ & w & HE & Hq). exists w. split; [exact HE|]. rewrite Vp, Hq.
        destruct (purpose_eqb (it_purpose i) P_question) eqn:Epq; [lia|].
        assert (0 <= it_dlen i). { apply (Hdl p eq_refl). intros Hx. rewrite Hx in Epq. discriminate. }
        lia.
      * destruct Hpos as (-> & _). exact Vp.
  - inversion H; subst. cbn. repeat split; auto; try lia; intros; destruct k; discriminate.
Qed.

Lemma walk_terminates m dlen : Forall is_byte m -> forall fuel i,
  (it_all i - match it_pos i with None => 0 | Some _ => it_rec i end < Z.of_nat fuel) ->
  (0 < fuel)%nat -> walk fuel m dlen i <> Fuel.
Proof.
  intros HF. induction fuel as [|fuel IH]; intros i Hf Hp; [lia|].
  cbn [walk]. pose proof (iter_next_not_fuel m dlen i HF) as HN.
  destruct (iter_next m dlen i) as [[[q|] i']| | |] eqn:EN; try congruence; cbn [bind]; try discriminate.
  apply iter_next_some in EN; auto.
  destruct EN as (rec & Hpos & Hsc & Hp' & Hr' & Hle & _).
  assert (HV : view_of m i' q <> Fuel).
  { unfold view_of. destruct (purpose_eqb (it_purpose i') P_question); [discriminate|].
    unfold rec_ttl, rec_dpos. pose proof (jump_not_fuel m q HF) as HJ.
    destruct (jump m q) as [p| | |]; cbn [bind]; try congruence.
    pose proof (rd32_not_fuel m (p + 4)). destruct (rd32 m (p + 4)); cbn [bind]; congruence. }
  destruct (view_of m i' q); cbn [bind]; try congruence.
  assert (HW : walk fuel m dlen i' <> Fuel).
  { apply IH.
    - rewrite Hp', Hr'. replace (it_all i') with (it_all i) by apply Hsc.
      destruct (it_pos i); [destruct Hpos as (_ & -> & _)|destruct Hpos as (_ & ->)]; lia.
    - destruct (it_pos i); [destruct Hpos as (? & -> & _)|destruct Hpos as (_ & ->)]; lia. }
  destruct (walk fuel m dlen i'); cbn [bind]; congruence.
Qed.

(** ** Well-formed messages *)
Inductive item := IQ (q : question) | IR (p : purpose) (r : rr).
Definition enc_item (x : item) := match x with IQ q => enc_q q | IR _ r => enc_rr r end.
Definition item_purpose (x : item) := match x with IQ _ => P_question | IR p _ => p end.
Definition good_item (x : item) :=
  match x with IQ q => good_q q | IR p r => good_rr r /\ p <> P_question /\ p <> P_unknown end.
Definition view_item (o : nat) (x : item) : rec_view :=
  match x with
  | IQ q => mk_view o P_question (q_type q) (q_class q) None
  | IR p r => mk_view o p (r_type r) (r_class r)
      (Some (r_ttl r, Z.of_nat (length (r_data r)), (o + length (enc_rr r) - length (r_data r))%nat))
  end.
Fixpoint view_items (o : nat) (xs : list item) : list rec_view :=
  match xs with [] => [] | x :: xs' => view_item o x :: view_items (o + length (enc_item x)) xs' end.

Lemma extent_enc_name n : forall pre post, good_name n ->
  extent (pre ++ enc_name n ++ post) (length pre) (length (enc_name n)).
Proof.
  destruct n as [ls tl]. induction ls as [|l ls IH]; intros pre post [HL HT].
  - unfold enc_name. cbn in *. destruct tl as [[hi lo]|].
    + eapply E_ptr with (hi := hi); [|lia].
      rewrite nth_error_app2 by lia. rewrite Nat.sub_diag. reflexivity.
    + apply E_root. rewrite nth_error_app2 by lia. rewrite Nat.sub_diag. reflexivity.
  - cbn in HL, HT. inversion HL as [|? ? [Hl _] HL']; subst.
    unfold enc_name in *. cbn [en_labels en_tail enc_labels] in *.
    set (tail := match tl with Some (hi, lo) => [hi; lo] | None => [0] end) in *.
    replace (length ((Z.of_nat (length l) :: l ++ enc_labels ls) ++ tail))
      with (S (length l) + length (enc_labels ls ++ tail))%nat by (rewrite !app_length; cbn; rewrite app_length; lia).
    eapply E_label with (n := length l).
    + rewrite nth_error_app2 by lia. rewrite Nat.sub_diag. reflexivity.
    + lia.
    + replace (pre ++ ((Z.of_nat (length l) :: l ++ enc_labels ls) ++ tail) ++ post)
        with ((pre ++ Z.of_nat (length l) :: l) ++ (enc_labels ls ++ tail) ++ post).
      2:{ rewrite <- !app_assoc. cbn. rewrite <- !app_assoc. reflexivity. }
      replace (S (length pre) + length l)%nat with (length (pre ++ Z.of_nat (length l) :: l)) by (rewrite app_length; cbn; lia).
      apply IH. split; auto.
Qed.

Lemma slice_at {A} (a b c m : list A) i n : m = a ++ b ++ c -> i = length a -> n = length b -> slice m i n = Some b.
Proof. intros -> -> ->. apply slice_app. Qed.

Lemma rd16_at a v c m i : m = a ++ be16 v ++ c -> i = length a -> 0 <= v < 65536 -> rd16 m i = Ret v.
Proof.
  intros Hm Hi Hv. unfold rd16, get16. rewrite (slice_at a (be16 v) c m i 2 Hm Hi eq_refl).
  cbn [option_map]. rewrite from16_be16, Z.mod_small by lia. reflexivity.
Qed.
Lemma rd32_at a v c m i : m = a ++ be32 v ++ c -> i = length a -> 0 <= v < 4294967296 -> rd32 m i = Ret v.
Proof.
  intros Hm Hi Hv. unfold rd32, get32. rewrite (slice_at a (be32 v) c m i 4 Hm Hi eq_refl).
  cbn [option_map]. rewrite from32_be32, Z.mod_small by lia. reflexivity.
Qed.

Lemma name_extent_enc pre n post m : good_name n -> m = pre ++ enc_name n ++ post ->
  name_extent m (length pre) = Ret (Z.of_nat (length (enc_name n))).
Proof.
  intros Hg ->. unfold name_extent.
  rewrite (jump_loop_complete _ _ _ (extent_enc_name n pre post Hg)) by lia. reflexivity.
Qed.

Lemma jump_enc pre n post m : good_name n -> m = pre ++ enc_name n ++ post ->
  jump m (length pre) = Ret (length (pre ++ enc_name n)).
Proof.
  intros Hg Hm. unfold jump. rewrite (name_extent_enc pre n post m Hg Hm). cbn [bind].
  f_equal. rewrite app_length. lia.
Qed.

(** what reading at the position of an item gives *)
Lemma item_fields m pre x post : good_item x -> m = pre ++ enc_item x ++ post ->
  let ty := v_type (view_item (length pre) x) in let kl := v_class (view_item (length pre) x) in
  rec_type m (length pre) = Ret ty /\ rec_class m (length pre) = Ret kl /\ ty <> 0 /\ kl <> 0 /\
  match x with
  | IQ q => name_extent m (length pre) = Ret (Z.of_nat (length (enc_item x)) - 4)
  | IR _ r => name_extent m (length pre) = Ret (Z.of_nat (length (enc_item x)) - 10 - Z.of_nat (length (r_data r))) /\
     rec_dlen m (length pre) = Ret (Z.of_nat (length (r_data r))) /\ rec_ttl m (length pre) = Ret (r_ttl r) /\
     rec_dpos m (length pre) = Ret (length pre + length (enc_rr r) - length (r_data r))%nat
  end.
Proof.
  intros Hg Hm. cbn zeta. destruct x as [q|p r]; cbn [enc_item view_item v_type v_class] in *.
  - destruct Hg as (Hn & Ht & Hk). unfold enc_q in *.
    assert (HJ : jump m (length pre) = Ret (length (pre ++ enc_name (q_name q)))).
    { apply (jump_enc pre (q_name q) (be16 (q_type q) ++ be16 (q_class q) ++ post)); auto.
      rewrite Hm, <- !app_assoc. reflexivity. }
    unfold rec_type, rec_class. rewrite HJ. cbn [bind]. split; [|split; [|split; [lia|split; [lia|]]]].
    + eapply rd16_at with (a := pre ++ enc_name (q_name q)) (c := be16 (q_class q) ++ post); [|reflexivity|lia].
      rewrite Hm, <- !app_assoc. reflexivity.
    + eapply rd16_at with (a := pre ++ enc_name (q_name q) ++ be16 (q_type q)) (c := post); [| |lia].
      * rewrite Hm, <- !app_assoc. reflexivity.
      * rewrite !app_length. cbn. lia.
    + rewrite (name_extent_enc pre (q_name q) (be16 (q_type q) ++ be16 (q_class q) ++ post)); auto.
      * f_equal. rewrite !app_length. cbn. lia.
      * rewrite Hm, <- !app_assoc. reflexivity.
  - destruct Hg as ((Hn & Ht & Hk & Httl & Hdl & _) & _ & _). unfold enc_rr in *.
    set (post' := be16 (r_type r) ++ be16 (r_class r) ++ be32 (r_ttl r) ++ be16 (Z.of_nat (length (r_data r))) ++ r_data r ++ post).
    assert (Hm' : m = pre ++ enc_name (r_name r) ++ post') by (rewrite Hm; unfold post'; rewrite <- !app_assoc; reflexivity).
    assert (HJ : jump m (length pre) = Ret (length (pre ++ enc_name (r_name r)))) by (eapply jump_enc; eauto).
    unfold rec_type, rec_class, rec_dlen, rec_ttl, rec_dpos. rewrite HJ. cbn [bind].
    split; [|split; [|split; [lia|split; [lia|split; [|split; [|split]]]]]].
    + eapply rd16_at with (a := pre ++ enc_name (r_name r)); [|reflexivity|lia].
      rewrite Hm'. unfold post'. rewrite <- app_assoc. reflexivity.
    + eapply rd16_at with (a := pre ++ enc_name (r_name r) ++ be16 (r_type r)); [| |lia].
      * rewrite Hm'. unfold post'. rewrite <- !app_assoc. reflexivity.
      * rewrite !app_length. cbn. lia.
    + rewrite (name_extent_enc pre (r_name r) post' m Hn Hm'). f_equal. rewrite !app_length. cbn. lia.
    + eapply rd16_at with (a := pre ++ enc_name (r_name r) ++ be16 (r_type r) ++ be16 (r_class r) ++ be32 (r_ttl r)); [| |lia].
      * rewrite Hm'. unfold post'. rewrite <- !app_assoc. reflexivity.
      * rewrite !app_length. cbn. lia.
    + eapply rd32_at with (a := pre ++ enc_name (r_name r) ++ be16 (r_type r) ++ be16 (r_class r)); [| |lia].
      * rewrite Hm'. unfold post'. rewrite <- !app_assoc. reflexivity.
      * rewrite !app_length. cbn. lia.
    + f_equal. rewrite !app_length. cbn. lia.
Qed.

Lemma purpose_eqb_refl p : purpose_eqb p p = true. Proof. destruct p; reflexivity. Qed.
Lemma purpose_eqb_neq p q : p <> q -> purpose_eqb p q = false.
Proof. destruct p, q; congruence || reflexivity. Qed.

(** stepping onto an item *)
Lemma iter_at_item m dlen i pre x post rec : good_item x -> m = pre ++ enc_item x ++ post ->
  rec <= it_all i -> Z.of_nat (length pre) <= dlen -> determine_purpose i rec = item_purpose x ->
  exists i', iter_at m dlen i (length pre) rec = Ret (Some (length pre), i') /\ same_counts i i' /\
    it_pos i' = Some (length pre) /\ it_rec i' = rec /\ it_purpose i' = item_purpose x /\
    (forall p r, x = IR p r -> it_dlen i' = Z.of_nat (length (r_data r))) /\
    view_of m i' (length pre) = Ret (view_item (length pre) x).
Proof.
  intros Hg Hm Hr Hd Hp. pose proof (item_fields m pre x post Hg Hm) as HI. cbn zeta in HI.
  destruct HI as (Hty & Hkl & Hty0 & Hkl0 & HI).
  unfold iter_at. destruct (it_all i <? rec) eqn:E1; [lia|]. destruct (dlen <? Z.of_nat (length pre)) eqn:E2; [lia|].
  cbn [orb]. rewrite Hty. cbn [bind]. rewrite Hkl. cbn [bind]. rewrite Hp.
  destruct (v_type (view_item (length pre) x) =? 0) eqn:E3; [lia|].
  destruct (v_class (view_item (length pre) x) =? 0) eqn:E4; [lia|].
  destruct x as [q|p r]; cbn [item_purpose] in *.
  - cbn [purpose_eqb negb andb bind]. eexists. split; [reflexivity|].
    split; [apply same_counts_info|]. cbn. repeat split; auto. intros; discriminate.
  - destruct Hg as (_ & Hnq & Hnu). rewrite (purpose_eqb_neq p P_unknown), (purpose_eqb_neq p P_question) by auto.
    cbn [negb andb]. destruct HI as (_ & Hdl & Httl & Hdp). rewrite Hdl. cbn [bind].
    eexists. split; [reflexivity|]. split; [apply same_counts_info|]. cbn. repeat split; auto.
    + intros p' r' H; inversion H; subst. reflexivity.
    + unfold view_of. cbn. rewrite (purpose_eqb_neq p P_question) by auto.
      rewrite Httl. cbn [bind]. rewrite Hdp. reflexivity.
Qed.

(** from an item to the next one *)
Lemma iter_next_item m dlen i pre x post : good_item x -> m = pre ++ enc_item x ++ post ->
  it_pos i = Some (length pre) -> it_rec i < it_all i -> it_purpose i = item_purpose x ->
  (forall p r, x = IR p r -> it_dlen i = Z.of_nat (length (r_data r))) ->
  iter_next m dlen i = iter_at m dlen i (length (pre ++ enc_item x)) (it_rec i + 1).
Proof.
  intros Hg Hm Hp Hr Hpu Hdl. unfold iter_next. rewrite Hp.
  destruct (it_rec i <? it_all i) eqn:E; [|lia].
  pose proof (item_fields m pre x post Hg Hm) as HI. cbn zeta in HI.
  destruct HI as (_ & _ & _ & _ & HI). rewrite Hpu.
  destruct x as [q|p r]; cbn [item_purpose enc_item] in *.
  - rewrite HI. cbn [bind purpose_eqb].
    assert (4 < Z.of_nat (length (enc_q q))).
    { unfold enc_q. rewrite !app_length. cbn.
      pose proof (extent_pos _ _ _ (extent_enc_name (q_name q) [] [] (proj1 Hg))). lia. }
    match goal with |- context [if ?a <? ?b then _ else _] => destruct (a <? b) eqn:E2 end; [lia|].
    f_equal. rewrite app_length. lia.
  - destruct Hg as (Hg & Hnq & Hnu). destruct HI as (HI & _). rewrite HI. cbn [bind].
    rewrite (purpose_eqb_neq p P_question) by auto. rewrite (Hdl p r eq_refl).
    assert (10 + Z.of_nat (length (r_data r)) < Z.of_nat (length (enc_rr r))).
    { unfold enc_rr. rewrite !app_length, !be16_length, be32_length.
      pose proof (extent_pos _ _ _ (extent_enc_name (r_name r) [] [] (proj1 Hg))). lia. }
    match goal with |- context [if ?a <? ?b then _ else _] => destruct (a <? b) eqn:E2 end; [lia|].
    f_equal. rewrite app_length. lia.
Qed.

Lemma walk_items m dlen post : forall xs x i pre,
  good_item x -> Forall good_item xs -> m = pre ++ concat (map enc_item (x :: xs)) ++ post ->
  Z.of_nat (length (pre ++ concat (map enc_item (x :: xs)))) <= dlen ->
  it_pos i = Some (length pre) -> it_rec i + Z.of_nat (length xs) = it_all i ->
  it_purpose i = item_purpose x ->
  (forall p r, x = IR p r -> it_dlen i = Z.of_nat (length (r_data r))) ->
  (forall k y, nth_error xs k = Some y -> determine_purpose i (it_rec i + 1 + Z.of_nat k) = item_purpose y) ->
  forall fuel, (length xs < fuel)%nat ->
  walk fuel m dlen i = Ret (view_items (length (pre ++ enc_item x)) xs).
Proof.
  induction xs as [|y xs IH]; intros x i pre Hg HG Hm Hd Hp Hr Hpu Hdl Hsec fuel Hf;
    (destruct fuel as [|fuel]; [lia|]); cbn [walk].
  - unfold iter_next. rewrite Hp. cbn in Hr. destruct (it_rec i <? it_all i) eqn:E; [lia|]. reflexivity.
  - assert (Hm1 : m = pre ++ enc_item x ++ (concat (map enc_item (y :: xs)) ++ post)).
    { rewrite Hm. cbn. rewrite <- !app_assoc. reflexivity. }
    cbn [length] in Hr, Hf.
    rewrite (iter_next_item m dlen i pre x _ Hg Hm1 Hp ltac:(lia) Hpu Hdl).
    inversion HG as [|? ? Hgy HG']; subst x0 l.
    assert (Hm2 : m = (pre ++ enc_item x) ++ enc_item y ++ (concat (map enc_item xs) ++ post)).
    { rewrite Hm. cbn. rewrite <- !app_assoc. reflexivity. }
    destruct (iter_at_item m dlen i (pre ++ enc_item x) y _ (it_rec i + 1) Hgy Hm2) as (i' & HN & Hsc & Hp' & Hr' & Hpu' & Hdl' & HV).
    { lia. }
    { clear - Hd. cbn in Hd. rewrite !app_length in *. lia. }
    { specialize (Hsec O y eq_refl). rewrite Z.add_0_r in Hsec. exact Hsec. }
    rewrite HN. cbn [bind]. rewrite HV. cbn [bind].
    rewrite (IH y i' (pre ++ enc_item x)); auto.
    + cbn [bind view_items]. f_equal. f_equal. f_equal. rewrite !app_length. lia.
    + cbn. rewrite <- !app_assoc. rewrite Hm2, <- !app_assoc. reflexivity.
    + clear - Hd. cbn in *. rewrite !app_length in *. lia.
    + replace (it_all i') with (it_all i) by apply Hsc. lia.
    + intros k z Hk. rewrite <- (determine_purpose_counts i i') by assumption. rewrite Hr'.
      specialize (Hsec (S k) z Hk). rewrite <- Hsec. f_equal. lia.
    + lia.
Qed.

Definition items_of (g : message) : list item :=
  map IQ (m_qs g) ++ map (IR P_answer) (m_an g) ++ map (IR P_nameserver) (m_ns g) ++ map (IR P_additional) (m_ar g).

Lemma view_items_app xs : forall ys o,
  view_items o (xs ++ ys) = view_items o xs ++ view_items (o + length (concat (map enc_item xs))) ys.
Proof.
  induction xs as [|x xs IH]; intros ys o; cbn.
  - rewrite Nat.add_0_r. reflexivity.
  - rewrite IH, app_length. do 3 f_equal. lia.
Qed.
Lemma view_items_qs qs : forall o, view_items o (map IQ qs) = view_qs o qs.
Proof. induction qs as [|q qs IH]; intros o; cbn; auto. now rewrite IH. Qed.
Lemma view_items_rrs p rs : forall o, view_items o (map (IR p) rs) = view_rrs p o rs.
Proof. induction rs as [|r rs IH]; intros o; cbn; auto. now rewrite IH. Qed.
Lemma enc_items_qs qs : concat (map enc_item (map IQ qs)) = concat (map enc_q qs).
Proof. now rewrite map_map. Qed.
Lemma enc_items_rrs p rs : concat (map enc_item (map (IR p) rs)) = concat (map enc_rr rs).
Proof. now rewrite map_map. Qed.

Lemma view_items_msg g : view_items 12 (items_of g) = view_msg g.
Proof.
  unfold items_of, view_msg. rewrite !view_items_app, view_items_qs, !view_items_rrs, enc_items_qs, !enc_items_rrs.
  reflexivity.
Qed.

Lemma items_of_purpose g k y : nth_error (items_of g) k = Some y ->
  section_of (Z.of_nat (length (m_qs g))) (Z.of_nat (length (m_an g))) (Z.of_nat (length (m_ns g))) (Z.of_nat (length (m_ar g)))
    (1 + Z.of_nat k) = item_purpose y.
Proof.
  unfold items_of, section_of. intros H.
  assert (Hk : (k < length (m_qs g) + (length (m_an g) + (length (m_ns g) + length (m_ar g))))%nat).
  { rewrite <- (map_length IQ), <- (map_length (IR P_answer)), <- (map_length (IR P_nameserver)), <- (map_length (IR P_additional)).
    rewrite <- !app_length. apply nth_error_Some. congruence. }
  destruct (Nat.ltb_spec k (length (m_qs g))) as [H1|H1].
  { rewrite nth_error_app1 in H by (rewrite map_length; lia).
    rewrite nth_error_map in H. destruct (nth_error (m_qs g) k); inversion H; subst. cbn [item_purpose].
    destruct (1 + Z.of_nat k <? 1) eqn:E; [lia|]. destruct (_ <=? _) eqn:E2; [reflexivity|lia]. }
  rewrite nth_error_app2 in H by (rewrite map_length; lia). rewrite map_length in H.
  destruct (1 + Z.of_nat k <? 1) eqn:E; [lia|].
  destruct (1 + Z.of_nat k <=? Z.of_nat (length (m_qs g))) eqn:E1; [lia|].
  destruct (Nat.ltb_spec (k - length (m_qs g)) (length (m_an g))) as [H2|H2].
  { rewrite nth_error_app1 in H by (rewrite map_length; lia).
    rewrite nth_error_map in H. destruct (nth_error (m_an g) _); inversion H; subst. cbn [item_purpose].
    destruct (1 + Z.of_nat k <=? Z.of_nat (length (m_qs g)) + Z.of_nat (length (m_an g))) eqn:E2; [reflexivity|lia]. }
  rewrite nth_error_app2 in H by (rewrite map_length; lia). rewrite map_length in H.
  destruct (1 + Z.of_nat k <=? Z.of_nat (length (m_qs g)) + Z.of_nat (length (m_an g))) eqn:E2; [lia|].
  destruct (Nat.ltb_spec (k - length (m_qs g) - length (m_an g)) (length (m_ns g))) as [H3|H3].
  { rewrite nth_error_app1 in H by (rewrite map_length; lia).
    rewrite nth_error_map in H. destruct (nth_error (m_ns g) _); inversion H; subst. cbn [item_purpose].
    match goal with |- (if ?b then _ else _) = _ => destruct b eqn:E3; [reflexivity|lia] end. }
  rewrite nth_error_app2 in H by (rewrite map_length; lia). rewrite map_length in H.
  match goal with |- (if ?b then _ else _) = _ => destruct b eqn:E3; [lia|] end.
  rewrite nth_error_map in H. destruct (nth_error (m_ar g) _); inversion H; subst. cbn [item_purpose].
  match goal with |- (if ?b then _ else _) = _ => destruct b eqn:E4; [reflexivity|lia] end.
Qed.

Lemma good_items g : good_msg g -> Forall good_item (items_of g).
Proof.
  intros (_ & _ & Hq & Ha & Hn & Hr & _). unfold items_of.
  rewrite !Forall_app, !Forall_map. repeat split.
  - exact Hq.
  - eapply Forall_impl; [|exact Ha]. cbn. intuition discriminate.
  - eapply Forall_impl; [|exact Hn]. cbn. intuition discriminate.
  - eapply Forall_impl; [|exact Hr]. cbn. intuition discriminate.
Qed.

Definition header (g : message) : list Z :=
  m_idflags g ++ be16 (Z.of_nat (length (m_qs g))) ++ be16 (Z.of_nat (length (m_an g))) ++
  be16 (Z.of_nat (length (m_ns g))) ++ be16 (Z.of_nat (length (m_ar g))).

Lemma enc_msg_items g : enc_msg g = header g ++ concat (map enc_item (items_of g)).
Proof.
  unfold enc_msg, header, items_of. rewrite !map_app, !concat_app, enc_items_qs, !enc_items_rrs.
  rewrite <- !app_assoc. reflexivity.
Qed.

Lemma header_length g : length (m_idflags g) = 4%nat -> length (header g) = 12%nat.
Proof. intros H. unfold header. rewrite !app_length, H. reflexivity. Qed.

Lemma get16_at a v c m i : m = a ++ be16 v ++ c -> i = length a -> 0 <= v < 65536 -> get16 m i = Some v.
Proof.
  intros Hm Hi Hv. pose proof (rd16_at a v c m i Hm Hi Hv) as H. unfold rd16 in H.
  destruct (get16 m i); inversion H; auto.
Qed.

Lemma enc_labels_bytes ls : Forall (fun l => (1 <= length l <= 63)%nat /\ Forall is_byte l) ls -> Forall is_byte (enc_labels ls).
Proof.
  induction ls as [|l ls IH]; intros H; cbn; [constructor|].
  inversion H as [|? ? [Hl Hb] H']; subst. constructor; [unfold is_byte; lia|].
  apply Forall_app. split; auto.
Qed.
Lemma enc_name_bytes n : good_name n -> Forall is_byte (enc_name n).
Proof.
  intros [HL HT]. unfold enc_name. apply Forall_app. split; [now apply enc_labels_bytes|].
  unfold is_byte. destruct (en_tail n) as [[hi lo]|]; repeat constructor; lia.
Qed.
Lemma enc_item_bytes x : good_item x -> Forall is_byte (enc_item x).
Proof.
  destruct x as [q|p r]; intros H; cbn.
  - destruct H as (Hn & _). unfold enc_q. rewrite !Forall_app. repeat split; auto using enc_name_bytes, be16_bytes.
  - destruct H as ((Hn & _ & _ & _ & _ & Hd) & _). unfold enc_rr. rewrite !Forall_app.
    repeat split; auto using enc_name_bytes, be16_bytes, be32_bytes.
Qed.
Lemma enc_msg_bytes g : good_msg g -> Forall is_byte (enc_msg g).
Proof.
  intros Hg. rewrite enc_msg_items. apply Forall_app. split.
  - unfold header. destruct Hg as (_ & Hb & _). rewrite !Forall_app. repeat split; auto using be16_bytes.
  - apply good_items in Hg. induction Hg as [|x xs Hx _ IH]; cbn; [constructor|].
    apply Forall_app. split; auto using enc_item_bytes.
Qed.

Lemma walk_message g post p0 t0 k0 d0 : good_msg g -> Forall is_byte post -> m_qs g <> [] ->
  exists i, iter_init (enc_msg g ++ post) p0 t0 k0 d0 = Ret i /\
  forall fuel dlen, (length (view_msg g) < fuel)%nat -> Z.of_nat (length (enc_msg g)) <= dlen ->
  walk fuel (enc_msg g ++ post) dlen i = Ret (view_msg g).
Proof.
  intros Hg Hpost Hq. pose proof Hg as (Hid & Hidb & _ & _ & _ & _ & Lq & La & Ln & Lr).
  set (m := enc_msg g ++ post).
  assert (Hm : m = header g ++ concat (map enc_item (items_of g)) ++ post).
  { unfold m. rewrite enc_msg_items, <- app_assoc. reflexivity. }
  assert (E4 : get16 m 4 = Some (Z.of_nat (length (m_qs g)))).
  { eapply get16_at with (a := m_idflags g); [|symmetry; exact Hid|lia]. rewrite Hm. unfold header. rewrite <- !app_assoc. reflexivity. }
  assert (E6 : get16 m 6 = Some (Z.of_nat (length (m_an g)))).
  { eapply get16_at with (a := m_idflags g ++ be16 (Z.of_nat (length (m_qs g)))); [|rewrite app_length, Hid; reflexivity|lia].
    rewrite Hm. unfold header. rewrite <- !app_assoc. reflexivity. }
  assert (E8 : get16 m 8 = Some (Z.of_nat (length (m_ns g)))).
  { eapply get16_at with (a := m_idflags g ++ be16 (Z.of_nat (length (m_qs g))) ++ be16 (Z.of_nat (length (m_an g)))); [|rewrite !app_length, Hid; reflexivity|lia].
    rewrite Hm. unfold header. rewrite <- !app_assoc. reflexivity. }
  assert (E10 : get16 m 10 = Some (Z.of_nat (length (m_ar g)))).
  { eapply get16_at with (a := m_idflags g ++ be16 (Z.of_nat (length (m_qs g))) ++ be16 (Z.of_nat (length (m_an g))) ++ be16 (Z.of_nat (length (m_ns g)))); [|rewrite !app_length, Hid; reflexivity|lia].
    rewrite Hm. unfold header. rewrite <- !app_assoc. reflexivity. }
  assert (HI : exists i, iter_init m p0 t0 k0 d0 = Ret i).
  { unfold iter_init, rd16. rewrite E4, E6, E8, E10. cbn [bind]. eauto. }
  destruct HI as (i & HI). exists i. split; [exact HI|]. intros fuel dlen Hf Hd.
  apply iter_init_ok in HI. destruct HI as (qd & an & ns & ar & G4 & G6 & G8 & G10 & Hall & Hpos & _ & _ & Hsec).
  rewrite E4 in G4. rewrite E6 in G6. rewrite E8 in G8. rewrite E10 in G10.
  injection G4 as <-. injection G6 as <-. injection G8 as <-. injection G10 as <-.
  assert (Hb : Forall is_byte m) by (apply Forall_app; split; auto using enc_msg_bytes).
  destruct (m_qs g) as [|q qs] eqn:Eq; [congruence|].
  specialize (Hsec Hb ltac:(cbn; lia)).
  assert (HGI := good_items g Hg).
  pose proof (view_items_msg g) as HVI. pose proof (header_length g Hid) as HH.
  assert (Hlen : length (items_of g) = (length (m_qs g) + length (m_an g) + length (m_ns g) + length (m_ar g))%nat).
  { unfold items_of. rewrite !app_length, !map_length. lia. }
  pose proof (items_of_purpose g) as HIP.
  destruct (items_of g) as [|x xs] eqn:Ei.
  { rewrite Eq in Hlen. cbn in Hlen. lia. }
  inversion HGI as [|? ? Hgx HGxs]; subst x0 l.
  destruct fuel as [|fuel]; [lia|]. cbn [walk]. unfold iter_next. rewrite Hpos.
  assert (Hm1 : m = header g ++ enc_item x ++ (concat (map enc_item xs) ++ post)).
  { rewrite Hm. cbn. rewrite <- !app_assoc. reflexivity. }
  destruct (iter_at_item m dlen i (header g) x _ 1 Hgx Hm1) as (i' & HN & Hsc & Hp' & Hr' & Hpu' & Hdl' & HV).
  { rewrite Hall. cbn [length]. lia. }
  { rewrite enc_msg_items in Hd. rewrite app_length in Hd. lia. }
  { rewrite Hsec by lia. specialize (HIP O x eq_refl). rewrite Eq in HIP. exact HIP. }
  rewrite HH in HN, HV. rewrite HN. cbn [bind]. rewrite HV. cbn [bind].
  rewrite (walk_items m dlen post xs x i' (header g)); auto.
  - cbn [bind]. rewrite <- HVI. cbn. do 3 f_equal. rewrite app_length, HH. reflexivity.
  - rewrite enc_msg_items, Ei in Hd. exact Hd.
  - rewrite Hr'. replace (it_all i') with (it_all i) by apply Hsc. rewrite Hall. rewrite Eq in Hlen. cbn [length] in *. lia.
  - intros k y Hk. rewrite Hr'. rewrite <- (determine_purpose_counts i i') by assumption.
    rewrite Hsec by lia. specialize (HIP (S k) y Hk). rewrite Eq in HIP. rewrite <- HIP. f_equal. lia.
  - rewrite <- HVI in Hf. cbn in Hf.
    assert (forall o, length (view_items o xs) = length xs) as HL.
    { clear. induction xs as [|x xs IH]; intros o; cbn; auto. }
    rewrite HL in Hf. lia.
Qed.
