(** Lemmas about the hash table. *)
From Verif Require Import Base BaseFacts List2Facts Hash_Model Sht_Model.
Require Import ZifyBool ZifyNat.

Section P.
Context {D : Type}.
Implicit Types t : sht D.

Lemma lset_length {A} (l : list A) : forall i x, length (lset l i x) = length l.
Proof. induction l as [|y l IH]; intros [|i] x; cbn [lset length]; auto. Qed.
Lemma lset_nth {A} (l : list A) : forall i x j, nth_error (lset l i x) j = if Nat.eqb i j then (if Nat.ltb j (length l) then Some x else None) else nth_error l j.
Proof.
  induction l as [|y l IH]; intros [|i] x [|j]; cbn [lset length nth_error Nat.eqb]; auto.
  - destruct (Nat.eqb i j); reflexivity.
  - rewrite IH. destruct (Nat.eqb i j); auto.
Qed.

(** The subscripts of the first [k] nodes that belong to slot [s] of [n], newest first. *)
Definition bucket (n : nat) (ns : list (shnode D)) (k s : nat) : list nat :=
  rev (filter (fun i => match nth_error ns i with Some x => Nat.eqb (Z.to_nat (sh_hash x mod Z.of_nat n)) s | None => false end) (seq 0 k)).

(** [l] is the chain from [o]. *)
Fixpoint chain (ns : list (shnode D)) (o : option nat) (l : list nat) : Prop :=
  match l with
  | [] => o = None
  | i :: l' => o = Some i /\ exists x, nth_error ns i = Some x /\ chain ns (sh_next x) l'
  end.

Definition key (x : shnode D) : Z * D := (sh_hash x, sh_data x).

(** The first [k] nodes are linked. *)
Record linked (t : sht D) (k : nat) : Prop := {
  l_slots : (0 < length (t_slots t))%nat;
  l_k : (k <= length (t_nodes t))%nat;
  l_chain : forall s, (s < length (t_slots t))%nat -> exists h, nth_error (t_slots t) s = Some h /\ chain (t_nodes t) h (bucket (length (t_slots t)) (t_nodes t) k s) }.

Lemma bucket_ext n ns ns' k s : (forall i, (i < k)%nat -> option_map sh_hash (nth_error ns' i) = option_map sh_hash (nth_error ns i)) ->
  bucket n ns' k s = bucket n ns k s.
Proof.
  intros H. unfold bucket. f_equal. apply filter_ext_in. intros i Hi. apply in_seq in Hi. specialize (H i ltac:(lia)).
  destruct (nth_error ns' i), (nth_error ns i); cbn in H; congruence.
Qed.
Lemma chain_ext ns ns' l : forall o, (forall i, In i l -> nth_error ns' i = nth_error ns i) -> chain ns o l -> chain ns' o l.
Proof.
  induction l as [|i l IH]; intros o H; cbn [chain]; [auto|]. intros (-> & x & Hx & Hc). split; [reflexivity|]. exists x.
  rewrite (H i) by (cbn; auto). split; [exact Hx|]. apply IH; [intros; apply H; cbn; auto|exact Hc].
Qed.
Lemma bucket_in n ns k s i : In i (bucket n ns k s) <-> (i < k)%nat /\ exists x, nth_error ns i = Some x /\ Z.to_nat (sh_hash x mod Z.of_nat n) = s.
Proof.
  unfold bucket. rewrite <- in_rev, filter_In, in_seq. split.
  - intros (H & H1). split; [lia|]. destruct (nth_error ns i) as [x|]; [|discriminate]. exists x. split; [reflexivity|]. now apply Nat.eqb_eq.
  - intros (H & x & Hx & H1). split; [lia|]. rewrite Hx. now apply Nat.eqb_eq.
Qed.
Lemma bucket_S n ns k s x : nth_error ns k = Some x ->
  bucket n ns (S k) s = if Nat.eqb (Z.to_nat (sh_hash x mod Z.of_nat n)) s then k :: bucket n ns k s else bucket n ns k s.
Proof.
  intros Hx. unfold bucket. rewrite seq_S, filter_app, rev_app_distr. cbn [plus filter]. rewrite Hx. destruct (Nat.eqb _ s); reflexivity.
Qed.

Lemma add_to_slot_ok t k : linked t k -> (k < length (t_nodes t))%nat ->
  let t' := add_to_slot t k in
  linked t' (S k) /\ map key (t_nodes t') = map key (t_nodes t) /\ length (t_slots t') = length (t_slots t) /\ t_max t' = t_max t /\ t_left t' = t_left t.
Proof.
  intros [Hs Hk Hc] Hlt. unfold add_to_slot. destruct (nth_error (t_nodes t) k) as [x|] eqn:Hx; [|apply nth_error_None in Hx; lia].
  set (n := length (t_slots t)) in *. set (s := Z.to_nat (sh_hash x mod Z.of_nat n)).
  assert (Hsn : (s < n)%nat) by (unfold s; pose proof (Z.mod_pos_bound (sh_hash x) (Z.of_nat n)); lia).
  destruct (Hc s Hsn) as (h & Hh & Hch). rewrite Hh. cbv zeta. cbn [t_nodes t_slots t_max t_left].
  set (ns' := lset (t_nodes t) k (mk_sh h (sh_hash x) (sh_data x))).
  assert (Hns : forall i, i <> k -> nth_error ns' i = nth_error (t_nodes t) i).
  { intros i Hi. unfold ns'. rewrite lset_nth. destruct (Nat.eqb_spec k i); [congruence|reflexivity]. }
  assert (Hnk : nth_error ns' k = Some (mk_sh h (sh_hash x) (sh_data x))).
  { unfold ns'. rewrite lset_nth, Nat.eqb_refl. destruct (Nat.ltb_spec k (length (t_nodes t))); [reflexivity|lia]. }
  assert (Hlen : length ns' = length (t_nodes t)) by (unfold ns'; apply lset_length).
  split; [|split; [|split; [apply lset_length|split; reflexivity]]].
  - split; cbn [t_slots t_nodes].
    + rewrite lset_length. exact Hs.
    + lia.
    + rewrite lset_length. fold n. intros s' Hs'.
      assert (HB : bucket n ns' k s' = bucket n (t_nodes t) k s') by (apply bucket_ext; intros i Hi; rewrite Hns by lia; reflexivity).
      rewrite (bucket_S n ns' k s' _ Hnk), HB. cbn [sh_hash]. fold s. rewrite lset_nth. destruct (Nat.eqb_spec s s') as [<-|Hne].
      * destruct (Nat.ltb_spec s (length (t_slots t))); [|unfold n in *; lia]. exists (Some k). split; [reflexivity|]. cbn [chain]. split; [reflexivity|].
        eexists. split; [exact Hnk|]. cbn [sh_next]. eapply chain_ext; [|exact Hch]. intros i Hi. apply bucket_in in Hi. apply Hns. lia.
      * destruct (Hc s' Hs') as (h' & Hh' & Hch'). exists h'. split; [exact Hh'|]. eapply chain_ext; [|exact Hch']. intros i Hi. apply bucket_in in Hi. apply Hns. lia.
  - apply nth_error_ext. intros i. rewrite !nth_error_map. destruct (Nat.eq_dec i k) as [->|Hi]; [|rewrite Hns by exact Hi; reflexivity].
    rewrite Hnk, Hx. reflexivity.
Qed.

Lemma fold_slots m : forall t k, linked t k -> (k + m = length (t_nodes t))%nat ->
  let t' := fold_left add_to_slot (seq k m) t in
  linked t' (length (t_nodes t')) /\ map key (t_nodes t') = map key (t_nodes t) /\ length (t_slots t') = length (t_slots t) /\ t_max t' = t_max t /\ t_left t' = t_left t.
Proof.
  induction m as [|m IH]; intros t k HL Hk; cbn [seq fold_left]; cbv zeta.
  - replace (length (t_nodes t)) with k by lia. auto.
  - destruct (add_to_slot_ok t k HL ltac:(lia)) as (H1 & H2 & H3 & H4 & H5).
    assert (HN : length (t_nodes (add_to_slot t k)) = length (t_nodes t)) by (rewrite <- (map_length key), H2, map_length; reflexivity).
    destruct (IH _ _ H1 ltac:(lia)) as (I1 & I2 & I3 & I4 & I5). cbv zeta in *. repeat split; try congruence; apply I1.
Qed.

Lemma bucket_0 n ns s : bucket n ns 0 s = [].
Proof. reflexivity. Qed.

Definition sinv t : Prop := linked t (length (t_nodes t)).
Lemma sinv_init max : sinv (sht_init max).
Proof.
  split; cbn [t_slots t_nodes sht_init repeat length]; try lia. intros s Hs. exists None. split; [|reflexivity].
  destruct s as [|[|[|[|[|[|[|s]]]]]]]; try reflexivity. lia.
Qed.
Lemma sht_expand_ok t : sinv t -> let t' := sht_expand t in
  sinv t' /\ map key (t_nodes t') = map key (t_nodes t) /\ length (t_slots t') = (length (t_slots t) + length (t_slots t))%nat /\ t_max t' = t_max t /\ t_left t' = t_left t.
Proof.
  intros [Hs _ _]. unfold sht_expand. cbv zeta.
  set (t0 := mk_sht (repeat None (length (t_slots t) + length (t_slots t))) (t_nodes t) (t_max t) (t_left t)).
  assert (H0 : linked t0 0).
  { split; cbn [t0 t_slots t_nodes]; rewrite ?repeat_length; try lia. intros s Hlt. exists None. rewrite bucket_0. split; [|reflexivity].
    apply nth_error_repeat. exact Hlt. }
  destruct (fold_slots (length (t_nodes t)) t0 0 H0 eq_refl) as (H1 & H2 & H3 & H4 & H5). cbv zeta in *.
  cbn [t0 t_slots] in H3. rewrite repeat_length in H3. repeat split; auto; apply H1.
Qed.
Lemma sht_add_ok t hash d : sinv t -> let t' := sht_add t hash d in
  sinv t' /\ map key (t_nodes t') = map key (t_nodes t) ++ [(hash, d)] /\ t_max t' = t_max t /\
  length (t_slots t') = (if (t_left t =? 0)%Z then length (t_slots t) + length (t_slots t) else length (t_slots t))%nat /\
  t_left t' = (if t_left t =? 0 then Z.of_nat (length (t_slots t)) * t_max t else t_left t) - 1.
Proof.
  intros HI. unfold sht_add. cbv zeta.
  set (t1 := if t_left t =? 0 then _ else t).
  assert (H1 : sinv t1 /\ map key (t_nodes t1) = map key (t_nodes t) /\ t_max t1 = t_max t /\
    length (t_slots t1) = (if (t_left t =? 0)%Z then length (t_slots t) + length (t_slots t) else length (t_slots t))%nat /\
    t_left t1 = (if t_left t =? 0 then Z.of_nat (length (t_slots t)) * t_max t else t_left t)).
  { unfold t1. destruct (t_left t =? 0); [|auto]. destruct (sht_expand_ok t HI) as (E1 & E2 & E3 & E4 & E5). cbv zeta in *.
    cbn [t_slots t_nodes t_max t_left]. repeat split; auto; try apply E1. congruence. }
  clearbody t1. destruct H1 as (H1 & H2 & H3 & H4 & H5). rewrite <- H5, <- H3, <- H2, <- H4. clear H5 H3 H2 H4. destruct H1 as [Hs Hk Hc].
  set (t2 := mk_sht (t_slots t1) (t_nodes t1 ++ [mk_sh None hash d]) (t_max t1) (t_left t1)).
  assert (HL : linked t2 (length (t_nodes t1))).
  { split; cbn [t2 t_slots t_nodes]; auto.
    - rewrite app_length. lia.
    - intros s Hlt. destruct (Hc s Hlt) as (h & Hh & Hch). exists h. split; [exact Hh|].
      rewrite (bucket_ext _ (t_nodes t1)) by (intros i Hi; rewrite nth_error_app1 by lia; reflexivity).
      eapply chain_ext; [|exact Hch]. intros i Hi. apply bucket_in in Hi. apply nth_error_app1. lia. }
  destruct (add_to_slot_ok t2 _ HL) as (A1 & A2 & A3 & A4 & A5); [cbn [t2 t_nodes]; rewrite app_length; cbn; lia|]. cbv zeta in *.
  cbn [t_nodes t_slots t_max t_left].
  assert (EN : length (t_nodes (add_to_slot t2 (length (t_nodes t1)))) = S (length (t_nodes t1))).
  { rewrite <- (map_length key), A2, map_length. cbn [t2 t_nodes]. rewrite app_length. cbn. lia. }
  split; [|split; [|split; [|split]]].
  - unfold sinv. cbn [t_nodes]. rewrite EN. destruct A1 as [B1 B2 B3]. split; cbn [t_nodes t_slots]; [exact B1|rewrite EN; lia|exact B3].
  - rewrite A2. cbn [t2 t_nodes]. rewrite map_app. reflexivity.
  - exact A4.
  - exact A3.
  - rewrite A5. reflexivity.
Qed.

(** Following Find from NULL. *)
Lemma sht_find_first t hash : sinv t -> exists h, sht_find t hash None = Ret (sht_get t h) /\
  chain (t_nodes t) h (bucket (length (t_slots t)) (t_nodes t) (length (t_nodes t)) (Z.to_nat (hash mod Z.of_nat (length (t_slots t))))).
Proof.
  intros [Hs Hk Hc]. unfold sht_find. destruct (t_slots t) as [|a sl] eqn:E; [cbn in Hs; lia|]. rewrite <- E in *.
  destruct (Hc (Z.to_nat (hash mod Z.of_nat (length (t_slots t))))) as (h & Hh & Hch).
  { pose proof (Z.mod_pos_bound hash (Z.of_nat (length (t_slots t)))). lia. }
  rewrite Hh. eauto.
Qed.
Lemma chain_get t o l : chain (t_nodes t) o l -> sht_get t o = match l with [] => None | i :: _ => Some i end.
Proof.
  destruct l as [|i l]; cbn [chain]; [intros ->; reflexivity|]. intros (-> & x & Hx & _). cbn [sht_get].
  destruct (Nat.ltb_spec i (length (t_nodes t))); [reflexivity|]. apply nth_error_None in H. congruence.
Qed.
Lemma sht_find_next t hash i l o : chain (t_nodes t) o (i :: l) -> exists o', sht_find t hash (Some i) = Ret (sht_get t o') /\ chain (t_nodes t) o' l.
Proof. cbn [chain]. intros (-> & x & Hx & Hch). cbn [sht_find]. rewrite Hx. eauto. Qed.

Lemma sht_enum_ok t : forall m k fuel, (k + m = length (t_nodes t))%nat -> (m < fuel)%nat -> sht_enum fuel t k = map sh_data (skipn k (t_nodes t)).
Proof.
  induction m as [|m IH]; intros k fuel Hk Hf; (destruct fuel as [|fuel]; [lia|]); cbn [sht_enum].
  - rewrite (proj2 (nth_error_None _ _)) by lia. rewrite skipn_all2 by lia. reflexivity.
  - destruct (nth_error (t_nodes t) k) as [x|] eqn:Hx; [|apply nth_error_None in Hx; lia].
    rewrite IH by lia. rewrite (skipn_nth k (t_nodes t) x Hx). reflexivity.
Qed.
End P.
