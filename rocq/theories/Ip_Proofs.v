From Verif Require Import Base BaseFacts ListFacts List2Facts Hash_Model Ttl_Model Ttl_Spec Ttl_Proofs Addr_Model Addr_Spec Addr_Proofs Addr2_Proofs Addr_Props Bst_Model Bst_Proofs Parser_Model Parser_Spec Ip_Model Ip_Spec.
Require Import ZifyBool ZifyNat Permutation.

(** * Numbers *)
Lemma value_from a : forall v, fold_left (fun v x => 256 * v + x) a v = v * 256 ^ Z.of_nat (length a) + value a.
Proof.
  induction a as [|x a IH]; intros v; [cbn; lia|]. cbn [fold_left length]. change (value (x :: a)) with (fold_left (fun v y => 256 * v + y) a (256 * 0 + x)). rewrite !IH. rewrite Nat2Z.inj_succ, Z.pow_succ_r by lia. ring.
Qed.
Lemma value_cons x a : value (x :: a) = x * 256 ^ Z.of_nat (length a) + value a.
Proof. unfold value at 1. cbn [fold_left]. rewrite value_from. f_equal; try ring. Qed.
Lemma value_app a b : value (a ++ b) = value a * 256 ^ Z.of_nat (length b) + value b.
Proof. unfold value at 1. rewrite fold_left_app, value_from. reflexivity. Qed.
Lemma value_range a : Forall is_byte a -> 0 <= value a < 256 ^ Z.of_nat (length a).
Proof.
  induction 1 as [|x a Hx Ha IH]; [cbn; lia|]. rewrite value_cons. cbn [length]. rewrite Nat2Z.inj_succ, Z.pow_succ_r by lia. unfold is_byte in Hx. nia.
Qed.
Lemma mem_cmp_value a : forall b, length a = length b -> Forall is_byte a -> Forall is_byte b -> mem_cmp a b = Z.sgn (value a - value b).
Proof.
  induction a as [|x a IH]; intros [|y b] L HA HB; try discriminate; [reflexivity|]. injection L as L. inversion HA as [|? ? Hx HA']; subst. inversion HB as [|? ? Hy HB']; subst.
  cbn [mem_cmp]. rewrite !value_cons, L. pose proof (value_range a HA') as Ra. pose proof (value_range b HB') as Rb. rewrite L in Ra. set (B := 256 ^ Z.of_nat (length b)) in *.
  destruct (Z.eqb_spec x y) as [->|N]; [rewrite (IH b L HA' HB'); f_equal; lia|]. unfold is_byte in *. destruct (Z.ltb_spec x y).
  - symmetry. apply Z.sgn_neg. nia.
  - symmetry. apply Z.sgn_pos. nia.
Qed.
Lemma from32_value b : length b = 4%nat -> from32 b = value b.
Proof. intros H. destruct (list4 b H) as (x & y & z & t & ->). cbv [from32 value fold_left]. ring. Qed.
Lemma be32_value v : 0 <= v < 4294967296 -> value (be32 v) = v /\ Forall is_byte (be32 v) /\ length (be32 v) = 4%nat.
Proof.
  intros H. split; [|split; [|reflexivity]].
  - rewrite <- from32_value by reflexivity. unfold be32, from32. Z.div_mod_to_equations. lia.
  - unfold be32, is_byte. repeat constructor; apply Z.mod_pos_bound; lia.
Qed.
Lemma mask_ok w p : 0 < p < 32 -> 0 <= w < 4294967296 -> Z.land w (mask32 p) = w / 2 ^ (32 - p) * 2 ^ (32 - p).
Proof.
  intros Hp Hw. unfold mask32. rewrite Z.shiftr_div_pow2 by lia.
  assert (E2 : 4294967296 = 2 ^ p * 2 ^ (32 - p)) by (rewrite <- Z.pow_add_r by lia; replace (p + (32 - p)) with 32 by lia; reflexivity).
  assert (P1 : 0 < 2 ^ p) by (apply Z.pow_pos_nonneg; lia). assert (P2 : 0 < 2 ^ (32 - p)) by (apply Z.pow_pos_nonneg; lia).
  assert (E3 : 4294967295 / 2 ^ p = 2 ^ (32 - p) - 1) by (symmetry; apply Z.div_unique with (2 ^ p - 1); lia).
  assert (E4 : 4294967295 - (2 ^ (32 - p) - 1) = Z.shiftl (Z.ones p) (32 - p)) by (rewrite Z.shiftl_mul_pow2, Z.ones_equiv by lia; lia).
  rewrite E3, E4. rewrite <- Z.shiftl_mul_pow2, <- Z.shiftr_div_pow2 by lia.
  assert (E5 : Z.shiftr w (32 - p) = Z.land (Z.shiftr w (32 - p)) (Z.ones p)).
  { rewrite Z.land_ones by lia. symmetry. apply Z.mod_small. rewrite Z.shiftr_div_pow2 by lia. split; [apply Z.div_pos; lia|]. apply Z.div_lt_upper_bound; lia. }
  rewrite E5. apply Z.bits_inj'. intros n Hn. rewrite Z.land_spec. destruct (Z.lt_ge_cases n (32 - p)) as [H|H].
  - rewrite !Z.shiftl_spec_low by exact H. apply andb_false_r.
  - rewrite !Z.shiftl_spec by lia. rewrite Z.land_spec, Z.shiftr_spec by lia. replace (n - (32 - p) + (32 - p)) with n by lia. reflexivity.
Qed.

(** The first [p] bits of an address. *)
Definition top (a : list Z) (p : Z) : Z := value a / 2 ^ (width a - p).
Lemma pow256 n : 256 ^ Z.of_nat n = 2 ^ (8 * Z.of_nat n).
Proof. rewrite Z.pow_mul_r by lia. reflexivity. Qed.
Lemma sgn_mul k x : 0 < k -> Z.sgn (k * x) = Z.sgn x.
Proof. intros H. rewrite Z.sgn_mul. rewrite (Z.sgn_pos k) by exact H. ring. Qed.
Lemma masked_ok p a b : 0 < p < 32 -> length a = 4%nat -> length b = 4%nat -> Forall is_byte a -> Forall is_byte b ->
  mem_cmp (masked p a) (masked p b) = Z.sgn (top a p - top b p).
Proof.
  intros Hp La Lb HA HB. assert (R : forall c, length c = 4%nat -> Forall is_byte c -> 0 <= value c < 4294967296).
  { intros c Lc Hc. pose proof (value_range c Hc) as H. rewrite Lc in H. exact H. }
  pose proof (R a La HA) as Ra. pose proof (R b Lb HB) as Rb. unfold masked. rewrite !firstn_all2 by lia. rewrite !from32_value by assumption. rewrite !mask_ok by assumption.
  assert (P2 : 0 < 2 ^ (32 - p)) by (apply Z.pow_pos_nonneg; lia).
  assert (Q : forall v, 0 <= v < 4294967296 -> 0 <= v / 2 ^ (32 - p) * 2 ^ (32 - p) < 4294967296).
  { intros v Hv. pose proof (Z.div_mod v (2 ^ (32 - p)) ltac:(lia)). pose proof (Z.mod_pos_bound v (2 ^ (32 - p)) P2). pose proof (Z.div_pos v (2 ^ (32 - p)) ltac:(lia) P2). nia. }
  destruct (be32_value _ (Q _ Ra)) as (V1 & F1 & L1). destruct (be32_value _ (Q _ Rb)) as (V2 & F2 & L2). rewrite mem_cmp_value by (congruence || assumption). rewrite V1, V2.
  unfold top, width. rewrite La, Lb. change (8 * Z.of_nat 4) with 32. rewrite <- Z.mul_sub_distr_r, Z.mul_comm. apply sgn_mul, P2.
Qed.
Lemma bytes_firstn n (l : list Z) : Forall is_byte l -> Forall is_byte (firstn n l).
Proof. intros H. rewrite <- (firstn_skipn n l) in H. apply Forall_app in H. apply H. Qed.
Lemma bytes_skipn n (l : list Z) : Forall is_byte l -> Forall is_byte (skipn n l).
Proof. intros H. rewrite <- (firstn_skipn n l) in H. apply Forall_app in H. apply H. Qed.
(** The top bits when the first word is cut off. *)
Lemma top_cons k a p : length a = (4 * S k)%nat -> Forall is_byte a -> 32 <= p <= width a ->
  top a p = value (firstn 4 a) * 2 ^ (p - 32) + top (skipn 4 a) (p - 32) /\ 0 <= top (skipn 4 a) (p - 32) < 2 ^ (p - 32).
Proof.
  intros L HB Hp. unfold top, width in *. rewrite L in *. rewrite skipn_length, L. replace (4 * S k - 4)%nat with (4 * k)%nat by lia.
  rewrite <- (firstn_skipn 4 a) at 1. rewrite value_app, skipn_length, L. replace (4 * S k - 4)%nat with (4 * k)%nat by lia. rewrite pow256.
  pose proof (value_range (skipn 4 a) (bytes_skipn 4 a HB)) as R. rewrite skipn_length, L in R. replace (4 * S k - 4)%nat with (4 * k)%nat in R by lia. rewrite pow256 in R.
  set (n := 8 * Z.of_nat (4 * S k) - p). replace (8 * Z.of_nat (4 * k) - (p - 32)) with n by lia. assert (Hn : 0 <= n) by lia.
  replace (2 ^ (8 * Z.of_nat (4 * k))) with (2 ^ (p - 32) * 2 ^ n) in * by (rewrite <- Z.pow_add_r by lia; f_equal; lia).
  assert (P : 0 < 2 ^ n) by (apply Z.pow_pos_nonneg; lia). split.
  - rewrite Z.mul_assoc, Z.add_comm, Z.div_add by lia. ring.
  - split; [apply Z.div_pos; lia|]. apply Z.div_lt_upper_bound; lia.
Qed.
Lemma cmp_words_ok : forall k fuel a b p, length a = (4 * k)%nat -> length b = (4 * k)%nat -> Forall is_byte a -> Forall is_byte b -> 0 <= p <= width a -> (k < fuel)%nat ->
  match cmp_words fuel a b p with
  | inl r => r = Z.sgn (top a p - top b p) /\ r <> 0
  | inr (a', b', p') => p' = p mod 32 /\ (if 0 <? p' then mem_cmp (masked p' a') (masked p' b') else 0) = Z.sgn (top a p - top b p)
  end.
Proof.
  induction k as [|k IH]; intros fuel a b p La Lb HA HB Hp Hf; (destruct fuel as [|fuel]; [lia|]); cbn [cmp_words].
  - unfold width in Hp. rewrite La in Hp. destruct (Z.leb_spec 32 p); [lia|]. assert (p = 0) by lia. subst p. split; [reflexivity|]. cbn [Z.ltb].
    destruct a; [|discriminate]. destruct b; [|discriminate]. reflexivity.
  - assert (Hw : width b = width a) by (unfold width; rewrite La, Lb; reflexivity). destruct (Z.leb_spec 32 p) as [H32|H32].
    + destruct (top_cons k a p La HA ltac:(lia)) as (Ea & Ra). destruct (top_cons k b p Lb HB ltac:(lia)) as (Eb & Rb).
      rewrite mem_cmp_value by (try (rewrite !firstn_length; lia); apply bytes_firstn; assumption).
      assert (P : 0 < 2 ^ (p - 32)) by (apply Z.pow_pos_nonneg; lia).
      destruct (Z.eqb_spec (Z.sgn (value (firstn 4 a) - value (firstn 4 b))) 0) as [E0|N0].
      * specialize (IH fuel (skipn 4 a) (skipn 4 b) (p - 32) ltac:(rewrite skipn_length; lia) ltac:(rewrite skipn_length; lia) (bytes_skipn 4 a HA) (bytes_skipn 4 b HB)).
        assert (Hq : 0 <= p - 32 <= width (skipn 4 a)) by (unfold width in *; rewrite skipn_length; lia). specialize (IH Hq ltac:(lia)).
        assert (Et : top (skipn 4 a) (p - 32) - top (skipn 4 b) (p - 32) = top a p - top b p) by (rewrite Ea, Eb; assert (value (firstn 4 a) = value (firstn 4 b)) by lia; nia).
        rewrite Et in IH. destruct (cmp_words fuel (skipn 4 a) (skipn 4 b) (p - 32)) as [r|((a', b'), p')]; [exact IH|]. destruct IH as (I1 & I2). split; [|exact I2].
        rewrite I1. replace (p - 32) with (p + (-1) * 32) by lia. apply Z.mod_add. lia.
      * split; [|exact N0]. rewrite Ea, Eb. set (x := value (firstn 4 a)) in *. set (y := value (firstn 4 b)) in *.
        destruct (Z.lt_trichotomy x y) as [H|[H|H]]; [|subst; lia|].
        -- rewrite (Z.sgn_neg (x - y)) by lia. symmetry. apply Z.sgn_neg. nia.
        -- rewrite (Z.sgn_pos (x - y)) by lia. symmetry. apply Z.sgn_pos. nia.
    + split; [symmetry; apply Z.mod_small; lia|]. destruct (Z.ltb_spec 0 p) as [Hp0|Hp0].
      * assert (Ef : forall c, masked p c = masked p (firstn 4 c)) by (intros c; unfold masked; rewrite firstn_firstn; reflexivity). rewrite (Ef a), (Ef b).
        rewrite masked_ok by (try (rewrite firstn_length; lia); try (apply bytes_firstn; assumption); lia).
        assert (Et : forall c, length c = (4 * S k)%nat -> Forall is_byte c -> top (firstn 4 c) p = top c p).
        { intros c Lc Hc. unfold top, width. rewrite firstn_length, Lc. replace (Nat.min 4 (4 * S k)) with 4%nat by lia. rewrite <- (firstn_skipn 4 c) at 2. rewrite value_app, skipn_length, Lc, pow256.
          replace (4 * S k - 4)%nat with (4 * k)%nat by lia.
          replace (8 * Z.of_nat (4 * S k) - p) with (8 * Z.of_nat (4 * k) + (8 * Z.of_nat 4 - p)) by lia. rewrite Z.pow_add_r by lia. rewrite <- Z.div_div by (try apply Z.pow_pos_nonneg; try apply Z.pow_nonzero; lia).
          rewrite Z.add_comm, Z.div_add by (apply Z.pow_nonzero; lia). rewrite (Z.div_small (value (skipn 4 c))); [reflexivity|]. pose proof (value_range (skipn 4 c) (bytes_skipn 4 c Hc)) as R. rewrite skipn_length, Lc, pow256 in R. replace (4 * S k - 4)%nat with (4 * k)%nat in R by lia. exact R. }
        rewrite !Et by assumption. reflexivity.
      * assert (p = 0) by lia. subst p. unfold top. rewrite !Z.div_small; [reflexivity| |]; rewrite Z.sub_0_r; [pose proof (value_range b HB) as R; rewrite pow256 in R|pose proof (value_range a HA) as R; rewrite pow256 in R]; exact R.
Qed.
