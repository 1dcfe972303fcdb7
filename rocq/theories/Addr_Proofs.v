From Verif Require Import Base BaseFacts ListFacts List2Facts Hash_Model Ttl_Model Ttl_Spec Ttl_Proofs Addr_Model Addr_Spec.
Require Import ZifyBool ZifyNat.

Ltac ifs := repeat match goal with |- context [if ?b then _ else _] => destruct b eqn:? end; lia.
(** * Digits *)
Lemma hexit_digit c d : hexit c d -> digit c = d /\ 0 <= d <= 15 /\ 48 <= c <= 102 /\ c <> 58 /\ is_space c = false.
Proof. intros H. unfold digit, is_space. inversion H; subst; ifs. Qed.
Lemma hexadecimal_facts ds v : hexadecimal ds v -> ds <> [] /\ (forall c, In c ds -> exists d, hexit c d) /\ base_value 16 ds = v /\ 0 <= v.
Proof.
  induction 1 as [c d H|ds v c d H (I1 & I2 & I3 & I4) Hc].
  - split; [discriminate|]. split; [intros x [<-|[]]; eauto|]. destruct (hexit_digit c d H) as (E & ? & _). unfold base_value. cbn [fold_left]. lia.
  - split; [destruct ds; discriminate|]. split; [intros x Hx; apply in_app_iff in Hx; destruct Hx as [Hx|[<-|[]]]; eauto|].
    destruct (hexit_digit c d Hc) as (E & ? & _). unfold base_value in *. rewrite fold_left_app. cbn [fold_left]. lia.
Qed.
Lemma decimal_base ds v : decimal ds v -> base_value 10 ds = v.
Proof.
  assert (D : forall d, 0 <= d <= 9 -> digit (48 + d) = d) by (intros d Hd; unfold digit; ifs).
  induction 1 as [d H|ds v d H I Hd]; unfold base_value in *.
  - cbn [fold_left]. rewrite D; lia.
  - rewrite fold_left_app. cbn [fold_left]. rewrite D; lia.
Qed.
Definition stops (base : Z) (r : list Z) : Prop := match r with [] => True | c :: _ => base <= digit c end.
Lemma take_base_app base ds r : (forall c, In c ds -> digit c < base) -> stops base r -> take_base base (ds ++ r) = (ds, r).
Proof.
  intros H Hr. induction ds as [|c ds IH]; cbn [app].
  - destruct r as [|c r]; cbn [take_base]; [reflexivity|]. cbn in Hr. destruct (Z.ltb_spec (digit c) base); [lia|reflexivity].
  - cbn [take_base]. pose proof (H c (or_introl eq_refl)). destruct (Z.ltb_spec (digit c) base); [|lia]. rewrite IH; [reflexivity|]. intros x Hx. apply H. right. exact Hx.
Qed.
Lemma skip_space_hd c r : is_space c = false -> skip_space (c :: r) = c :: r.
Proof. intros H. cbn [skip_space]. rewrite H. reflexivity. Qed.
Lemma take_sign_hd c r : c <> 45 -> c <> 43 -> take_sign (c :: r) = (false, c :: r).
Proof. intros H1 H2. unfold take_sign. destruct c as [|p|p]; try reflexivity. do 6 (destruct p as [p|p|]; try reflexivity; try contradiction). Qed.
Lemma take_prefix_no base s : (base = 16 -> forall c r, s = 48 :: c :: r -> c <> 120 /\ c <> 88) -> take_prefix base s = s.
Proof.
  intros H. unfold take_prefix. destruct s as [|a s]; [reflexivity|]. destruct (Z.eq_dec a 48) as [->|N].
  - destruct s as [|c r]; [reflexivity|]. destruct (Z.eqb_spec base 16) as [->|]; [|reflexivity]. destruct (H eq_refl c r eq_refl). cbn [andb].
    destruct (Z.eqb_spec c 120); [contradiction|]. destruct (Z.eqb_spec c 88); [contradiction|]. reflexivity.
  - destruct a as [|p|p]; try reflexivity. do 6 (destruct p as [p|p|]; try reflexivity; try contradiction).
Qed.
Lemma scan_hex_ok t g r : hexadecimal t g -> (r = [] \/ exists c r', r = c :: r' /\ (c = 58 \/ c = 37)) -> scan_num 16 (t ++ r) = Some (g, r).
Proof.
  intros Ht Hr. destruct (hexadecimal_facts t g Ht) as (N & HD & HV & _). destruct t as [|c t]; [contradiction|]. destruct (HD c (or_introl eq_refl)) as (d & Hd).
  destruct (hexit_digit c d Hd) as (E1 & E2 & E3 & E4 & E5). unfold scan_num. change ((c :: t) ++ r) with (c :: t ++ r). rewrite (skip_space_hd c _ E5), take_sign_hd by lia.
  rewrite take_prefix_no.
  - change (c :: t ++ r) with ((c :: t) ++ r). rewrite take_base_app; [rewrite HV; reflexivity| |].
    + intros x Hx. destruct (HD x Hx) as (dx & Hdx). destruct (hexit_digit x dx Hdx) as (-> & ? & _). lia.
    + destruct Hr as [->|(x & r' & -> & [->| ->])]; cbn [stops]; auto; vm_compute; discriminate.
  - intros _ x s' E. injection E as -> E. destruct t as [|y t]; cbn [app] in E.
    + destruct Hr as [->|(z & r' & -> & Hz)]; [discriminate|]. injection E as -> _. lia.
    + injection E as -> _. destruct (HD x (or_intror (or_introl eq_refl))) as (dx & Hdx). destruct (hexit_digit x dx Hdx) as (_ & _ & ? & _). inversion Hdx; lia.
Qed.
Lemma scan_x_ok t g r : group t g -> (r = [] \/ exists c r', r = c :: r' /\ (c = 58 \/ c = 37)) -> scan_x (t ++ r) = Some (g, r).
Proof.
  intros (Ht & Hg) Hr. unfold scan_x. rewrite (scan_hex_ok t g r Ht Hr). destruct (hexadecimal_facts t g Ht) as (_ & _ & _ & H0).
  assert (E : (18446744073709551615 <? g) || (g <? -18446744073709551615) = false) by lia. rewrite E. reflexivity.
Qed.
Lemma decimal_digit ds v c : decimal ds v -> In c ds -> 48 <= c <= 57.
Proof. intros H. destruct (decimal_facts ds v H) as (_ & H2 & _). apply H2. Qed.
Lemma scan_dec_ok t v r : decimal t v -> stops 10 r -> scan_num 10 (t ++ r) = Some (v, r).
Proof.
  intros Ht Hr. destruct (decimal_facts t v Ht) as (N & HD & _ & _). destruct t as [|c t]; [contradiction|]. pose proof (HD c (or_introl eq_refl)) as Hc.
  unfold scan_num. change ((c :: t) ++ r) with (c :: t ++ r). rewrite skip_space_hd by (unfold is_space; lia). rewrite take_sign_hd by lia. rewrite take_prefix_no by lia.
  change (c :: t ++ r) with ((c :: t) ++ r). rewrite take_base_app; [rewrite (decimal_base _ _ Ht); reflexivity| |exact Hr].
  intros x Hx. specialize (HD x Hx). unfold digit; ifs.
Qed.
Lemma scan_d_ok t v r : decimal t v -> v < 9223372036854775807 -> stops 10 r -> scan_d (t ++ r) = Some (v, r).
Proof. intros Ht Hv Hr. unfold scan_d. rewrite (scan_dec_ok t v r Ht Hr). destruct (decimal_facts t v Ht) as (_ & _ & _ & H0). do 2 f_equal. lia. Qed.

(** * Printing *)
Lemma print_loop_hex fuel : forall v, 0 <= v < 16 ^ Z.of_nat fuel -> (1 <= fuel)%nat -> hexadecimal (print_loop fuel 16 v) v.
Proof.
  induction fuel as [|fuel IH]; intros v Hv Hf; [lia|].
  assert (Hd : forall d, 0 <= d < 16 -> hexit (print_digit d) d).
  { intros d Hd. unfold print_digit. destruct (Z.ltb_spec d 10); constructor; lia. }
  cbn [print_loop]. destruct (Z.ltb_spec v 16); [constructor; apply Hd; lia|].
  pose proof (Z.div_mod v 16 ltac:(lia)) as E. pose proof (Z.mod_pos_bound v 16 ltac:(lia)). rewrite E at 3. apply hex_more; [apply IH|apply Hd; lia].
  rewrite Nat2Z.inj_succ, Z.pow_succ_r in Hv by lia. split; [apply Z.div_pos; lia|apply Z.div_lt_upper_bound; lia].
  destruct fuel; [change (16 ^ Z.of_nat 1) with 16 in Hv; lia|lia].
Qed.
Lemma print_loop_dec fuel : forall v, 0 <= v < 10 ^ Z.of_nat fuel -> (1 <= fuel)%nat -> decimal (print_loop fuel 10 v) v.
Proof.
  induction fuel as [|fuel IH]; intros v Hv Hf; [lia|].
  assert (Hd : forall d, 0 <= d < 10 -> print_digit d = 48 + d) by (intros d Hd; unfold print_digit; ifs).
  cbn [print_loop]. destruct (Z.ltb_spec v 10); [rewrite Hd by lia; constructor; lia|].
  pose proof (Z.div_mod v 10 ltac:(lia)) as E. pose proof (Z.mod_pos_bound v 10 ltac:(lia)). rewrite E at 3. rewrite Hd by lia. apply dec_more; [apply IH|lia].
  rewrite Nat2Z.inj_succ, Z.pow_succ_r in Hv by lia. split; [apply Z.div_pos; lia|apply Z.div_lt_upper_bound; lia].
  destruct fuel; [change (10 ^ Z.of_nat 1) with 10 in Hv; lia|lia].
Qed.
Lemma print_x_group v : 0 <= v < 65536 -> group (print_x v) v.
Proof. intros H. split; [apply print_loop_hex; [change (16 ^ Z.of_nat 8) with 4294967296|]; lia|lia]. Qed.
Lemma print_u_dec v : 0 <= v < 256 -> decimal (print_u v) v.
Proof. intros H. apply print_loop_dec; [change (10 ^ Z.of_nat 10) with 10000000000|]; lia. Qed.
Lemma print_loop_len fuel base : forall n v, 2 <= base -> 0 <= v < base ^ Z.of_nat n -> (n >= 1)%nat -> (length (print_loop fuel base v) <= n)%nat.
Proof.
  induction fuel as [|fuel IH]; intros n v Hb Hv Hn; cbn [print_loop length]; [lia|]. destruct (Z.ltb_spec v base); [cbn [length]; lia|].
  rewrite app_length. cbn [length]. destruct n as [|n]; [lia|]. destruct n as [|n]; [change (Z.of_nat 1) with 1 in Hv; rewrite Z.pow_1_r in Hv; lia|].
  rewrite Nat2Z.inj_succ, Z.pow_succ_r in Hv by lia. specialize (IH (S n) (v / base) Hb). lapply IH; [intros IH'; specialize (IH' ltac:(lia)); lia|].
  split; [apply Z.div_pos; lia|apply Z.div_lt_upper_bound; lia].
Qed.
Lemma print_x_len v : 0 <= v < 65536 -> (length (print_x v) <= 4)%nat.
Proof. intros H. apply print_loop_len; [lia| |lia]. change (16 ^ Z.of_nat 4) with 65536. lia. Qed.
Lemma print_u_len v : 0 <= v < 256 -> (length (print_u v) <= 3)%nat.
Proof. intros H. apply print_loop_len; [lia| |lia]. change (10 ^ Z.of_nat 3) with 1000. lia. Qed.

(** * IPv4 *)
Lemma list4 {A} (l : list A) : length l = 4%nat -> exists a b c d, l = [a; b; c; d].
Proof. intros H. destruct l as [|a [|b [|c [|d [|]]]]]; try discriminate. eauto. Qed.
Lemma v4_to_num_ok stale a t r : dotted a t -> stops 10 r -> v4_to_num stale (t ++ r) = (4, a).
Proof.
  intros (ts & L & HB & HF & ->) Hr. destruct (list4 a L) as (a0 & a1 & a2 & a3 & ->).
  inversion HF as [|t0 ? ? ? D0 HF0]; subst. inversion HF0 as [|t1 ? ? ? D1 HF1]; subst. inversion HF1 as [|t2 ? ? ? D2 HF2]; subst. inversion HF2 as [|t3 ? ? ? D3 HF3]; subst. inversion HF3; subst.
  assert (B0 : 0 <= a0 < 256 /\ 0 <= a1 < 256 /\ 0 <= a2 < 256 /\ 0 <= a3 < 256).
  { rewrite Forall_forall in HB. unfold is_byte in HB. pose proof (HB a0 ltac:(cbn; auto)). pose proof (HB a1 ltac:(cbn; auto)). pose proof (HB a2 ltac:(cbn; auto)). pose proof (HB a3 ltac:(cbn; auto)). auto. }
  assert (Hdot : forall s, stops 10 (46 :: s)) by (intros s; cbn; vm_compute; discriminate).
  unfold v4_to_num. cbn [join]. rewrite <- !app_assoc. cbn [app]. rewrite <- !app_assoc. cbn [app]. rewrite <- !app_assoc. cbn [app].
  cbn [scan_list]. rewrite (scan_d_ok t0 a0 _ D0) by (try apply Hdot; lia). change (46 =? 46) with true. cbv iota.
  rewrite (scan_d_ok t1 a1 _ D1) by (try apply Hdot; lia). change (46 =? 46) with true. cbv iota.
  rewrite (scan_d_ok t2 a2 _ D2) by (try apply Hdot; lia). change (46 =? 46) with true. cbv iota.
  rewrite (scan_d_ok t3 a3 _ D3) by (auto; lia). cbn [length map or_stale nth]. unfold or_stale. cbn [nth].
  rewrite !Z.mod_small by lia. destruct r; reflexivity.
Qed.
Lemma v4_to_asc_ok a : length a = 4%nat -> Forall is_byte a -> dotted a (v4_to_asc a) /\ (length (v4_to_asc a) <= 15)%nat.
Proof.
  intros L HB. destruct (list4 a L) as (a0 & a1 & a2 & a3 & ->). 
  assert (B0 : 0 <= a0 < 256 /\ 0 <= a1 < 256 /\ 0 <= a2 < 256 /\ 0 <= a3 < 256).
  { rewrite Forall_forall in HB. unfold is_byte in HB. pose proof (HB a0 ltac:(cbn; auto)). pose proof (HB a1 ltac:(cbn; auto)). pose proof (HB a2 ltac:(cbn; auto)). pose proof (HB a3 ltac:(cbn; auto)). auto. }
  destruct B0 as (B0 & B1 & B2 & B3). split.
  - exists [print_u a0; print_u a1; print_u a2; print_u a3]. split; [exact L|]. split; [exact HB|]. split; [|reflexivity]. repeat constructor; apply print_u_dec; assumption.
  - unfold v4_to_asc. cbn [nth]. repeat (rewrite app_length; cbn [length]). pose proof (print_u_len a0 B0). pose proof (print_u_len a1 B1). pose proof (print_u_len a2 B2). pose proof (print_u_len a3 B3). lia.
Qed.
