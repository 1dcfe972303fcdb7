From Verif Require Import Base BaseFacts ListFacts List2Facts Hash_Model Ttl_Model Ttl_Spec Ttl_Proofs Addr_Model Addr_Spec Addr_Proofs Addr2_Proofs.
Require Import ZifyBool ZifyNat.

(** * IPv6 number to text *)
Lemma nth_part (l : list Z) i k m : (i < m)%nat -> nth i (firstn m (skipn k l)) 0 = nth (k + i) l 0.
Proof.
  intros H. destruct (Nat.lt_ge_cases (k + i) (length l)) as [H1|H1]; [|rewrite !nth_overflow; [reflexivity|lia|rewrite firstn_length, skipn_length; lia]].
  rewrite <- (firstn_skipn k l) at 2. rewrite app_nth2 by (rewrite firstn_length; lia). rewrite firstn_length. replace (k + i - Nat.min k (length l))%nat with i by lia.
  rewrite <- (firstn_skipn m (skipn k l)) at 2. rewrite app_nth1; [reflexivity|]. rewrite firstn_length, skipn_length. lia.
Qed.
Section Asc.
Context (ws : list Z).
Hypothesis L : length ws = 8%nat.
Hypothesis R : Forall (fun w => 0 <= w < 65536) ws.
Let x := group_bytes ws.
Let w (j : nat) := nth j ws 0.

Lemma w_range j : 0 <= w j < 65536.
Proof.
  unfold w. destruct (Nat.lt_ge_cases j (length ws)) as [H|H]; [|rewrite nth_overflow by exact H; lia]. rewrite Forall_forall in R. apply R, nth_In, H.
Qed.
Lemma bytes_nth l : forall j, nth (2 * j) (group_bytes l) 0 = nth j l 0 / 256 /\ nth (2 * j + 1) (group_bytes l) 0 = nth j l 0 mod 256.
Proof.
  induction l as [|a l IH]; intros j.
  - cbn [group_bytes flat_map]. rewrite !nth_overflow by (cbn [length]; lia). auto.
  - destruct j as [|j]; [split; reflexivity|]. replace (2 * S j)%nat with (S (S (2 * j))) by lia. cbn [group_bytes flat_map app nth Nat.add]. apply IH.
Qed.
Lemma bytes_zero j : (nth (2 * j) x 0 =? 0) && (nth (2 * j + 1) x 0 =? 0) = (w j =? 0).
Proof.
  destruct (bytes_nth ws j) as (E1 & E2). unfold x. rewrite E1, E2. fold (w j). pose proof (w_range j). pose proof (Z.div_mod (w j) 256 ltac:(lia)). pose proof (Z.mod_pos_bound (w j) 256 ltac:(lia)). lia.
Qed.
Lemma word_value j : nth (2 * j) x 0 * 256 + nth (2 * j + 1) x 0 = w j.
Proof. destruct (bytes_nth ws j) as (E1 & E2). unfold x. rewrite E1, E2. fold (w j). pose proof (Z.div_mod (w j) 256 ltac:(lia)). lia. Qed.

(** A run of [m] zero words from word [k] on, as byte positions. *)
Definition zrun (z n : Z) : Prop := exists k m : nat, z = Z.of_nat (2 * k) /\ n = Z.of_nat (2 * m) /\ (1 <= m)%nat /\ (k + m <= 8)%nat /\ forall j, (k <= j < k + m)%nat -> w j = 0.
Definition rinv (i : nat) (st : run) : Prop :=
  ((z_best st = -1 /\ n_best st = 0) \/ zrun (z_best st) (n_best st)) /\
  (z_cur st = -1 \/ (zrun (z_cur st) (n_cur st) /\ z_cur st + n_cur st = Z.of_nat (2 * i))).
Lemma run_step_inv i st : (i < 8)%nat -> rinv i st -> rinv (S i) (run_step x st (2 * i)).
Proof.
  intros Hi (H1 & H2). unfold run_step. rewrite bytes_zero. destruct (Z.eqb_spec (w i) 0) as [E|E].
  - set (z2 := if z_cur st =? -1 then Z.of_nat (2 * i) else z_cur st). set (n2 := (if z_cur st =? -1 then 0 else n_cur st) + 2).
    assert (Hz : zrun z2 n2 /\ z2 + n2 = Z.of_nat (2 * S i)).
    { unfold z2, n2. destruct (Z.eqb_spec (z_cur st) (-1)) as [Ez|Nz].
      - split; [|lia]. exists i, 1%nat. do 2 (split; [lia|]). do 2 (split; [lia|]). intros j Hj. replace j with i by lia. exact E.
      - destruct H2 as [H2|((k & m & -> & -> & K1 & K2 & K3) & K4)]; [contradiction|]. split; [|lia]. exists k, (S m). do 2 (split; [lia|]). do 2 (split; [lia|]).
        intros j Hj. destruct (Nat.eq_dec j (k + m)) as [->|]; [replace (k + m)%nat with i by lia; exact E|apply K3; lia]. }
    destruct (n_best st <? n2); (split; cbn [z_best n_best z_cur n_cur]; [tauto|right; exact Hz]).
  - split; cbn [z_best n_best z_cur n_cur]; [exact H1|left; reflexivity].
Qed.
Lemma find_run_ok : let r := find_run x in (z_best r = -1 /\ n_best r = 0) \/ zrun (z_best r) (n_best r).
Proof.
  unfold find_run. cbn [fold_left].
  assert (I0 : rinv 0 (mk_run (-1) 0 (-1) 0)) by (split; left; auto).
  pose proof (run_step_inv 0 _ ltac:(lia) I0) as I1. pose proof (run_step_inv 1 _ ltac:(lia) I1) as I2. pose proof (run_step_inv 2 _ ltac:(lia) I2) as I3. pose proof (run_step_inv 3 _ ltac:(lia) I3) as I4.
  pose proof (run_step_inv 4 _ ltac:(lia) I4) as I5. pose proof (run_step_inv 5 _ ltac:(lia) I5) as I6. pose proof (run_step_inv 6 _ ltac:(lia) I6) as I7. pose proof (run_step_inv 7 _ ltac:(lia) I7) as I8.
  exact (proj1 I8).
Qed.

Lemma skipn_w j : (j < 8)%nat -> skipn j ws = w j :: skipn (S j) ws.
Proof.
  intros Hj. unfold w. rewrite <- L in Hj. clear L R x w. revert j Hj. induction ws as [|a l IH]; intros j Hj; [cbn [length] in Hj; lia|]. destruct j as [|j]; [reflexivity|]. cbn [length] in Hj. cbn [skipn nth]. apply IH. lia.
Qed.
Lemma asc_plain z n : forall c fuel j, (j + c = 8)%nat -> (c < fuel)%nat -> (forall i, (j <= i)%nat -> (Z.of_nat (2 * i) =? z) && (2 <? n) = false) ->
  asc_loop fuel x z n (Z.of_nat (2 * j)) = join 58 (map print_x (skipn j ws)).
Proof.
  induction c as [|c IH]; intros fuel j Hj Hf H; (destruct fuel as [|fuel]; [lia|]); cbn [asc_loop].
  - destruct (Z.leb_spec 16 (Z.of_nat (2 * j))); [|lia]. rewrite skipn_all2 by lia. reflexivity.
  - destruct (Z.leb_spec 16 (Z.of_nat (2 * j))); [lia|]. rewrite H by lia. rewrite Nat2Z.id, word_value. replace (Z.of_nat (2 * j) + 2) with (Z.of_nat (2 * S j)) by lia.
    rewrite IH by (try lia; intros i Hi; apply H; lia). rewrite (skipn_w j) by lia. cbn [map]. destruct c as [|c].
    + rewrite (skipn_all2 ws) by lia. cbn [map join]. destruct (Z.ltb_spec (Z.of_nat (2 * j)) 14); [lia|]. cbn [app]. apply app_nil_r.
    + destruct (Z.ltb_spec (Z.of_nat (2 * j)) 14); [|lia]. rewrite (skipn_w (S j)) by lia. cbn [map join app]. reflexivity.
Qed.
Lemma asc_run k m : (1 < m)%nat -> (k + m <= 8)%nat -> forall c fuel j, (j + c = k)%nat -> (9 - j <= fuel)%nat ->
  asc_loop fuel x (Z.of_nat (2 * k)) (Z.of_nat (2 * m)) (Z.of_nat (2 * j)) =
  fr (map print_x (firstn c (skipn j ws))) ++ (if Nat.eqb k 0 then [58] else []) ++ 58 :: join 58 (map print_x (skipn (k + m) ws)).
Proof.
  intros Hm Hkm. induction c as [|c IH]; intros fuel j Hj Hf; (destruct fuel as [|fuel]; [lia|]); cbn [asc_loop]; (destruct (Z.leb_spec 16 (Z.of_nat (2 * j))); [lia|]).
  - assert (E : (Z.of_nat (2 * j) =? Z.of_nat (2 * k)) && (2 <? Z.of_nat (2 * m)) = true) by lia. rewrite E. cbn [firstn fr map concat app].
    replace (Z.of_nat (2 * j) + (Z.of_nat (2 * m) - 2) + 2) with (Z.of_nat (2 * (k + m))) by lia.
    rewrite (asc_plain _ _ (8 - (k + m)) fuel (k + m)) by lia. destruct (Z.eqb_spec (Z.of_nat (2 * j)) 0), (Nat.eqb_spec k 0); try lia; reflexivity.
  - assert (E : (Z.of_nat (2 * j) =? Z.of_nat (2 * k)) && (2 <? Z.of_nat (2 * m)) = false) by lia. rewrite E. rewrite Nat2Z.id, word_value. destruct (Z.ltb_spec (Z.of_nat (2 * j)) 14); [|lia].
    replace (Z.of_nat (2 * j) + 2) with (Z.of_nat (2 * S j)) by lia. rewrite IH by lia. rewrite (skipn_w j) by lia. cbn [firstn map]. unfold fr. cbn [map concat]. rewrite <- !app_assoc. reflexivity.
Qed.

Lemma groups_print l : Forall (fun v => 0 <= v < 65536) l -> Forall2 group (map print_x l) l.
Proof. induction 1; cbn [map]; constructor; auto. apply print_x_group. assumption. Qed.
Lemma Forall_part a b : Forall (fun v => 0 <= v < 65536) (firstn a (skipn b ws)).
Proof. rewrite Forall_forall in *. intros v Hv. apply R. rewrite <- (firstn_skipn b ws). apply in_app_iff. right. rewrite <- (firstn_skipn a (skipn b ws)). apply in_app_iff. left. exact Hv. Qed.
Lemma len_join l : Forall (fun v => 0 <= v < 65536) l -> (length (join 58 (map print_x l)) <= 5 * length l - 1)%nat.
Proof.
  induction 1 as [|v l Hv Hl IH]; [cbn; lia|]. pose proof (print_x_len v Hv). destruct l as [|v2 l]; [cbn [map join length]; lia|].
  change (join 58 (map print_x (v :: v2 :: l))) with (print_x v ++ 58 :: join 58 (map print_x (v2 :: l))). rewrite app_length. cbn [length] in *. lia.
Qed.
Lemma fr_len l : Forall (fun v => 0 <= v < 65536) l -> (length (fr (map print_x l)) <= 5 * length l)%nat.
Proof. induction 1 as [|v l Hv Hl IH]; [cbn; lia|]. pose proof (print_x_len v Hv). unfold fr in *. cbn [map concat length]. rewrite !app_length. cbn [length]. lia. Qed.
Lemma v6_to_asc_ok : (length (v6_to_asc x) <= 39)%nat /\
  (ws = repeat 0 8 -> v6_to_asc x = [58; 58]) /\ (ws <> repeat 0 8 -> v6_form ws (v6_to_asc x)).
Proof.
  unfold v6_to_asc. pose proof find_run_ok as HR. cbv zeta in *. set (z := z_best (find_run x)) in *. set (n := n_best (find_run x)) in *.
  assert (Hcase : (n <= 2) \/ exists k m, z = Z.of_nat (2 * k) /\ n = Z.of_nat (2 * m) /\ (2 <= m)%nat /\ (k + m <= 8)%nat /\ forall j, (k <= j < k + m)%nat -> w j = 0).
  { destruct HR as [(_ & E)|(k & m & E1 & E2 & K1 & K2 & K3)]; [left; lia|]. destruct (Nat.eq_dec m 1); [left; lia|]. right. exists k, m. repeat (split; [lia|]). exact K3. }
  assert (Hzero : ws = repeat 0 8 -> z = 0 /\ n = 16).
  { intros E. unfold z, n, x. rewrite E. vm_compute. auto. }
  destruct Hcase as [Hn|(k & m & Ez & En & Hm & Hkm & Hzr)].
  - pose proof (asc_plain z n 8 9 0 ltac:(lia) ltac:(lia) ltac:(intros i _; lia)) as E. change (Z.of_nat (2 * 0)) with 0 in E. rewrite E. cbn [skipn].
    split; [|split].
    + pose proof (len_join ws R). lia.
    + intros Ew. destruct (Hzero Ew). lia.
    + intros _. apply v6_full; [exact L|apply groups_print, R].
  - pose proof (asc_run k m ltac:(lia) Hkm k 9 0 ltac:(lia) ltac:(lia)) as E. change (Z.of_nat (2 * 0)) with 0 in E. rewrite <- Ez, <- En in E. rewrite E. cbn [skipn].
    assert (Hd : ws = firstn k ws ++ repeat 0 m ++ skipn (k + m) ws).
    { rewrite <- (firstn_skipn k ws) at 1. f_equal. rewrite <- (firstn_skipn m (skipn k ws)). rewrite skipn_skipn'. f_equal. 
      apply nth_ext with (d := 0) (d' := 0); [rewrite firstn_length, skipn_length, repeat_length; lia|]. intros i Hi. rewrite firstn_length, skipn_length in Hi. rewrite nth_repeat.
      rewrite nth_part by lia. apply Hzr. lia. }
    pose proof (Forall_part k 0) as R1. cbn [skipn] in R1. pose proof (Forall_part (8 - (k + m)) (k + m)) as R2. rewrite firstn_all2 in R2 by (rewrite skipn_length; lia).
    assert (L1 : length (firstn k ws) = k) by (rewrite firstn_length; lia). assert (L2 : length (skipn (k + m) ws) = (8 - (k + m))%nat) by (rewrite skipn_length; lia).
    split; [|split].
    + pose proof (fr_len _ R1). pose proof (len_join _ R2). rewrite app_length, app_length. cbn [length]. destruct (Nat.eqb_spec k 0); cbn [length]; lia.
    + intros Ew. destruct (Hzero Ew). assert (k = 0%nat) by lia. assert (m = 8%nat) by lia. subst k m. cbn [firstn map fr concat app Nat.eqb]. rewrite (skipn_all2 ws) by lia. reflexivity.
    + intros Nw. assert (Et : fr (map print_x (firstn k ws)) ++ (if Nat.eqb k 0 then [58] else []) ++ 58 :: join 58 (map print_x (skipn (k + m) ws)) =
        join 58 (map print_x (firstn k ws)) ++ 58 :: 58 :: join 58 (map print_x (skipn (k + m) ws))).
      { destruct (Nat.eqb_spec k 0) as [->|Nk]; [reflexivity|]. destruct (firstn k ws) as [|a l]; [cbn [length] in L1; lia|]. cbn [map]. rewrite <- join_fr, <- app_assoc. reflexivity. }
      rewrite Et. apply v6_short with (pre := firstn k ws) (post := skipn (k + m) ws).
      * apply groups_print, R1.
      * apply groups_print, R2.
      * split; [|lia]. destruct (Nat.eq_dec m 8) as [->|]; [|lia]. exfalso. apply Nw. assert (k = 0%nat) by lia. subst k. rewrite Hd, (skipn_all2 ws) by lia. reflexivity.
      * rewrite L1, L2. replace (8 - k - (8 - (k + m)))%nat with m by lia. exact Hd.
Qed.
End Asc.
