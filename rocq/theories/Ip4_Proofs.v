From Verif Require Import Base BaseFacts ListFacts List2Facts Hash_Model Ttl_Model Ttl_Spec Addr_Model Addr_Spec Addr_Proofs Addr2_Proofs Bst_Model Bst_Proofs Parser_Model Parser_Spec Ip_Model Ip_Spec Ip_Proofs Ip2_Proofs Ip3_Proofs.
Require Import ZifyBool ZifyNat Permutation.

(** Fewer bits are determined by more. *)
Lemma top_fewer a p q : 0 <= p <= q -> q <= width a -> top a p = top a q / 2 ^ (q - p).
Proof.
  intros H1 H2. unfold top. rewrite Z.div_div by (try apply Z.pow_nonzero; try apply Z.pow_pos_nonneg; lia). rewrite <- Z.pow_add_r by lia. do 2 f_equal. lia.
Qed.
Lemma sgn_fewer a b n p q : 0 <= p <= q -> q <= width a -> width b = width a -> width n = width a -> top a p = top b p -> top n p <> top b p ->
  Z.sgn (top a q - top n q) = Z.sgn (top b q - top n q).
Proof.
  intros H1 H2 Wb Wn E N. rewrite (top_fewer a p q), (top_fewer b p q) in E by lia. rewrite (top_fewer n p q), (top_fewer b p q) in N by lia.
  set (k := 2 ^ (q - p)) in *. assert (Hk : 0 < k) by (apply Z.pow_pos_nonneg; lia). set (x := top a q) in *. set (y := top b q) in *. set (z := top n q) in *. clearbody k x y z.
  destruct (Z.lt_total (z / k) (y / k)) as [L|[L|L]]; [|contradiction|].
  - assert (z < y) by (destruct (Z.lt_ge_cases z y); [assumption|]; pose proof (Z.div_le_mono y z k Hk H); lia).
    assert (z < x) by (destruct (Z.lt_ge_cases z x); [assumption|]; pose proof (Z.div_le_mono x z k Hk H0); lia). lia.
  - assert (y < z) by (destruct (Z.lt_ge_cases y z); [assumption|]; pose proof (Z.div_le_mono z y k Hk H); lia).
    assert (x < z) by (destruct (Z.lt_ge_cases x z); [assumption|]; pose proof (Z.div_le_mono z x k Hk H0); lia). lia.
Qed.
Lemma same_way y n a : wf y -> wf n -> address a -> ecovers y a -> ~ ecovers n a ->
  (length (eff n) = length (eff y) -> ebits n <= ebits y \/ top (eff n) (ebits y) <> top (eff y) (ebits y)) ->
  contain y n <= 0 <-> contain (keyof a) n < 0.
Proof.
  intros Wy Wn Ha Hy Hn H. rewrite <- (contain_key n a Wn Ha) in Hn. destruct (key_facts a Ha) as (Wk & K1 & K2 & K3 & K4). destruct (wf_width y Wy) as (Wy1 & (Ay & _)). destruct (wf_width n Wn) as (Wn1 & (An & _)).
  destruct Hy as (Yz & Yl & Yt). rewrite (contain_ok _ _ Wk Wn) in *. rewrite (contain_ok _ _ Wy Wn). rewrite K1, K2, K3, K4 in *.
  assert (Ey : bit_length (eip y) = width a) by (rewrite <- Wy1; unfold width; lia). rewrite Ey, Yz.
  pose proof (wf_bits n Wn) as Bn. pose proof (wf_bits y Wy) as By. rewrite Ey in By.
  destruct (Z.eqb_spec (width a) (bit_length (eip n))) as [Eb|Nb]; cbn [negb] in *; [|lia]. cbv zeta in *.
  assert (Ll : length (eff n) = length (eff y)) by (unfold width in *; lia). specialize (H Ll).
  assert (ES : Z.sgn (top a (ebits n) - top (eff n) (ebits n)) = Z.sgn (top (eff y) (ebits n) - top (eff n) (ebits n))).
  { destruct (Z.le_gt_cases (ebits n) (ebits y)) as [Hle|Hgt].
    - do 2 f_equal. rewrite (top_fewer a (ebits n) (ebits y)), (top_fewer (eff y) (ebits n) (ebits y)), Yt by (unfold width in *; lia). reflexivity.
    - destruct H as [H|H]; [lia|]. apply sgn_fewer with (ebits y); auto; unfold width in *; lia. }
  rewrite <- ES. revert Hn. destruct (Z.eqb_spec (Z.sgn (top a (ebits n) - top (eff n) (ebits n))) 0) as [E0|N0].
  - assert (Hm : (width a <? ebits n mod 32) = false) by (pose proof (Z.mod_pos_bound (ebits n) 32 ltac:(lia)); destruct Ha as ([L|L] & _); unfold width; lia). rewrite Hm. destruct (ebits y <? ebits n mod 32), (has_zone (eip n)); intros Hn; try lia.
  - lia.
Qed.

(** * Lists of rules *)
Lemma first_iff (P Q : rule -> Prop) rs o : (forall r, In r rs -> (P r <-> Q r)) -> first P rs o -> first Q rs o.
Proof.
  intros H F. induction F as [|r rs Hr|r rs o Hr F IH]; constructor.
  - apply H; [left; reflexivity|exact Hr].
  - intros X. apply Hr, H; [left; reflexivity|exact X].
  - apply IH. intros x Hx. apply H. right. exact Hx.
Qed.
Lemma first_filter (P : rule -> Prop) f rs o : (forall r, P r -> f r = true) -> first P rs o -> first P (filter f rs) o.
Proof.
  intros H F. induction F as [|r rs Hr|r rs o Hr F IH]; cbn [filter]; [constructor| |].
  - rewrite (H r Hr). constructor. exact Hr.
  - destruct (f r); [constructor; auto|exact IH].
Qed.
Lemma first_split (P : rule -> Prop) rs r : first P rs (Some r) -> exists r1 r2, rs = r1 ++ r :: r2 /\ P r /\ (forall x, In x r1 -> ~ P x).
Proof.
  remember (Some r) as o. induction 1 as [|x rs Hx|x rs o Hx F IH]; [discriminate| |].
  - injection Heqo as ->. exists [], rs. split; [reflexivity|]. split; [exact Hx|contradiction].
  - destruct (IH Heqo) as (r1 & r2 & -> & H1 & H2). exists (x :: r1), r2. split; [reflexivity|]. split; [exact H1|]. intros y [<-|Hy]; auto.
Qed.
Lemma first_nothing (P : rule -> Prop) rs : first P rs None -> forall x, In x rs -> ~ P x.
Proof. remember None as o. induction 1 as [|x rs Hx|x rs o Hx F IH]; [contradiction|discriminate|]. intros y [<-|Hy]; auto. Qed.
Lemma none_first (P : rule -> Prop) rs : (forall x, In x rs -> ~ P x) -> first P rs None.
Proof. induction rs as [|x rs IH]; intros H; constructor; [apply H; left; reflexivity|]. apply IH. intros y Hy. apply H. right. exact Hy. Qed.
Lemma F2_split {A B} (R : A -> B -> Prop) l1 x l2 l : Forall2 R (l1 ++ x :: l2) l -> exists m1 y m2, l = m1 ++ y :: m2 /\ Forall2 R l1 m1 /\ R x y /\ Forall2 R l2 m2.
Proof. intros H. apply Forall2_app_inv_l in H. destruct H as (m1 & m & H1 & H2 & ->). inversion H2 as [|? y ? m2 H3 H4]; subst. exists m1, y, m2. auto. Qed.
Lemma F2_in_r {A B} (R : A -> B -> Prop) l m y : Forall2 R l m -> In y m -> exists x, In x l /\ R x y.
Proof. induction 1 as [|a b l m H F IH]; intros Hi; [contradiction|]. destruct Hi as [<-|Hi]; [exists a; split; [left; reflexivity|exact H]|]. destruct (IH Hi) as (x & H1 & H2). exists x. split; [right; exact H1|exact H2]. Qed.
Lemma F2_in_l {A B} (R : A -> B -> Prop) l m x : Forall2 R l m -> In x l -> exists y, In y m /\ R x y.
Proof. induction 1 as [|a b l m H F IH]; intros Hi; [contradiction|]. destruct Hi as [<-|Hi]; [exists b; split; [left; reflexivity|exact H]|]. destruct (IH Hi) as (y & H1 & H2). exists y. split; [right; exact H1|exact H2]. Qed.

(** What one table finds. *)
Lemma fetch_rules b l rs a o : holds b l -> Forall2 stands rs l -> address a ->
  Forall single rs \/ (Forall (fun r => ~ single r) rs /\ forall r1 r2 r3 x y, rs = r1 ++ x :: r2 ++ y :: r3 -> overlap x y -> within y x) ->
  first (rule_covers a) rs o -> exists o', fetch b (keyof a) = Ret o' /\ option_map seen o' = option_map (fun r => act_seen (ru_act r)) o.
Proof.
  intros HB HF Ha HO HFi. destruct o as [r|].
  - destruct (first_split _ _ _ HFi) as (r1 & r2 & -> & Hr & Hn). destruct (F2_split _ _ _ _ _ HF) as (m1 & y & m2 & -> & F1 & Hy & F2).
    exists (Some y). split; [|cbn [option_map]; f_equal; apply Hy]. pose proof (stands_wf r y Hy) as Wy. pose proof (proj2 (stands_covers r y a Hy Ha) Hr) as Cy.
    apply (fetch_found b _ m1 y m2 (keyof a) HB eq_refl); [apply contain_key; auto|].
    intros n Hin. destruct (F2_in_r _ _ _ _ F1 Hin) as (x & Hx & Sx). pose proof (stands_wf x n Sx) as Wn.
    assert (Cn : ~ ecovers n a) by (rewrite (stands_covers x n a Sx Ha); auto). split; [rewrite contain_key by auto; exact Cn|]. apply same_way; auto.
    intros Ll. destruct (Z.le_gt_cases (ebits n) (ebits y)) as [|Hgt]; [left; assumption|right]. destruct (wf_width n Wn) as (Wn1 & Wn2). destruct HO as [HO|(HO1 & HO)].
    + exfalso. rewrite Forall_forall in HO. pose proof (HO r ltac:(apply in_app_iff; right; left; reflexivity)) as Sr. apply (stands_single r y Hy) in Sr. unfold is_single in Sr. fold (ebits y) (eip y) in Sr.
      pose proof (wf_bits n Wn). pose proof (proj1 (wf_width y Wy)). unfold width in *. lia.
    + intros E. apply Cn. apply (stands_covers x n a Sx Ha).
      assert (Zn : has_zone (eip n) = false).
      { rewrite Forall_forall in HO1. pose proof (HO1 x ltac:(apply in_app_iff; left; exact Hx)) as Nx. destruct Sx as ((_ & _ & _ & _ & Sx) & _). unfold single in Nx. destruct (ru_range x); [apply Sx|exfalso; apply Nx, I]. }
      apply in_split in Hx. destruct Hx as (x1 & x2 & ->).
      assert (Cy' : ecovers y (eff n)) by (destruct Cy as (Y1 & Y2 & Y3); split; [exact Y1|]; split; [exact Ll|exact E]).
      apply (HO x1 x2 r2 x r); [rewrite <- app_assoc; reflexivity| |exact Ha|exact Hr]. exists (eff n). split; [exact Wn2|]. split; [apply (stands_covers x n _ Sx Wn2); split; [exact Zn|auto]|apply (stands_covers r y _ Hy Wn2); exact Cy'].
  - exists None. split; [|reflexivity]. apply (fetch_none b l); [exact HB|]. intros n Hin. destruct (F2_in_r _ _ _ _ HF Hin) as (x & Hx & Sx). rewrite contain_key by (auto; apply (stands_wf x n Sx)). rewrite (stands_covers x n a Sx Ha). apply (first_nothing _ _ HFi x Hx).
Qed.
Lemma fetch_rules_sound b l rs a : holds b l -> Forall2 stands rs l -> address a ->
  exists o, fetch b (keyof a) = Ret o /\ forall e, o = Some e -> exists r, In r rs /\ rule_covers a r /\ seen e = act_seen (ru_act r).
Proof.
  intros HB HF Ha. destruct (fetch_sound b l (keyof a) HB) as (o & E & H). exists o. split; [exact E|]. intros e He. destruct (H e He) as (H1 & H2). destruct (F2_in_r _ _ _ _ HF H1) as (r & Hr & Sr). exists r. split; [exact Hr|].
  split; [|apply Sr]. apply (stands_covers r e a Sr Ha). apply contain_key; auto. apply (stands_wf r e Sr).
Qed.

