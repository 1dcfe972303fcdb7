(** Stepping the record iterator through a well-formed message, one record at a time. *)
From Verif Require Import Base BaseFacts Name_Model Name_Spec Name_Proofs Parser_Model Parser_Spec Parser_Proofs.
Require Import ZifyBool ZifyNat.

(** The iterator is at record [x], [xs] are the records after it. *)
Record at_item (m : list Z) (dlen : Z) (i : iter) (pre : list Z) (x : item) (xs : list item) (post : list Z) : Prop := mk_at {
  at_good : good_item x;
  at_goods : Forall good_item xs;
  at_mem : m = pre ++ concat (map enc_item (x :: xs)) ++ post;
  at_len : Z.of_nat (length (pre ++ concat (map enc_item (x :: xs)))) <= dlen;
  at_pos : it_pos i = Some (length pre);
  at_rec : it_rec i + Z.of_nat (length xs) = it_all i;
  at_purpose : it_purpose i = item_purpose x;
  at_dlen : forall p r, x = IR p r -> it_dlen i = Z.of_nat (length (r_data r));
  at_view : it_type i = v_type (view_item 0 x) /\ it_klass i = v_class (view_item 0 x);
  at_sec : forall k y, nth_error xs k = Some y -> determine_purpose i (it_rec i + 1 + Z.of_nat k) = item_purpose y }.

Lemma view_item_type o x : v_type (view_item o x) = v_type (view_item 0 x) /\ v_class (view_item o x) = v_class (view_item 0 x).
Proof. destruct x; auto. Qed.

Lemma view_of_info m i pos v : view_of m i pos = Ret v -> it_type i = v_type v /\ it_klass i = v_class v.
Proof.
  unfold view_of. destruct (purpose_eqb _ _).
  - intros H; inversion H; auto.
  - destruct (rec_ttl m pos); try discriminate. cbn [bind]. destruct (rec_dpos m pos); try discriminate.
    cbn [bind]. intros H; inversion H; auto.
Qed.

Lemma at_next m dlen i pre x y ys post : at_item m dlen i pre x (y :: ys) post ->
  exists i', iter_next m dlen i = Ret (Some (length (pre ++ enc_item x)), i') /\
    at_item m dlen i' (pre ++ enc_item x) y ys post /\ it_rec i' = it_rec i + 1 /\ same_counts i i'.
Proof.
  intros [Hg HG Hm Hd Hp Hr Hpu Hdl Hv Hsec].
  assert (Hm1 : m = pre ++ enc_item x ++ (concat (map enc_item (y :: ys)) ++ post)).
  { rewrite Hm. cbn [map concat]. rewrite <- !app_assoc. reflexivity. }
  cbn [length] in Hr.
  rewrite (iter_next_item m dlen i pre x _ Hg Hm1 Hp ltac:(lia) Hpu Hdl).
  inversion HG as [|? ? Hgy HG']; subst x0 l.
  assert (Hm2 : m = (pre ++ enc_item x) ++ enc_item y ++ (concat (map enc_item ys) ++ post)).
  { rewrite Hm. cbn [map concat]. rewrite <- !app_assoc. reflexivity. }
  destruct (iter_at_item m dlen i (pre ++ enc_item x) y _ (it_rec i + 1) Hgy Hm2) as (i' & HN & Hsc & Hp' & Hr' & Hpu' & Hdl' & HV).
  { lia. }
  { clear - Hd. cbn in Hd. rewrite !app_length in *. lia. }
  { specialize (Hsec O y eq_refl). rewrite Z.add_0_r in Hsec. exact Hsec. }
  exists i'. split; [exact HN|]. split; [|auto]. constructor; auto.
  - cbn [map concat]. rewrite <- !app_assoc. rewrite Hm2, <- !app_assoc. reflexivity.
  - clear - Hd. cbn in *. rewrite !app_length in *. lia.
  - replace (it_all i') with (it_all i) by apply Hsc. lia.
  - apply view_of_info in HV. destruct (view_item_type (length (pre ++ enc_item x)) y) as [E1 E2].
    rewrite <- E1, <- E2. exact HV.
  - intros k z Hk. rewrite <- (determine_purpose_counts i i') by assumption. rewrite Hr'.
    specialize (Hsec (S k) z Hk). rewrite <- Hsec. f_equal. lia.
Qed.

Lemma at_last m dlen i pre x post : at_item m dlen i pre x [] post -> iter_next m dlen i = Ret (None, iter_stop i).
Proof.
  intros [Hg HG Hm Hd Hp Hr Hpu Hdl Hv Hsec]. unfold iter_next. rewrite Hp. cbn in Hr.
  destruct (it_rec i <? it_all i) eqn:E; [lia|]. reflexivity.
Qed.

(** The initialised iterator. *)
Record at_start (m : list Z) (i : iter) (g : message) : Prop := mk_start {
  as_pos : it_pos i = None;
  as_all : it_all i = Z.of_nat (length (items_of g));
  as_ql : it_ql i = Z.of_nat (length (m_qs g));
  as_qf : it_qf i = 1;
  as_sec : forall k y, nth_error (items_of g) k = Some y -> determine_purpose i (1 + Z.of_nat k) = item_purpose y }.

Lemma msg_counts g post : good_msg g ->
  get16 (enc_msg g ++ post) 4 = Some (Z.of_nat (length (m_qs g))) /\
  get16 (enc_msg g ++ post) 6 = Some (Z.of_nat (length (m_an g))) /\
  get16 (enc_msg g ++ post) 8 = Some (Z.of_nat (length (m_ns g))) /\
  get16 (enc_msg g ++ post) 10 = Some (Z.of_nat (length (m_ar g))).
Proof.
  intros Hg. pose proof Hg as (Hid & Hidb & _ & _ & _ & _ & Lq & La & Ln & Lr).
  assert (Hm : enc_msg g ++ post = header g ++ concat (map enc_item (items_of g)) ++ post).
  { rewrite enc_msg_items, <- app_assoc. reflexivity. }
  rewrite Hm. repeat split.
  - eapply get16_at with (a := m_idflags g); [|symmetry; exact Hid|lia]. unfold header. rewrite <- !app_assoc. reflexivity.
  - eapply get16_at with (a := m_idflags g ++ be16 (Z.of_nat (length (m_qs g)))); [|rewrite app_length, Hid; reflexivity|lia].
    unfold header. rewrite <- !app_assoc. reflexivity.
  - eapply get16_at with (a := m_idflags g ++ be16 (Z.of_nat (length (m_qs g))) ++ be16 (Z.of_nat (length (m_an g)))); [|rewrite !app_length, Hid; reflexivity|lia].
    unfold header. rewrite <- !app_assoc. reflexivity.
  - eapply get16_at with (a := m_idflags g ++ be16 (Z.of_nat (length (m_qs g))) ++ be16 (Z.of_nat (length (m_an g))) ++ be16 (Z.of_nat (length (m_ns g)))); [|rewrite !app_length, Hid; reflexivity|lia].
    unfold header. rewrite <- !app_assoc. reflexivity.
Qed.

Lemma iter_init_start g post p0 t0 k0 d0 : good_msg g -> Forall is_byte post -> m_qs g <> [] ->
  exists i, iter_init (enc_msg g ++ post) p0 t0 k0 d0 = Ret i /\ at_start (enc_msg g ++ post) i g.
Proof.
  intros Hg Hpost Hq. destruct (msg_counts g post Hg) as (E4 & E6 & E8 & E10).
  set (m := enc_msg g ++ post) in *.
  assert (HI : exists i, iter_init m p0 t0 k0 d0 = Ret i /\ it_ql i = Z.of_nat (length (m_qs g)) /\ it_qf i = 1).
  { unfold iter_init, rd16. rewrite E4, E6, E8, E10. cbn [bind]. eexists. split; [reflexivity|]. cbn.
    assert (0 < length (m_qs g))%nat by (destruct (m_qs g); [congruence|cbn; lia]).
    destruct (Z.of_nat (length (m_qs g)) =? 0) eqn:E; lia. }
  destruct HI as (i & HI & Hql & Hqf). exists i. split; [exact HI|].
  apply iter_init_ok in HI. destruct HI as (qd & an & ns & ar & G4 & G6 & G8 & G10 & Hall & Hpos & _ & _ & Hsec).
  rewrite E4 in G4. rewrite E6 in G6. rewrite E8 in G8. rewrite E10 in G10.
  injection G4 as <-. injection G6 as <-. injection G8 as <-. injection G10 as <-.
  assert (Hb : Forall is_byte m) by (apply Forall_app; split; auto using enc_msg_bytes).
  specialize (Hsec Hb ltac:(destruct (m_qs g); [congruence|cbn; lia])).
  constructor; auto.
  - rewrite Hall. unfold items_of. rewrite !app_length, !map_length. lia.
  - intros k y Hk. rewrite Hsec by lia. apply items_of_purpose in Hk. exact Hk.
Qed.

Lemma at_first g post i dlen x xs : good_msg g -> at_start (enc_msg g ++ post) i g ->
  Z.of_nat (length (enc_msg g)) <= dlen -> items_of g = x :: xs ->
  exists i', iter_next (enc_msg g ++ post) dlen i = Ret (Some 12%nat, i') /\
    at_item (enc_msg g ++ post) dlen i' (header g) x xs post /\ it_rec i' = 1 /\ same_counts i i'.
Proof.
  intros Hg [Hpos Hall Hql Hqf Hsec] Hd Hi. pose proof Hg as (Hid & _). pose proof (good_items g Hg) as HGI.
  rewrite Hi in *. inversion HGI as [|? ? Hgx HGxs]; subst x0 l.
  set (m := enc_msg g ++ post).
  assert (Hm : m = header g ++ concat (map enc_item (x :: xs)) ++ post).
  { unfold m. rewrite enc_msg_items, Hi, <- app_assoc. reflexivity. }
  assert (Hm1 : m = header g ++ enc_item x ++ (concat (map enc_item xs) ++ post)).
  { rewrite Hm. cbn [map concat]. rewrite <- !app_assoc. reflexivity. }
  unfold iter_next. rewrite Hpos. rewrite <- (header_length g Hid).
  rewrite enc_msg_items, Hi in Hd.
  destruct (iter_at_item m dlen i (header g) x _ 1 Hgx Hm1) as (i' & HN & Hsc & Hp' & Hr' & Hpu' & Hdl' & HV).
  { rewrite Hall. cbn [length]. lia. }
  { rewrite app_length in Hd. lia. }
  { specialize (Hsec O x eq_refl). exact Hsec. }
  exists i'. split; [exact HN|]. split; [|auto]. constructor; auto.
  - rewrite Hr'. replace (it_all i') with (it_all i) by apply Hsc. rewrite Hall. cbn [length]. lia.
  - apply view_of_info in HV. destruct (view_item_type (length (header g)) x) as [E1 E2].
    rewrite <- E1, <- E2. exact HV.
  - intros k z Hk. rewrite <- (determine_purpose_counts i i') by assumption. rewrite Hr'.
    specialize (Hsec (S k) z Hk). rewrite <- Hsec. f_equal. lia.
Qed.
