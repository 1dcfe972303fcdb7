From Verif Require Import Base BaseFacts ListFacts List2Facts Addr_Spec Addr_Proofs Bst_Model Name_Model Parser_Model Parser_Spec Parser_Proofs Parser_Walk Gen_Spec Compress_Spec Compress_Proofs Ip_Model Ip_Spec Ip_Proofs Ip2_Proofs Ip3_Proofs.
Require Import ZifyBool ZifyNat.

(** * Filtering the answers *)
Section Process.
Context (c : ipchunk) (look : list Z -> option action).
Hypothesis HL : forall a, address a -> ipchunk_find c a = Ret (option_map act_seen (look a)).
Hypothesis HR : forall a d, address a -> look a = Some (Replace d) -> length d = length a /\ Forall is_byte d.

Lemma enc_rr_data r d : length d = length (r_data r) -> exists R, enc_rr r = R ++ r_data r /\ enc_rr (with_data r d) = R ++ d.
Proof.
  intros L. exists (enc_name (r_name r) ++ be16 (r_type r) ++ be16 (r_class r) ++ be32 (r_ttl r) ++ be16 (Z.of_nat (length (r_data r)))). unfold enc_rr, with_data. cbn [r_name r_type r_class r_ttl r_data]. rewrite L. rewrite <- !app_assoc. auto.
Qed.
Lemma with_data_good r d : length d = length (r_data r) -> Forall is_byte d -> good_rr r -> good_rr (with_data r d).
Proof. intros L HB (H1 & H2 & H3 & H4 & H5 & H6). unfold good_rr, with_data. cbn [r_name r_type r_class r_ttl r_data]. rewrite L. auto 10. Qed.
Lemma filtered_length rs b rs' : filtered look rs b rs' -> length rs' = length rs.
Proof. induction 1; cbn [length]; auto. Qed.
Lemma filtered_total rs : exists b rs', filtered look rs b rs'.
Proof.
  induction rs as [|r rs (b & rs' & IH)]; [exists false, []; constructor|]. destruct (Z.eq_dec (r_class r) 1) as [Ec|Nc].
  - destruct (Z.eq_dec (r_type r) 1) as [Et|Nt]; [|destruct (Z.eq_dec (r_type r) 28) as [Et|Nt2]].
    3: { exists b, (r :: rs'). apply fi_keep; [|exact IH]. intros (_ & [?|?]); contradiction. }
    all: assert (HA : has_address r) by (split; auto); destruct (look (r_data r)) as [[|d]|] eqn:E; [exists true, (r :: rs); apply fi_block; auto|exists b, (with_data r d :: rs'); apply fi_replace; auto|exists b, (r :: rs'); apply fi_keep; auto].
  - exists b, (r :: rs'). apply fi_keep; [|exact IH]. intros (? & _); contradiction.
Qed.

Lemma loop_ok : forall rs ts fuel m dlen i pre x post b rs',
  at_item m dlen i pre x (map (IR P_answer) rs ++ ts) post -> Forall (fun y => item_purpose y <> P_answer) ts -> Forall address_ok rs -> filtered look rs b rs' -> (length rs < fuel)%nat ->
  misc_loop fuel c m dlen i = Ret (if b then misc_filtered else misc_nothing, pre ++ enc_item x ++ concat (map enc_rr rs') ++ concat (map enc_item ts) ++ post).
Proof.
  induction rs as [|r rs IH]; intros ts fuel m dlen i pre x post b rs' HA HT HO HF Hf; (destruct fuel as [|fuel]; [lia|]); cbn [misc_loop].
  - inversion HF; subst. cbn [map app concat] in *.
    assert (Hm : m = pre ++ enc_item x ++ concat (map enc_item ts) ++ post) by (rewrite (at_mem _ _ _ _ _ _ _ HA); cbn [map concat]; rewrite <- !app_assoc; reflexivity).
    destruct ts as [|y ys].
    + rewrite (at_last _ _ _ _ _ _ HA). cbn [bind]. rewrite <- Hm. reflexivity.
    + destruct (at_next _ _ _ _ _ _ _ _ HA) as (i' & HN & HA' & _). rewrite HN. cbn [bind]. rewrite (at_purpose _ _ _ _ _ _ _ HA'). pose proof (Forall_inv HT) as HTy. cbn beta in HTy.
      rewrite purpose_eqb_neq by exact HTy. cbn [negb]. rewrite <- Hm. reflexivity.
  - cbn [map app] in HA. destruct (at_next _ _ _ _ _ _ _ _ HA) as (i' & HN & HA' & _). rewrite HN. cbn [bind]. rewrite (at_purpose _ _ _ _ _ _ _ HA'). cbn [item_purpose purpose_eqb negb].
    destruct (at_view _ _ _ _ _ _ _ HA') as [Hty Hkl]. cbn [view_item v_type v_class] in Hty, Hkl. rewrite Hkl, Hty. inversion HO as [|? ? HO1 HO2]; subst.
    pose proof (at_good _ _ _ _ _ _ _ HA') as (Hgr & _). set (A := pre ++ enc_item x) in *. set (TS := concat (map enc_item (map (IR P_answer) rs ++ ts))) in *.
    assert (Hm : m = A ++ enc_item (IR P_answer r) ++ (TS ++ post)) by (rewrite (at_mem _ _ _ _ _ _ _ HA'); cbn [map concat]; fold TS; rewrite <- !app_assoc; reflexivity).
    assert (Keep : forall rs1 b1, filtered look rs b1 rs1 -> misc_loop fuel c m dlen i' = Ret (if b1 then misc_filtered else misc_nothing, pre ++ enc_item x ++ concat (map enc_rr (r :: rs1)) ++ concat (map enc_item ts) ++ post)).
    { intros rs1 b1 HF1. rewrite (IH ts fuel m dlen i' A (IR P_answer r) post b1 rs1); auto; [|cbn [length] in Hf; lia]. cbn [map concat enc_item]. unfold A. rewrite <- !app_assoc. reflexivity. }
    destruct (Z.eqb_spec (r_class r) 1) as [Ec|Nc]; cbn [negb].
    2: { inversion HF as [|? ? (Q & _)|? ? ? ? ? (Q & _)|]; subst; try contradiction. apply Keep. assumption. }
    destruct (HO1 Ec) as (HO4 & HO6). destruct (addr_len (r_type r)) as [n|] eqn:En.
    2: { unfold addr_len in En. destruct (Z.eqb_spec (r_type r) 1); [discriminate|]. destruct (Z.eqb_spec (r_type r) 28); [discriminate|].
         inversion HF as [|? ? (_ & [Q|Q])|? ? ? ? ? (_ & [Q|Q])|]; subst; try contradiction. apply Keep. assumption. }
    assert (HAd : has_address r /\ length (r_data r) = n /\ (n = 4 \/ n = 16)%nat).
    { unfold addr_len in En. unfold has_address. destruct (Z.eqb_spec (r_type r) 1); [injection En as <-; auto 8|]. destruct (Z.eqb_spec (r_type r) 28); [injection En as <-; auto 8|discriminate]. }
    destruct HAd as (Had & Hn & Hn4). assert (Haddr : address (r_data r)) by (split; [lia|apply Hgr]).
    pose proof (item_fields m A (IR P_answer r) (TS ++ post) (at_good _ _ _ _ _ _ _ HA') Hm) as HI. cbn zeta in HI. destruct HI as (_ & _ & _ & _ & _ & _ & _ & HD). rewrite HD. cbn [bind]. clear HD.
    destruct (enc_rr_data r (r_data r) eq_refl) as (R & ER & _). assert (Hdp : (length A + length (enc_rr r) - length (r_data r))%nat = length (A ++ R)) by (rewrite ER, !app_length; lia). rewrite Hdp.
    rewrite (slice_at (A ++ R) (r_data r) (TS ++ post) m _ n); [|rewrite Hm; cbn [enc_item]; rewrite ER, <- !app_assoc; reflexivity|reflexivity|auto].
    rewrite (HL _ Haddr). cbn [bind]. destruct (look (r_data r)) as [[|d]|] eqn:EL; cbn [option_map act_seen].
    + change (1 =? ty_block) with true. cbv iota. inversion HF as [| |? ? ? ? ? _ Q|? ? ? ? Q]; subst; [|congruence|specialize (Q Had); congruence].
      do 2 f_equal. rewrite (at_mem _ _ _ _ _ _ _ HA'). unfold A. cbn [map concat enc_item]. rewrite map_app, concat_app, enc_items_rrs. rewrite <- !app_assoc. reflexivity.
    + change (2 =? ty_block) with false. change (2 =? ty_subst) with true. cbv iota. destruct (HR _ d Haddr EL) as (Ld & Bd).
      rewrite (slice_at [] d [] d 0 n); [|rewrite app_nil_r; reflexivity|reflexivity|lia].
      destruct (enc_rr_data r d Ld) as (R' & ER1 & ER2). assert (R' = R) by (rewrite ER in ER1; apply app_inv_tail in ER1; congruence). subst R'.
      assert (EW : write m (length (A ++ R)) d = Some ((A ++ R) ++ d ++ (TS ++ post))) by (rewrite Hm; cbn [enc_item]; rewrite ER; replace (A ++ (R ++ r_data r) ++ TS ++ post) with ((A ++ R) ++ r_data r ++ (TS ++ post)) by (rewrite <- !app_assoc; reflexivity); apply write_app; lia).
      rewrite EW. inversion HF as [|? ? _ Q|? ? d2 ? rs2 _ Q HF2|? ? ? ? Q]; subst; [congruence| |specialize (Q Had); congruence]. assert (d2 = d) by congruence. subst d2.
      assert (HA2 : at_item ((A ++ R) ++ d ++ TS ++ post) dlen i' A (IR P_answer (with_data r d)) (map (IR P_answer) rs ++ ts) post).
      { constructor.
        - split; [apply with_data_good; auto|split; discriminate].
        - apply (at_goods _ _ _ _ _ _ _ HA').
        - cbn [map concat enc_item]. fold TS. rewrite ER2. rewrite <- !app_assoc. reflexivity.
        - pose proof (at_len _ _ _ _ _ _ _ HA') as X. cbn [map concat enc_item] in *. rewrite ER2. rewrite ER in X. rewrite !app_length in *. lia.
        - apply (at_pos _ _ _ _ _ _ _ HA').
        - apply (at_rec _ _ _ _ _ _ _ HA').
        - apply (at_purpose _ _ _ _ _ _ _ HA').
        - intros p r0 E. injection E as <- <-. cbn [with_data r_data]. rewrite Ld. apply (at_dlen _ _ _ _ _ _ _ HA' P_answer r eq_refl).
        - cbn [view_item v_type v_class with_data r_type r_class]. auto.
        - apply (at_sec _ _ _ _ _ _ _ HA'). }
      rewrite (IH ts fuel _ dlen i' A (IR P_answer (with_data r d)) post b rs2 HA2 HT HO2 HF2); [|cbn [length] in Hf; lia]. cbn [map concat enc_item]. unfold A. rewrite <- !app_assoc. reflexivity.
    + inversion HF as [|? ? _ Q|? ? ? ? ? _ Q|? ? ? ? Q HF2]; subst; [congruence|congruence|]. apply Keep. assumption.
Qed.

Definition with_an (g : message) (an : list rr) : message := mk_msg (m_idflags g) (m_qs g) an (m_ns g) (m_ar g).
Lemma enc_with_an g an : length an = length (m_an g) ->
  enc_msg (with_an g an) = (header g ++ concat (map enc_q (m_qs g))) ++ concat (map enc_rr an) ++ concat (map enc_item (map (IR P_nameserver) (m_ns g) ++ map (IR P_additional) (m_ar g))).
Proof. intros Hl. unfold enc_msg, header, with_an. cbn [m_idflags m_qs m_an m_ns m_ar]. rewrite Hl. rewrite map_app, concat_app, !enc_items_rrs. rewrite <- !app_assoc. reflexivity. Qed.
Lemma process_ok g post fuel neg p0 t0 k0 d0 b an' : good_msg g -> m_qs g <> [] -> Forall is_byte post -> Forall address_ok (m_an g) -> filtered look (m_an g) b an' ->
  (length (m_qs g) <= fuel)%nat -> (length (m_an g) < fuel)%nat ->
  misc_process fuel c neg (enc_msg g ++ post) (length (enc_msg g)) p0 t0 k0 d0 =
    if neg && negb (nth 3 (m_idflags g) 0 mod 16 =? 0) then Ret (misc_negative, enc_msg g ++ post)
    else Ret (if b then misc_filtered else misc_nothing, enc_msg (with_an g an') ++ post).
Proof.
  intros Hg Hne Hpost HO HF Hf1 Hf2. unfold misc_process, parser_init. pose proof Hg as (Hid & _). pose proof (header_length g Hid) as Hh.
  assert (Hlen12 : (12 <= length (enc_msg g))%nat) by (rewrite enc_msg_items, app_length; lia). destruct (Nat.ltb_spec (length (enc_msg g)) 12); [lia|].
  assert (E3 : nth_error (enc_msg g ++ post) 3 = Some (nth 3 (m_idflags g) 0)).
  { unfold enc_msg. rewrite <- !app_assoc. rewrite nth_error_app1 by lia. apply nth_error_nth'. lia. }
  rewrite E3. assert (EB : (if neg then Ret (negb (nth 3 (m_idflags g) 0 mod 16 =? 0)) else Ret false) = Ret (neg && negb (nth 3 (m_idflags g) 0 mod 16 =? 0))) by (destruct neg; reflexivity).
  rewrite EB. cbn [bind]. destruct (neg && negb (nth 3 (m_idflags g) 0 mod 16 =? 0)); [reflexivity|].
  destruct (iter_init_start g post p0 t0 k0 d0 Hg Hpost Hne) as (i & HI & HS). rewrite HI. cbn [bind]. unfold goto_answers.
  set (i0 := iter_info i None (it_rec i) (it_purpose i) (it_type i) (it_klass i) (it_dlen i)).
  assert (HS0 : at_start (enc_msg g ++ post) i0 g).
  { assert (Hsc0 : same_counts i i0) by apply same_counts_info. constructor; [reflexivity| | | |].
    - replace (it_all i0) with (it_all i) by apply Hsc0. apply (as_all _ _ _ HS).
    - replace (it_ql i0) with (it_ql i) by apply Hsc0. apply (as_ql _ _ _ HS).
    - replace (it_qf i0) with (it_qf i) by apply Hsc0. apply (as_qf _ _ _ HS).
    - intros k y Hk. rewrite <- (determine_purpose_counts i i0) by assumption. apply (as_sec _ _ _ HS k y Hk). }
  rewrite (as_qf _ _ _ HS0). change (0 <? 1) with true. cbv iota. destruct (m_qs g) as [|q qs] eqn:Eq; [contradiction|].
  destruct (goto_answers_ok g post _ (Z.of_nat (length (enc_msg g))) i0 q qs fuel Hg eq_refl Eq ltac:(lia) HS0 ltac:(rewrite Eq; exact Hf1)) as (i2 & pre & x & HE & HA2 & HP).
  rewrite HE. cbn [bind]. rewrite (loop_ok (m_an g) (map (IR P_nameserver) (m_ns g) ++ map (IR P_additional) (m_ar g)) fuel _ _ i2 pre x post b an' HA2); auto.
  - rewrite (enc_with_an g an') by apply (filtered_length _ _ _ HF). rewrite <- HP. rewrite <- !app_assoc. reflexivity.
  - apply Forall_app. split; apply Forall_map, Forall_forall; cbn; discriminate.
Qed.
End Process.
