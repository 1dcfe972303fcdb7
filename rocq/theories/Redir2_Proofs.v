(** Lemmas about following the aliases of the hosts files: the reply for the client and the query for the target. *)
From Verif Require Import Base BaseFacts ListFacts Name_Model Name_Spec Name_Proofs Parser_Model Parser_Spec Parser_Proofs Parser_Walk Hash_Model
  Gen_Model Gen_Spec Gen_Proofs Compress_Spec Compress_Proofs Gen2_Proofs Gen_Props Fetch_Model Fetch_Spec Fetch_Proofs Fetch2_Proofs Mctx_Model Iheader_Model Iheader_Spec Iheader_Proofs
  Hmsg_Model Hmsg_Spec Hmsg_Proofs Redir_Model Redir_Spec Redir_Proofs.
Require Import ZifyBool ZifyNat.

(** ** The header *)
Lemma head_built g m p w : built g (m, p) -> (length w <= 4)%nat -> exists b, bwrite (g_buf g) 0 w = Ret b /\
  let g' := mk_gen b (g_itr g) (g_num g) in
  built g' (set_header m (w ++ skipn (length w) (m_idflags m)), p) /\ length b = length (g_buf g) /\ rest g' = rest g.
Proof.
  intros HB Hw. pose proof (bl_id _ _ HB) as Hid. cbn [fst] in Hid. destruct (built_at _ _ _ HB) as (Ei & Eb). pose proof (gi_len g (bl_inv _ _ HB)) as HL.
  set (w' := w ++ skipn (length w) (m_idflags m)).
  assert (Hw' : length w' = 4%nat) by (unfold w'; rewrite app_length, skipn_length; lia).
  set (tl := be16 (Z.of_nat (length (m_qs m))) ++ be16 (Z.of_nat (length (m_an m))) ++ be16 (Z.of_nat (length (m_ns m))) ++ be16 (Z.of_nat (length (m_ar m))) ++
    concat (map enc_q (m_qs m)) ++ concat (map enc_rr (m_an m)) ++ concat (map enc_rr (m_ns m)) ++ concat (map enc_rr (m_ar m))) in *.
  assert (Ee : enc_msg m = m_idflags m ++ tl) by reflexivity.
  assert (En : enc_msg (set_header m w') = w' ++ tl) by reflexivity.
  assert (Hlt : length (enc_msg (set_header m w')) = g_itr g) by (rewrite En, Ei, Ee, !app_length; lia).
  assert (Ew : bwrite (g_buf g) 0 w = Ret (enc_msg (set_header m w') ++ rest g)).
  { rewrite bwrite_ok by (cbn [Nat.add]; lia). cbn [Nat.add firstn app]. rewrite Eb at 1. rewrite En, Ee. unfold w'. rewrite <- !app_assoc. do 2 f_equal.
    rewrite skipn_app. f_equal. replace (length w - length (m_idflags m))%nat with 0%nat by lia. reflexivity. }
  eexists. split; [exact Ew|]. cbv zeta. split; [|split].
  - constructor; cbn [g_buf g_itr g_num fst snd].
    + constructor; cbn [g_buf g_itr g_num]; [|apply (gi_num g (bl_inv _ _ HB))]. rewrite app_length, Hlt, rest_length. lia.
    + apply (bl_num _ _ HB).
    + exact Hw'.
    + rewrite <- Hlt, firstn_app, firstn_all, Nat.sub_diag, firstn_O, app_nil_r. reflexivity.
    + pose proof (bl_later _ _ HB) as HLt. cbn [fst snd] in HLt. destruct p; exact HLt.
  - rewrite app_length, Hlt, rest_length. lia.
  - unfold rest at 1. cbn [g_buf g_itr]. rewrite <- Hlt, skipn_app, skipn_all, Nat.sub_diag. reflexivity.
Qed.

(** ** A question *)
Lemma fit_question n ty g m : built g (m, P_question) -> name_ok n -> 0 < ty < 65536 -> (length (wire n) + 4 <= length (rest g))%nat ->
  exists g', gen_question (dotted n) ty 1 g = Ret (0, g') /\ built g' (mk_msg (m_idflags m) (m_qs m ++ [mk_q (plain n) ty 1]) (m_an m) (m_ns m) (m_ar m), P_question) /\
    rest g' = skipn (length (wire n) + 4) (rest g) /\ length (g_buf g') = length (g_buf g).
Proof.
  intros HB Hn Ht Hl. pose proof (bl_inv _ _ HB) as HI. pose proof (built_purpose _ _ HB) as HP. cbn [snd] in HP. rewrite rest_length in Hl.
  assert (HO : sop_ok (SQuestion n ty 1)) by (cbn; repeat split; auto; lia).
  assert (Hby : length (op_bytes (call_of (SQuestion n ty 1))) = (length (wire n) + 4)%nat).
  { cbn [call_of op_bytes]. rewrite name_bytes_wire by exact Hn. rewrite !app_length, !be16_length. lia. }
  pose proof (gi_len g HI) as HL.
  destruct (gen_step_cases_fit (call_of (SQuestion n ty 1)) g HI I ltac:(discriminate)) as [(E & _)|[(n0 & ty0 & kl & ttl & E & _)|[(_ & H10 & Hf & E)|(_ & Hf & _)]]].
  - rewrite HP in E. discriminate.
  - discriminate.
  - eexists. split; [exact E|]. split; [|split].
    + exact (built_step (SQuestion n ty 1) g _ 0 _ HB HO E ltac:(lia)).
    + rewrite rest_append by assumption. rewrite Hby. reflexivity.
    + unfold gen_append. cbn [g_buf]. rewrite bump_length; rewrite splice_length by lia; [reflexivity|]. lia.
  - lia.
Qed.

(** ** The records of the reply *)
Lemma chain_good rs brs : Forall2 written_as brs rs -> forall n, name_ok n -> answer_chain n rs -> Forall good_rr rs.
Proof.
  intros H. induction H as [|r0 r brs rs (G & (S1 & S2 & S3 & S4) & K & _) H IH]; intros n Hn HC; [constructor|]. cbn [answer_chain] in HC. rewrite S2, K in HC. change (1 =? 1) with true in HC. cbv iota in HC.
  destruct HC as (C1 & C2 & C3). constructor.
  - destruct G as (_ & G). unfold good_rr. rewrite S1, S2, S3, S4. split; [|exact G]. rewrite C1. split; [|exact I]. cbn [plain en_labels]. eapply Forall_impl; [|exact Hn]. cbv beta. intros l (L1 & L2). split; [exact L1|]. eapply Forall_impl; [|exact L2]. cbv beta. unfold is_byte. intros; lia.
  - destruct (r_type r =? 5); [destruct C3 as (c & Hc & _ & C3); exact (IH c Hc C3)|exact (IH n Hn C3)].
Qed.
Lemma chain_labels rs brs : Forall2 written_as brs rs -> forall n, answer_chain n rs -> Forall (fun r => en_labels (r_name r) <> []) rs.
Proof.
  intros H. induction H as [|r0 r brs rs (G & (S1 & S2 & S3 & S4) & K & _) H IH]; intros n HC; [constructor|]. cbn [answer_chain] in HC. rewrite S2, K in HC. change (1 =? 1) with true in HC. cbv iota in HC.
  destruct HC as (C1 & C2 & C3). constructor; [rewrite C1; exact C2|]. destruct (r_type r =? 5); [destruct C3 as (c & _ & _ & C3); exact (IH c C3)|exact (IH n C3)].
Qed.
Lemma written_length brs rs : Forall2 written_as brs rs -> length (concat (map enc_rr brs)) = length (concat (map enc_rr rs)).
Proof. intros H. induction H as [|r0 r brs rs (_ & _ & _ & HL & _) H IH]; [reflexivity|]. cbn [map concat]. rewrite !app_length. lia. Qed.
Lemma data_small rs n : (length (concat (map enc_rr rs)) <= n)%nat -> Z.of_nat n < 65536 -> Forall (fun r => Z.of_nat (length (r_data r)) < 65536) rs.
Proof.
  intros H Hn. induction rs as [|r rs IH]; [constructor|]. cbn [map concat] in H. rewrite app_length in H. constructor; [|apply IH; lia]. unfold enc_rr in H. rewrite !app_length in H. lia.
Qed.

(** ** The reply *)
Lemma app_same_length (a a' b b' : list Z) : length a = length a' -> a ++ b = a' ++ b' -> a = a' /\ b = b'.
Proof. revert a'. induction a as [|x a IH]; intros [|x' a'] HL E; try discriminate; [auto|]. cbn [app] in E. injection E as E1 E2. cbn [length] in HL. destruct (IH a' ltac:(lia) E2) as (-> & ->). subst. auto. Qed.
Lemma Forall2_left {A B : Type} (P : A -> B -> Prop) (Q : A -> Prop) : (forall a b, P a b -> Q a) -> forall l l', Forall2 P l l' -> Forall Q l.
Proof. intros H l l' HF. induction HF; constructor; eauto. Qed.
Lemma Forall2_weaken {A B : Type} (P Q : A -> B -> Prop) : (forall a b, P a b -> Q a b) -> forall l l', Forall2 P l l' -> Forall2 Q l l'.
Proof. intros H l l' HF. induction HF; constructor; eauto. Qed.
Lemma wire_inj a : forall b, name_ok a -> name_ok b -> wire a = wire b -> a = b.
Proof.
  induction a as [|l a IH]; intros [|l' b] Ha Hb E; [reflexivity| | |].
  - inversion Hb as [|? ? [X _] _]; subst. cbn [wire] in E. assert (Z.of_nat (length l') = 0) by congruence. lia.
  - inversion Ha as [|? ? [X _] _]; subst. cbn [wire] in E. assert (Z.of_nat (length l) = 0) by congruence. lia.
  - inversion Ha as [|? ? _ Ha']; subst. inversion Hb as [|? ? _ Hb']; subst. cbn [wire] in E. assert (El : length l = length l') by (assert (Z.of_nat (length l) = Z.of_nat (length l')) by congruence; lia).
    assert (E2 : l ++ wire a = l' ++ wire b) by congruence. apply app_same_length in E2; [|exact El]. destruct E2 as (-> & E2). f_equal. now apply IH.
Qed.
Lemma header_of R post : length (m_idflags R) = 4%nat -> rdn (enc_msg R ++ post) 0 4 = Ret (m_idflags R).
Proof.
  intros Hid. unfold rdn. unfold enc_msg. rewrite <- !app_assoc. set (z := be16 _ ++ _). pose proof (slice_app [] (m_idflags R) z) as HS. cbn [app length] in HS. rewrite Hid in HS. rewrite HS. reflexivity.
Qed.
Lemma id_of_entity i1 i2 e : is_byte i1 -> is_byte i2 -> exists v, rd16 (i1 :: i2 :: e) 0 = Ret v /\ be16 v = [i1; i2].
Proof.
  unfold is_byte. intros H1 H2. exists (i1 * 256 + i2). split; [reflexivity|]. unfold be16. f_equal; [|f_equal]; lia.
Qed.

Lemma combine_ok R dom tgt news c id e post : good_msg R -> m_qs R <> [] -> Forall is_byte post -> h_domain (c_h c) = dotted dom -> name_ok dom -> 0 < h_type (c_h c) < 65536 ->
  c_entity c = id ++ e -> length id = 2%nat -> Forall is_byte (c_entity c) -> taken R (12 + qs_len (m_qs R)) (m_an R) news ->
  answer_chain dom (alias_record dom tgt :: news) -> name_ok tgt ->
  (length (enc_msg (full_redirect id R dom (h_type (c_h c)) (h_edns (c_h c)) (alias_record dom tgt :: news))) <= length (c_entity c))%nat ->
  Z.of_nat (length (enc_msg (full_redirect id R dom (h_type (c_h c)) (h_edns (c_h c)) (alias_record dom tgt :: news)))) <= 16384 ->
  exists f0, forall fuel nf len, (length (enc_msg R ++ post) + length (c_entity c) <= fuel)%nat -> (f0 <= nf)%nat -> (length (enc_msg R) <= len)%nat ->
  exists g mem', combine fuel nf c (enc_msg R ++ post) len (dotted tgt) = Ret (0, mk_ctx (with_length (c_h c) (length (enc_msg g))) (enc_msg g ++ mem')) /\
    length (enc_msg g ++ mem') = length (c_entity c) /\ redirected id R dom (h_type (c_h c)) (h_edns (c_h c)) (alias_record dom tgt :: news) g.
Proof.
  intros Hg Hqs Hp Hdom Hdo Hty Hce Hid2 Hceb HK HC Htg Hfit H14. pose proof Hg as (Hid & Hidb & Hgq & Hga & Hgn & Hgr & Lq & La & Ln & Lr).
  set (edns := h_edns (c_h c)) in *. set (ty := h_type (c_h c)) in *. set (full := full_redirect id R dom ty edns (alias_record dom tgt :: news)) in *.
  assert (HidF : length (id ++ skipn 2 (m_idflags R)) = 4%nat) by (rewrite app_length, skipn_length; lia).
  assert (HlF : length (enc_msg full) = (12 + (length (wire dom) + 4) + (length (enc_rr (alias_record dom tgt)) + length (concat (map enc_rr news))) + length (concat (map enc_rr (opt_list edns))))%nat).
  { rewrite enc_msg_length by exact HidF. unfold full, full_redirect. cbn [m_qs m_an m_ns m_ar map concat]. fold (opt_list edns). rewrite !app_length. cbn [length]. unfold enc_q. cbn [q_name q_type q_class]. rewrite enc_labels_wire, !app_length, !be16_length. lia. }
  assert (Hwt : (length (enc_rr (alias_record dom tgt)) = length (wire dom) + 10 + length (wire tgt))%nat).
  { unfold enc_rr, alias_record. cbn [r_name r_type r_class r_ttl r_data]. rewrite enc_labels_wire, !app_length, !be16_length, be32_length. lia. }
  pose proof (data_small news (length (enc_msg full)) ltac:(lia) ltac:(lia)) as H65.
  cbn [alias_record answer_chain r_class r_type r_name r_data] in HC. change (1 =? 1) with true in HC. change (5 =? 5) with true in HC. cbv iota in HC. destruct HC as (_ & Hdne & c0 & Hc0 & Ec0 & HC).
  assert (Hct : c0 = tgt) by (apply wire_inj; auto). subst c0.
  assert (HSa : sop_ok (SCName dom tgt 60)) by (cbn; repeat split; auto; unfold ttl_ok; lia).
  assert (Hch : answer_chain dom (alias_record dom tgt :: news)).
  { cbn [alias_record answer_chain r_class r_type r_name r_data]. change (1 =? 1) with true. change (5 =? 5) with true. cbv iota. split; [reflexivity|]. split; [exact Hdne|]. exists tgt. auto. }
  (* the walk *)
  destruct (m_qs R) as [|q0 qs0] eqn:Eqs; [contradiction|].
  assert (Hwalk : enc_msg R ++ post = header R ++ concat (map enc_q (m_qs R)) ++ concat (map enc_item (map (IR P_answer) (m_an R) ++ map (IR P_nameserver) (m_ns R) ++ map (IR P_additional) (m_ar R))) ++ post).
  { rewrite (enc_self R), (map_app enc_item (map (IR P_answer) (m_an R))), (concat_app (map enc_item (map (IR P_answer) (m_an R)))), enc_items_rrs. rewrite <- !app_assoc. reflexivity. }
  assert (Hgits : Forall (fun y => item_purpose y <> P_answer) (map (IR P_nameserver) (m_ns R) ++ map (IR P_additional) (m_ar R))) by (apply Forall_app; split; apply Forall_map, Forall_forall; cbn; discriminate).
  rewrite app_assoc in Hwalk.
  assert (Ho0 : length (header R ++ concat (map enc_q (m_qs R))) = (12 + qs_len (m_qs R))%nat) by (rewrite app_length, header_length by exact Hid; reflexivity).
  rewrite <- Eqs in HK.
  destruct (copy_answers_ok R post (m_an R) _ news HK H65 _ _ Hwalk Ho0 Hga Hgits) as (brs & f0 & Hbr & HWK).
  pose proof (written_length _ _ Hbr) as Hbrl. pose proof (chain_good _ _ Hbr tgt Htg HC) as Hgnews. pose proof (chain_labels _ _ Hbr tgt HC) as Hlnews.
  exists f0. intros fuel nf len Hfu Hnf Hlen. rewrite app_length in Hfu.
  destruct id as [|i1 [|i2 [|]]]; try discriminate. pose proof Hceb as Hceb'. rewrite Hce in Hceb'. cbn [app] in Hceb'. inversion Hceb' as [|? ? B1 Hceb2]; subst. inversion Hceb2 as [|? ? B2 Hceb3]; subst.
  destruct (id_of_entity i1 i2 e B1 B2) as (idv & Eid & Ebe).
  pose proof (items_bytes R Hid) as HibR. rewrite items_length in HibR.
  assert (Hlen12 : (12 <= length (enc_msg R))%nat) by lia.
  assert (H12 : (12 <= length (c_entity c))%nat) by lia.
  unfold combine. rewrite Hce. cbn [app]. rewrite Eid. cbn [bind]. unfold parser_init. destruct (Nat.ltb_spec len 12); [lia|].
  rewrite <- (app_nil_l (i1 :: i2 :: e)). change ([] ++ i1 :: i2 :: e) with ([i1; i2] ++ e). rewrite <- Hce.
  assert (Hne : m_qs R <> []) by congruence.
  destruct (iter_init_start R post P_unknown 0 0 0 Hg Hp Hne) as (i & HI & HS). rewrite HI. cbn [bind].
  destruct (gen_init (c_entity c)) as [g0| | |] eqn:E0; [|exfalso; unfold gen_init, zero_counts in E0; rewrite bwrite_ok in E0 by (cbn; lia); discriminate ..].
  destruct (gen_init_built _ _ H12 E0) as (B0 & L0). cbn [bind]. unfold spec_init in B0.
  assert (R0 : rest g0 = skipn 12 (c_entity c)).
  { unfold gen_init, zero_counts in E0. rewrite bwrite_ok in E0 by (cbn; lia). cbn [bind] in E0. match type of E0 with Ret ?x = _ => assert (g0 = x) as -> by congruence end. unfold rest. cbn [g_itr g_buf].
    rewrite app_assoc, skipn_app, skipn_all2 by (rewrite app_length, firstn_length; cbn [length]; lia). rewrite app_length, firstn_length. cbn [length app Nat.add]. replace (12 - _)%nat with 0%nat by lia. reflexivity. }
  unfold copy_header. rewrite (header_of R post Hid). cbn [bind].
  destruct (head_built g0 _ _ (m_idflags R) B0 ltac:(lia)) as (b1 & W1 & Bu1 & Lb1 & Rb1). rewrite W1. cbn [bind]. set (g1 := mk_gen b1 (g_itr g0) (g_num g0)) in *.
  unfold set_identifier. rewrite Ebe.
  destruct (head_built g1 _ _ [i1; i2] Bu1 ltac:(cbn; lia)) as (b2 & W2 & Bu2 & Lb2 & Rb2). rewrite W2. cbn [bind]. set (g2 := mk_gen b2 (g_itr g1) (g_num g1)) in *.
  cbn [set_header m_idflags m_qs m_an m_ns m_ar length] in Bu2.
  assert (Eh : [i1; i2] ++ skipn 2 (m_idflags R ++ skipn (length (m_idflags R)) (firstn 4 (c_entity c))) = [i1; i2] ++ skipn 2 (m_idflags R)).
  { rewrite skipn_all2 with (n := length (m_idflags R)) (l := firstn 4 (c_entity c)) by (rewrite firstn_length; lia). rewrite app_nil_r. reflexivity. }
  rewrite Eh in Bu2. set (h := [i1; i2] ++ skipn 2 (m_idflags R)) in *.
  assert (R2 : rest g2 = skipn 12 (c_entity c)) by congruence.
  fold ty. rewrite Hdom.
  destruct (fit_question dom ty g2 _ Bu2 Hdo Hty) as (g3 & E3 & Bu3 & R3 & L3). { rewrite R2, skipn_length. lia. }
  rewrite E3. cbn [bind]. change (negb (0 =? 0)) with false. cbv iota. cbn [set_header m_idflags m_qs m_an m_ns m_ar app] in Bu3.
  set (m3 := mk_msg h [mk_q (plain dom) ty 1] [] [] []) in *.
  assert (Bu4 : built (next_purpose g3) (m3, P_answer)) by (apply (built_step SNext g3 _ 0 _ Bu3 I); [reflexivity|lia]).
  assert (Hbuf : g_buf (next_purpose g3) = g_buf g3 /\ g_itr (next_purpose g3) = g_itr g3) by (unfold next_purpose; destruct (cur_purpose g3); auto). destruct Hbuf as (Hbuf & Hitr).
  assert (R4 : rest (next_purpose g3) = rest g3) by (unfold rest; rewrite Hbuf, Hitr; reflexivity).
  set (g4 := next_purpose g3) in *. cbv zeta. rewrite (built_purpose _ _ Bu4). cbn [snd purpose_eqb negb].
  destruct (fit_step (SCName dom tgt 60) _ g4 m3 P_answer Bu4 HSa eq_refl eq_refl I) as (g5 & E5 & Bu5 & R5 & L5).
  { fold (alias_record dom tgt). rewrite R4, R3, R2, !skipn_length. lia. }
  cbn [call_of gen_step] in E5. rewrite E5. cbn [bind]. change (negb (0 =? 0)) with false. cbv iota. fold (alias_record dom tgt) in Bu5, R5.
  unfold goto_answers. set (i0 := iter_info i None (it_rec i) (it_purpose i) (it_type i) (it_klass i) (it_dlen i)).
  assert (HS0 : at_start (enc_msg R ++ post) i0 R).
  { assert (Hsc0 : same_counts i i0) by apply same_counts_info. constructor; [reflexivity| | | |].
    - replace (it_all i0) with (it_all i) by apply Hsc0. apply (as_all _ _ _ HS).
    - replace (it_ql i0) with (it_ql i) by apply Hsc0. apply (as_ql _ _ _ HS).
    - replace (it_qf i0) with (it_qf i) by apply Hsc0. apply (as_qf _ _ _ HS).
    - intros k y Hk. rewrite <- (determine_purpose_counts i i0) by assumption. apply (as_sec _ _ _ HS k y Hk). }
  rewrite (as_qf _ _ _ HS0). change (0 <? 1) with true. cbv iota.
  destruct (goto_answers_ok R post _ (Z.of_nat len) i0 q0 qs0 fuel Hg eq_refl Eqs ltac:(lia) HS0 ltac:(lia)) as (i2' & pre & x & HE & HA2 & HP).
  rewrite HE. cbn [bind].
  destruct (HWK fuel nf (Z.of_nat len) i2' pre x g5 _ HP HA2 Hnf ltac:(lia) Bu5) as (g6 & E6 & Bu6 & L6 & R6).
  { rewrite R5, R4, R3, R2, !skipn_length. lia. }
  rewrite E6. cbn [bind]. change (negb (0 =? 0)) with false. cbv iota. fold edns.
  destruct (add_opt fuel g6 _ edns Bu6 eq_refl eq_refl ltac:(lia)) as (g7 & p7 & k & E7 & Bu7 & L7 & R7).
  { rewrite R6, R5, R4, R3, R2, !skipn_length. lia. }
  rewrite E7. cbn [bind]. change (negb (0 =? 0)) with false. cbv iota.
  cbn [answers_added add_rr m3 m_idflags m_qs m_an m_ns m_ar app] in Bu7. set (m7 := mk_msg h [mk_q (plain dom) ty 1] (alias_record dom tgt :: brs) [] (opt_list edns)) in *.
  destruct (built_at _ _ _ Bu7) as (I7 & Eb7).
  assert (Hm7 : length (enc_msg m7) = length (enc_msg full)).
  { rewrite HlF, enc_msg_length by exact HidF. unfold m7. cbn [m_qs m_an m_ns m_ar map concat]. rewrite !app_length, Hbrl. cbn [length]. unfold enc_q. cbn [q_name q_type q_class]. rewrite enc_labels_wire, !app_length, !be16_length. lia. }
  assert (Gal : good_rr (alias_record dom tgt)) by (eapply sop_rr_good; [exact HSa|reflexivity]).
  assert (Hidb7 : Forall is_byte h) by (unfold h; constructor; [exact B1|]; constructor; [exact B2|]; apply bytes_skipn; exact Hidb).
  pose proof (items_bytes m7 HidF) as Hib7. rewrite items_length in Hib7. cbn [m7 m_qs m_an m_ns m_ar length] in Hib7.
  assert (Hgm : good_msg m7).
  { unfold good_msg, m7. cbn [m_idflags m_qs m_an m_ns m_ar length]. split; [exact HidF|]. split; [exact Hidb7|].
    split. { constructor; [|constructor]. split; [|cbn; lia]. cbn [q_name]. destruct Gal as (Gn & _). exact Gn. }
    split. { constructor; [exact Gal|]. eapply Forall2_left; [|exact Hbr]. intros a b (Ga & _). exact Ga. }
    split; [constructor|]. split; [apply good_opt|]. fold m7 in Hib7. lia. }
  destruct (compress_reply m7 (mk_q (plain dom) ty 1) [] dom (alias_record dom tgt :: news) (rest g7) fuel Hgm eq_refl eq_refl Hch) as (an' & post' & HX).
  { constructor; [exact Gal|exact Hgnews]. }
  { cbn [m7 m_an]. constructor; [unfold same_but_name; auto|]. eapply Forall2_weaken; [|exact Hbr]. intros a b (_ & Ha & _). exact Ha. }
  { cbn [m7 m_an]. constructor; [reflexivity|]. eapply Forall2_left; [|exact Hbr]. intros a b (_ & _ & Ha & _). exact Ha. }
  { cbn [m7 m_an]. constructor; [intros _; cbn [alias_record r_name]; rewrite enc_labels_wire; pose proof (wire_two dom Hdne Hdo); lia|].
    clear - Hbr Hlnews. induction Hbr as [|a b brs news (_ & _ & _ & _ & W) H IH]; [constructor|]. inversion Hlnews; subst. constructor; [intros _; apply W; assumption|apply IH; assumption]. }
  { rewrite Hm7. exact H14. }
  { rewrite R7, R6, R5, R4, R3, R2. now repeat apply bytes_skipn. }
  { cbn [m7 m_qs length]. lia. } { cbn [m7 m_an length]. lia. }
  cbv zeta in HX. set (ga := with_answers m7 an') in *. destruct HX as (X1 & X2 & X3 & X4 & X5).
  exists ga, post'. rewrite Eb7, I7, X1. cbn [bind]. assert (Hpos : (Z.of_nat (length (enc_msg ga)) <? 0) = false) by lia. rewrite Hpos. split; [reflexivity|]. split.
  - rewrite X2, <- Eb7, L7, L6, L5. rewrite Hbuf, L3. unfold g2, g1 in *. cbn [g_buf] in *. congruence.
  - unfold redirected. split; [exact X3|]. split; [reflexivity|]. split; [reflexivity|]. split; [reflexivity|]. split; [reflexivity|]. split; [exact X4|exact X5].
Qed.

(** ** The query for the target *)
Lemma be16_bytes v : Forall is_byte (be16 v).
Proof. unfold be16, is_byte. constructor; [lia|]. constructor; [lia|constructor]. Qed.
Lemma name_ok_good n : name_ok n -> good_name (plain n).
Proof. intros H. split; [|exact I]. cbn [plain en_labels]. eapply Forall_impl; [|exact H]. cbv beta. intros l (L1 & L2). split; [exact L1|]. eapply Forall_impl; [|exact L2]. cbv beta. unfold is_byte. intros; lia. Qed.
Lemma dotted_no_nul n : name_ok n -> ~ In 0 (dotted n).
Proof.
  intros H. induction H as [|l n (_ & Hl) H IH]; [intros []|]. assert (Hz : ~ In 0 l) by (intros X; rewrite Forall_forall in Hl; specialize (Hl 0 X); lia).
  destruct n as [|l2 n]; [exact Hz|]. change (dotted (l :: l2 :: n)) with (l ++ 46 :: dotted (l2 :: n)). rewrite in_app_iff. cbn [In]. intros [X|[X|X]]; [exact (Hz X)|lia|exact (IH X)].
Qed.
Lemma target_good id c type : name_ok c -> 0 < type < 65536 -> good_msg (target_query id c type).
Proof.
  intros Hc Ht. unfold good_msg, target_query. cbn [m_idflags m_qs m_an m_ns m_ar length]. split; [reflexivity|]. split.
  { apply Forall_app. split; [apply be16_bytes|]. unfold is_byte. constructor; [lia|]. constructor; [lia|constructor]. }
  split. { constructor; [|constructor]. split; [apply name_ok_good, Hc|cbn; lia]. }
  split; [constructor|]. split; [constructor|]. split; [constructor|]. lia.
Qed.
Lemma target_length id c type : length (enc_msg (target_query id c type)) = (length (wire c) + 16)%nat.
Proof.
  rewrite enc_msg_length by reflexivity. unfold target_query. cbn [m_qs m_an m_ns m_ar map concat length]. unfold enc_q. cbn [q_name q_type q_class]. rewrite enc_labels_wire, !app_length, !be16_length. cbn [length]. lia.
Qed.
Lemma target_asked id c type : name_ok c -> exists w, denotes 63 (enc_msg (target_query id c type)) 12 c w.
Proof.
  intros Hc. destruct (denotes_plain c (header (target_query id c type)) (be16 type ++ be16 1) (name_ok_good c Hc)) as (w & Hw). exists w.
  rewrite header_length in Hw by reflexivity. rewrite enc_self. unfold target_query in *. cbn [m_qs m_an m_ns m_ar map concat] in *. unfold enc_q. cbn [q_name q_type q_class app] in *. rewrite !app_nil_r. exact Hw.
Qed.
Lemma target_acceptable id c type : name_ok c -> 0 < type < 65536 -> (length (dotted c) <= 128)%nat -> acceptable (target_query id c type).
Proof.
  intros Hc Ht Hl. split; [now apply target_good|]. split; [discriminate|]. cbn [target_query m_qs readable]. split; [reflexivity|]. split; [|exact I].
  destruct (target_asked id c type Hc) as (w & Hw). exists c, w. split; [exact Hw|lia].
Qed.

Lemma query_ok id c type room : name_ok c -> 0 < type < 65536 -> (length (dotted c) <= 128)%nat -> (length (wire c) + 16 <= room)%nat ->
  exists f0, forall fuel nf b sock addr tcp, ubuf_ok room b -> (f0 <= fuel)%nat -> (f0 <= nf)%nat ->
  exists dom' mem', generate_query fuel nf b sock addr tcp id (dotted c) type = Ret (0, mk_ubuf (target_header (u_h b) None tcp sock addr c type) dom' (enc_msg (target_query id c type) ++ mem')) /\
    ubuf_ok room (mk_ubuf (target_header (u_h b) None tcp sock addr c type) dom' (enc_msg (target_query id c type) ++ mem')).
Proof.
  intros Hc Ht Hl Hr. pose proof (target_acceptable id c type Hc Ht Hl) as HA. destruct (ih_fill_accept _ HA) as (f0 & HF). exists f0. intros fuel nf b sock addr tcp (Hd & Hm & Hb) Hf Hnf.
  unfold generate_query.
  set (g0 := mk_gen (query_header ++ skipn 12 (u_mem b)) 12 4).
  assert (E0 : gen_init_copy fuel (u_mem b) query_header 12 false = Ret (Some g0)).
  { unfold gen_init_copy. change (rd16 query_header 4) with (@Ret Z 0). change (rd16 query_header 6) with (@Ret Z 0). change (rd16 query_header 8) with (@Ret Z 0). change (rd16 query_header 10) with (@Ret Z 0). cbn [bind].
    change (Z.of_nat 12 <? 0) with false. change (Z.to_nat (Z.of_nat 12)) with 12%nat. change (rdn query_header 0 12) with (Ret query_header). cbn [bind].
    rewrite bwrite_ok by (cbn; lia). reflexivity. }
  rewrite E0. cbn [bind].
  assert (B0 : built g0 (mk_msg [0; 0; 1; 0] [] [] [] [], P_question)).
  { constructor; cbn [fst snd g0 g_buf g_itr g_num]; [constructor; cbn [g0 g_buf g_itr g_num]; [rewrite app_length, skipn_length; cbn [query_header length]; lia|left; reflexivity]|reflexivity|reflexivity|reflexivity|cbn; auto]. }
  assert (R0 : rest g0 = skipn 12 (u_mem b)) by reflexivity.
  assert (L0 : length (g_buf g0) = room) by (cbn [g0 g_buf]; rewrite app_length, skipn_length; cbn [query_header length]; lia).
  destruct (head_built g0 _ _ (be16 id) B0 ltac:(cbn; lia)) as (b1 & W1 & Bu1 & Lb1 & Rb1). unfold set_identifier. rewrite W1. cbn [bind]. set (g1 := mk_gen b1 (g_itr g0) (g_num g0)) in *.
  destruct (fit_question c type g1 _ Bu1 Hc Ht) as (g2 & E2 & Bu2 & R2 & L2). { rewrite Rb1, R0, skipn_length. lia. }
  rewrite E2. cbn [bind]. change (negb (0 =? 0)) with false. cbv iota.
  cbn [set_header m_idflags m_qs m_an m_ns m_ar app length be16] in Bu2.
  change (built g2 (target_query id c type, P_question)) in Bu2.
  destruct (built_at _ _ _ Bu2) as (I2 & Eb2).
  assert (Hrb : Forall is_byte (rest g2)) by (rewrite R2, Rb1, R0; now repeat apply bytes_skipn).
  destruct (HF (rest g2) fuel nf (u_h b) (u_dom b) true (Some addr) sock (Some redirect_agent) Hrb Hf Hnf Hd) as (name & type' & edns & dom' & A1 & A2 & A3 & A4 & A5).
  rewrite Eb2, I2, A5. cbn [bind]. change (negb (0 =? 0)) with false. cbv iota.
  destruct (target_asked id c type Hc) as (w & Hw).
  assert (name = map small (dotted c) /\ type' = type) as (-> & ->).
  { destruct A1 as (ls & w' & t & q & qs & Q1 & -> & Q3 & Q4 & ->). cbn [target_query m_qs] in Q1. injection Q1 as <- <-. split; [|reflexivity]. unfold last_question_at in Q3. cbn [target_query m_qs removelast map concat length Nat.add] in Q3.
    destruct (denotes_fun 63 _ _ _ _ _ _ ltac:(lia) Hw Q3) as (<- & _). f_equal. destruct Q4 as (Q5 & [Q6|(r & Q6)]); [auto|]. exfalso. apply (dotted_no_nul c Hc). rewrite Q6, in_app_iff. right. now left. }
  assert (edns = false) as -> by (destruct edns; [exfalso; destruct (proj1 A2 eq_refl) as (r & [] & _)|reflexivity]).
  exists dom', (rest g2). unfold set_reqtcp, target_header. cbn [h_parent h_reqtcp h_time h_back h_sock h_domain h_hash h_type h_rethdr h_edns h_len h_agent].
  rewrite target_length. change (firstn 47 redirect_agent) with redirect_agent. split; [reflexivity|]. split; [exact A4|]. split; cbn [u_mem].
  - rewrite <- Eb2, L2. cbn [g1 g_buf]. congruence.
  - apply Forall_app. split; [|exact Hrb]. apply enc_msg_bytes, target_good; assumption.
Qed.
