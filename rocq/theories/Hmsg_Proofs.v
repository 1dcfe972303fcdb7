(** Proofs about the messages with which the hosts files answer. *)
From Verif Require Import Base BaseFacts ListFacts Name_Model Name_Spec Name_Proofs Hash_Model Cht_Model Cache_Model Cache_Spec Alias_Spec
  Parser_Model Parser_Spec Parser_Proofs Parser_Walk Gen_Model Gen_Spec Gen_Proofs Compress_Spec Compress_Proofs Gen2_Proofs Gen_Props Fetch_Model Fetch_Spec Fetch_Proofs Fetch2_Proofs
  Sht_Model Hosts_Model Mctx_Model Iheader_Model Udpm_Model Hmsg_Model Hmsg_Spec.
Require Import ZifyBool ZifyNat.

(** ** Parts common to all answers *)
Lemma flag_byte x m : 0 <= m < 128 -> is_byte (Z.lor (Z.land x m) 128).
Proof.
  intros Hm. unfold is_byte. rewrite <- (Z.mod_small m (2 ^ 7)) by (cbn; lia). rewrite <- Z.land_ones by lia. rewrite Z.land_assoc, Z.land_ones by lia.
  pose proof (Z.mod_pos_bound (Z.land x m) (2 ^ 7) ltac:(cbn; lia)) as Hb. set (y := Z.land x m mod 2 ^ 7) in *. assert (0 <= y < 128) by (cbn in Hb; lia).
  assert (Hy : Z.lor y 128 = y + 128).
  { symmetry. rewrite Z.add_nocarry_lxor, Z.lxor_lor; auto; apply Z.bits_inj'; intros i Hi; rewrite Z.land_spec, Z.bits_0;
      (destruct (Z.eq_dec i 7) as [->|N]; [unfold y; rewrite Z.mod_pow2_bits_high by lia; reflexivity|change 128 with (2 ^ 7); rewrite Z.pow2_bits_false by congruence; apply andb_false_r]). }
  lia.
Qed.
Lemma header_bytes i1 i2 f2 f3 : Forall is_byte [i1; i2; f2; f3] -> Forall is_byte [i1; i2; Z.lor (Z.land f2 3) 128; Z.lor (Z.land f3 112) 128].
Proof.
  intros H. inversion H as [|? ? W1 H1]; subst. inversion H1 as [|? ? W2 _]; subst.
  constructor; [exact W1|]. constructor; [exact W2|]. constructor; [apply flag_byte; lia|]. constructor; [apply flag_byte; lia|constructor].
Qed.

Definition opt_list (edns : bool) : list rr := if edns then [opt_record] else [].
Lemma opt_length edns : (length (concat (map enc_rr (opt_list edns))) <= 11)%nat.
Proof. destruct edns; cbn; lia. Qed.
(** Adding the OPT record. *)
Lemma add_opt fuel g m edns : built g (m, P_answer) -> m_ns m = [] -> m_ar m = [] -> (4 <= fuel)%nat -> (length (concat (map enc_rr (opt_list edns))) <= length (rest g))%nat ->
  exists g' p k, (if edns then let! ga := to_additional fuel g in gen_edns 1280 ga else Ret (0, g)) = Ret (0, g') /\
    built g' (mk_msg (m_idflags m) (m_qs m) (m_an m) [] (opt_list edns), p) /\ length (g_buf g') = length (g_buf g) /\ rest g' = skipn k (rest g).
Proof.
  intros HB Hn Ha Hf Hr. destruct m as [i qs an ns ar]. cbn [m_idflags m_qs m_an m_ns m_ar] in *. subst ns ar. destruct edns.
  - destruct (built_additional fuel g _ HB Hf) as (ga & EA & BA & LA & RA). rewrite EA. cbn [bind].
    destruct (fit_step (SEDns 1280) opt_record ga _ _ BA ltac:(cbn; lia) eq_refl eq_refl I) as (g3 & E3 & B3 & R3 & L3).
    { rewrite RA. exact Hr. }
    exists g3, P_additional, (length (enc_rr opt_record)). split; [exact E3|]. split; [exact B3|]. split; [congruence|]. rewrite R3, RA. reflexivity.
  - exists g, P_answer, 0%nat. auto.
Qed.

Lemma good_opt edns : Forall good_rr (opt_list edns).
Proof. destruct edns; constructor; [|constructor]. apply (sop_rr_good (SEDns 1280)); [cbn; lia|reflexivity]. Qed.

(** ** The message *)
Lemma host_record_call n a r : host_record n a r -> name_ok n -> n <> [] -> exists s, sop_ok s /\ sop_rr s = Some (as_built r) /\ op_section (call_of s) P_answer = true /\
  (match s with SRaw _ _ _ d _ => d <> [] | _ => True end) /\ (forall g, put_answer a g = gen_step (call_of s) g) /\ good_rr r /\ Parser_Spec.r_class r = 1 /\ answer_chain n [r] /\ Parser_Spec.r_name r = plain n.
Proof.
  intros [c Hc Hne Hl|b Hb Hy|b Hb Hy] Hn Hn0.
  - exists (SCName [[97]] c 60). pose proof (wire_len c Hc) as Hw. pose proof (label_length_le (dotted c)).
    split; [cbn; repeat split; auto using name_ok_a; unfold ttl_ok; lia|]. split; [reflexivity|]. split; [reflexivity|]. split; [exact I|]. split; [reflexivity|].
    split; [apply (sop_rr_good (SCName n c 60)); [cbn; repeat split; auto; unfold ttl_ok; lia|reflexivity]|]. split; [reflexivity|]. split; [|reflexivity].
    cbn. split; [reflexivity|]. split; [exact Hn0|]. exists c. auto.
  - exists (SRaw [[97]] 1 1 b 60). split; [cbn; rewrite Hb; repeat split; auto using name_ok_a; unfold ttl_ok; lia|]. split; [reflexivity|]. split; [reflexivity|].
    split; [intros ->; discriminate|]. split; [reflexivity|]. split; [apply (sop_rr_good (SRaw n 1 1 b 60)); [cbn; rewrite Hb; repeat split; auto; unfold ttl_ok; lia|reflexivity]|].
    split; [reflexivity|]. split; [|reflexivity]. cbn. auto.
  - exists (SRaw [[97]] 28 1 b 60). split; [cbn; rewrite Hb; repeat split; auto using name_ok_a; unfold ttl_ok; lia|]. split; [reflexivity|]. split; [reflexivity|].
    split; [intros ->; discriminate|]. split; [reflexivity|]. split; [apply (sop_rr_good (SRaw n 28 1 b 60)); [cbn; rewrite Hb; repeat split; auto; unfold ttl_ok; lia|reflexivity]|].
    split; [reflexivity|]. split; [|reflexivity]. cbn. auto.
Qed.

Lemma as_built_le r n : Parser_Spec.r_name r = plain n -> name_ok n -> n <> [] -> (length (enc_rr (as_built r)) <= length (enc_rr r))%nat.
Proof.
  intros Hr Hn Hne. unfold enc_rr. cbn [as_built Parser_Spec.r_name Parser_Spec.r_type Parser_Spec.r_class Parser_Spec.r_ttl Parser_Spec.r_data]. rewrite Hr, !enc_labels_wire.
  pose proof (wire_nonempty n Hne Hn). rewrite !app_length. cbn [wire enc_name plain length app] in *. lia.
Qed.

Lemma moved_back (M b : list Z) post' : M ++ post' = b -> rdn b 0 (length M) = Ret M.
Proof. intros <-. unfold rdn. pose proof (slice_app [] M post') as HSL. cbn [app length] in HSL. rewrite HSL. reflexivity. Qed.

Lemma hosts_message_ok q q0 qs ql a r fuel post c : good_msg q -> m_qs q = q0 :: qs -> q_name q0 = plain ql -> name_ok ql -> ql <> [] -> m_an q = [] -> host_record ql a r ->
  c_entity c = enc_msg q ++ post -> h_len (c_h c) = Z.of_nat (length (enc_msg q)) -> Forall is_byte post -> (length (enc_msg q ++ post) <= fuel)%nat -> Z.of_nat (length post) <= 16384 ->
  (length (enc_msg (full_reply q (h_edns (c_h c)) [r])) <= length post)%nat ->
  exists g mem', hosts_message fuel c a = Ret (true, mk_ctx (with_length (c_h c) (length (enc_msg g))) (enc_msg g ++ mem')) /\
    length (enc_msg g ++ mem') = length (enc_msg q ++ post) /\ is_reply q (h_edns (c_h c)) [r] g.
Proof.
  intros Hg Hq Hqn Ho Hne Han HR Hce Hcl Hp Hfu H14 Hfit. pose proof Hg as (Hid & Hidb & Hgq & Hga & Hgn & Hgr & Lq & La & Ln & Lr).
  assert (Hqs : m_qs q <> []) by (rewrite Hq; discriminate). set (edns := h_edns (c_h c)) in *.
  destruct (host_record_call ql a r HR Ho Hne) as (s & S1 & S2 & S3 & S4 & S5 & Gr & Cr & Ch & Nr).
  pose proof (as_built_le r ql Nr Ho Hne) as Hle.
  rewrite enc_msg_length in Hfit by exact Hid. cbn [full_reply m_qs m_an m_ns m_ar map concat length m_idflags] in Hfit. fold (opt_list edns) in Hfit.
  pose proof (items_bytes q Hid) as Hib. rewrite app_length in Hfu. rewrite app_nil_r in Hfit.
  assert (Hst : length (enc_msg (stripped q)) = (12 + length (concat (map enc_q (m_qs q))))%nat).
  { rewrite enc_msg_length by exact Hid. unfold stripped. cbn [m_qs m_an m_ns m_ar map concat length]. rewrite Han. cbn [map concat length]. lia. }
  destruct (init_copy_strip fuel post q post Hg Hqs Hp ltac:(lia) ltac:(lia)) as (g0 & E0 & B0 & L0 & I0).
  pose proof (init_rest _ _ _ _ _ _ E0 ltac:(lia)) as R0. rewrite I0 in R0.
  assert (Hls : last_section (stripped q) = P_question) by (unfold last_section, stripped; cbn [m_ar m_ns m_an]; rewrite Han; reflexivity). rewrite Hls in B0.
  destruct (flags_built _ _ _ B0) as (i1 & i2 & f2 & f3 & g1 & Ei & E1 & B1 & L1 & R1 & _). cbn [stripped m_idflags] in Ei.
  set (h := [i1; i2; Z.lor (Z.land f2 3) 128; Z.lor (Z.land f3 112) 128]) in *.
  assert (B2 : built (next_purpose g1) (set_header (stripped q) h, P_answer)) by (apply (built_step SNext g1 _ 0 _ B1 I); [reflexivity|lia]).
  assert (Hbuf : g_buf (next_purpose g1) = g_buf g1 /\ g_itr (next_purpose g1) = g_itr g1) by (unfold next_purpose; destruct (cur_purpose g1); auto). destruct Hbuf as (Hbuf & Hitr).
  assert (Hrest : rest (next_purpose g1) = skipn (length (enc_msg (stripped q))) post) by (rewrite <- R0, <- R1; unfold rest; rewrite Hbuf, Hitr; reflexivity).
  set (g := next_purpose g1) in *.
  destruct (fit_step s _ g _ _ B2 S1 S2 S3 S4) as (g2 & E2 & B3 & R2 & L2).
  { rewrite Hrest, skipn_length. lia. }
  destruct (add_opt fuel g2 _ edns B3 eq_refl eq_refl ltac:(lia)) as (g3 & p & k & E3 & B4 & L3 & R3).
  { rewrite R2, Hrest, !skipn_length. lia. }
  cbn [add_rr set_header stripped m_idflags m_qs m_an m_ns m_ar] in B4. rewrite Han in B4. cbn [app] in B4.
  set (m3 := mk_msg h (m_qs q) [as_built r] [] (opt_list edns)) in *.
  destruct (built_at _ _ _ B4) as (I3 & Eb3).
  pose proof (gi_len g3 (bl_inv _ _ B4)) as HL3.
  assert (Hl3 : length (g_buf g3) = length post) by (rewrite L3, L2, Hbuf, L1; exact L0). rewrite I3, Hl3 in HL3.
  assert (HidM : length (m_idflags m3) = 4%nat) by reflexivity. pose proof (items_bytes m3 HidM) as Hib3. rewrite items_length in Hib3.
  assert (Gab : good_rr (as_built r)) by (eapply sop_rr_good; [exact S1|exact S2]).
  assert (Hgm : good_msg m3).
  { unfold good_msg, m3. cbn [m_idflags m_qs m_an m_ns m_ar] in *. split; [reflexivity|]. split; [apply header_bytes; rewrite <- Ei; exact Hidb|]. split; [exact Hgq|]. split; [constructor; [exact Gab|constructor]|]. split; [constructor|].
    split; [apply good_opt|]. unfold m3 in Hib3. cbn [m_qs m_an length] in Hib3. cbn [length]. unfold opt_list. destruct edns; cbn [length]; lia. }
  destruct (compress_reply m3 q0 qs ql [r] (rest g3) fuel Hgm Hq Hqn Ch) as (an' & post' & HX); auto.
  { constructor; [|constructor]. destruct r. unfold same_but_name. cbn. auto. }
  { cbn [m3 m_an]. constructor; [exact Cr|constructor]. }
  { cbn [m3 m_an]. constructor; [|constructor]. intros _. destruct r. cbn. lia. }
  { lia. } { rewrite R3, R2, Hrest. now apply bytes_skipn, bytes_skipn, bytes_skipn. } { lia. } { cbn [m3 m_an length]. lia. }
  cbv zeta in HX. set (ga := with_answers m3 an') in *. destruct HX as (X1 & X2 & X3 & X4 & X5).
  assert (HfM : firstn (length (enc_msg q)) (enc_msg q ++ post) = enc_msg q) by (rewrite firstn_app, firstn_all, Nat.sub_diag; cbn [firstn]; apply app_nil_r).
  assert (HsM : skipn (length (enc_msg q)) (enc_msg q ++ post) = post) by (rewrite skipn_app, skipn_all, Nat.sub_diag; reflexivity).
  exists ga, (skipn (length (enc_msg ga)) (enc_msg q ++ enc_msg ga ++ post')).
  assert (Hlx : length (enc_msg ga ++ post') = length post) by (rewrite X2, <- Eb3; exact Hl3).
  split.
  { unfold hosts_message. rewrite Hcl, Hce, Nat2Z.id. destruct (Z.of_nat (length (enc_msg q)) <? 0) eqn:EN; [lia|]. clear EN. rewrite HsM, E0. cbn [bind]. rewrite E1. cbn [bind]. cbv zeta. fold g. rewrite HfM.
    rewrite (built_purpose _ _ B2). cbn [snd purpose_eqb negb]. rewrite S5, E2. cbn [bind]. change (negb (0 =? 0)) with false. cbv iota. fold edns. rewrite E3. cbn [bind]. change (negb (0 =? 0)) with false. cbv iota.
    rewrite Eb3, I3, X1. cbn [bind]. assert (Hpos : (Z.of_nat (length (enc_msg ga)) <? 0) = false) by lia. rewrite Hpos, Nat2Z.id. rewrite (moved_back (enc_msg ga) _ post' eq_refl). cbn [bind].
    rewrite bwrite_ok by (cbn [Nat.add]; rewrite !app_length in *; lia). cbn [bind firstn app Nat.add]. reflexivity. }
  split. { rewrite !app_length, skipn_length, !app_length in *. lia. }
  unfold is_reply. split; [exact X3|]. split; [rewrite Ei; apply flags_header|]. split; [reflexivity|]. split; [reflexivity|]. split; [reflexivity|]. split; [exact X4|exact X5].
Qed.

(** ** The functions around it *)
Lemma send_back_ok hdr h msg mem n : h_len h = Z.of_nat (length msg) -> exists code, send_back hdr (mk_ctx h (msg ++ mem)) n = Ret (sent_to hdr h h msg, code).
Proof.
  intros Hl. unfold send_back. cbn [c_h c_entity]. rewrite Hl. destruct (Z.of_nat (length msg) <? 0) eqn:E; [lia|]. rewrite Nat2Z.id.
  pose proof (slice_app [] msg mem) as HSL. cbn [app length] in HSL. rewrite HSL. unfold sent_to. destruct (h_back h); eexists; reflexivity.
Qed.

Section Get.
Context (fn : list Z -> list Z -> bool) (good : list Z -> option (list Z)) (hdr : iheader -> list Z) (fuel : nat).

Definition len_ok (c : mctx) : Prop := (Z.to_nat (h_len (c_h c)) <= length (c_entity c))%nat.
Lemma same_query_refl c : same_query c c. Proof. split; reflexivity. Qed.
Lemma same_query_trans a b c : same_query a b -> same_query b c -> same_query a c.
Proof. intros (H1 & H2) (H4 & H5). rewrite H1 in *. split; congruence. Qed.
Lemma same_tail c b : len_ok c -> same_query c (mk_ctx (c_h c) (firstn (Z.to_nat (h_len (c_h c))) (c_entity c) ++ b)) /\ len_ok (mk_ctx (c_h c) (firstn (Z.to_nat (h_len (c_h c))) (c_entity c) ++ b)).
Proof.
  unfold len_ok, same_query. intros H. cbn [c_h c_entity]. rewrite firstn_app, firstn_firstn, Nat.min_id, firstn_length, Nat.min_l by exact H. rewrite Nat.sub_diag. cbn [firstn]. rewrite app_nil_r.
  split; [split; reflexivity|]. rewrite app_length, firstn_length. lia.
Qed.

Lemma hosts_message_none c a c' : len_ok c -> hosts_message fuel c a = Ret (false, c') -> same_query c c' /\ len_ok c'.
Proof.
  intros Hl. unfold hosts_message. destruct (h_len (c_h c) <? 0); [discriminate|]. destruct (gen_init_copy _ _ _ _ _) as [o| | |]; try discriminate. cbn [bind].
  destruct o as [g0|]; [|intros E; assert (c' = c) as -> by congruence; split; [apply same_query_refl|exact Hl]].
  destruct (answer_flags g0) as [g1| | |]; try discriminate. cbn [bind]. cbv zeta.
  assert (HT : forall b, Ret (false, mk_ctx (c_h c) (firstn (Z.to_nat (h_len (c_h c))) (c_entity c) ++ b)) = Ret (false, c') -> same_query c c' /\ len_ok c').
  { intros b E. match type of E with Ret (_, ?x) = _ => assert (c' = x) as -> by congruence end. now apply same_tail. }
  destruct (negb _); [apply HT|]. destruct (put_answer a (next_purpose g1)) as [[e g2]| | |]; try discriminate. cbn [bind]. destruct (negb _); [apply HT|].
  destruct (if h_edns _ then _ else _) as [[e2 g3]| | |]; try discriminate. cbn [bind]. destruct (negb _); [apply HT|].
  destruct (dns_compress _ _ _) as [[n b]| | |]; try discriminate. cbn [bind]. destruct (n <? 0); [apply HT|].
  destruct (rdn b 0 (Z.to_nat n)); try discriminate. cbn [bind]. destruct (bwrite _ _ _); discriminate.
Qed.
Lemma utils_try_msg_none h c c' : len_ok c -> utils_try_msg fn good fuel h c = Ret (R_none, c') -> same_query c c' /\ len_ok c'.
Proof.
  intros Hl. unfold utils_try_msg. destruct (utils_try fn good h _ _) as [t| | |]; try discriminate. cbn [bind]. destruct t; try discriminate.
  - intros E. assert (c' = c) as -> by congruence. split; [apply same_query_refl|exact Hl].
  - destruct (hosts_message fuel c a) as [[b c1]| | |] eqn:EM; try discriminate. cbn [bind fst snd]. destruct b; [discriminate|]. intros E. assert (c1 = c') as -> by congruence. exact (hosts_message_none _ _ _ Hl EM).
Qed.
Lemma utils_try_msg_rec h c c' : utils_try_msg fn good fuel h c = Ret (R_recursed, c') -> c' = c.
Proof.
  unfold utils_try_msg. destruct (utils_try fn good h _ _) as [t| | |]; try discriminate. cbn [bind]. destruct t; try discriminate; [congruence|].
  destruct (hosts_message fuel c a) as [[b c1]| | |]; try discriminate. cbn [bind fst snd]. destruct b; discriminate.
Qed.
Lemma try_inner_msg_none st dy c t c' : len_ok c -> try_inner_msg fn good fuel st dy c = Ret (t, c') -> t = R_none \/ t = R_recursed -> same_query c c' /\ len_ok c'.
Proof.
  intros Hl. unfold try_inner_msg.
  assert (HO : forall o c0 t0 c1, len_ok c0 -> opt_try_msg fn good fuel o c0 = Ret (t0, c1) -> t0 = R_none \/ t0 = R_recursed -> same_query c0 c1 /\ len_ok c1).
  { intros [h|] c0 t0 c1 H0 E D; cbn [opt_try_msg] in E.
    - destruct D as [-> | ->]; [exact (utils_try_msg_none _ _ _ H0 E)|]. rewrite (utils_try_msg_rec _ _ _ E). split; [apply same_query_refl|exact H0].
    - assert (c1 = c0) as -> by congruence. split; [apply same_query_refl|exact H0]. }
  destruct (opt_try_msg fn good fuel st c) as [[t0 c0]| | |] eqn:E0; try discriminate. cbn [bind]. destruct t0; intros E D;
    try (match type of E with Ret (?x, ?y) = _ => assert (x = t /\ y = c') as (<- & <-) by (split; congruence) end; exact (HO st c _ _ Hl E0 D)).
  destruct (HO st c _ _ Hl E0 (or_introl eq_refl)) as (S1 & L1). destruct (HO dy c0 _ _ L1 E D) as (S2 & L2). split; [exact (same_query_trans _ _ _ S1 S2)|exact L2].
Qed.
Lemma hosts_get_none block6 st dy c inner n e c' : len_ok c -> hosts_get fn good hdr fuel block6 st dy c inner n = Ret (-126, e, c') -> e = H_nothing /\ same_query c c'.
Proof.
  intros Hl. unfold hosts_get, hosts_try_msg. destruct (if block6 && _ then _ else _) as [b| | |]; try discriminate. cbn [bind]. destruct b; cbn [bind].
  { destruct (refuse_flags _); try discriminate. cbn [bind]. destruct (send_back _ _ _); discriminate. }
  destruct (both_exist fn st dy (h_domain (c_h c)) HT_exclude) as [x| | |]; try discriminate. cbn [bind]. destruct x; cbn [bind].
  { intros E. split; [congruence|]. assert (c' = c) as -> by congruence. apply same_query_refl. }
  destruct (try_inner_msg fn good fuel st dy c) as [[t c1]| | |] eqn:ET; try discriminate. cbn [bind]. destruct t; cbn [bind].
  - destruct (refuse_flags _); try discriminate. cbn [bind]. destruct (send_back _ _ _); discriminate.
  - intros E. split; [congruence|]. assert (c' = c1) as -> by congruence. exact (proj1 (try_inner_msg_none _ _ _ _ _ Hl ET (or_introl eq_refl))).
  - destruct (rdn (c_entity c1) 0 2); try discriminate. cbn [bind]. destruct inner; [discriminate|]. intros E. split; [congruence|]. assert (c' = c1) as -> by congruence.
    exact (proj1 (try_inner_msg_none _ _ _ _ _ Hl ET (or_intror eq_refl))).
  - destruct (send_back _ _ _); discriminate.
Qed.

Lemma try_inner_answer st dy c a : try_inner fn good st dy (h_domain (c_h c)) (h_type (c_h c)) = Ret (T_answer a) -> forall c', hosts_message fuel c a = Ret (true, c') -> try_inner_msg fn good fuel st dy c = Ret (R_ok, c').
Proof.
  intros H c' HM. unfold try_inner, opt_try in H. unfold try_inner_msg, opt_try_msg, utils_try_msg.
  destruct st as [h|]; [|cbn [bind] in *; destruct dy as [h|]; [rewrite H; cbn [bind]; rewrite HM; reflexivity|discriminate]].
  destruct (utils_try fn good h (h_domain (c_h c)) (h_type (c_h c))) as [t| | |]; try discriminate. cbn [bind] in *. destruct t; try discriminate; cbn [bind].
  - destruct dy as [h'|]; [|discriminate]. rewrite H. cbn [bind]. rewrite HM. reflexivity.
  - assert (E : a0 = a) by congruence. subst a0. rewrite HM. reflexivity.
Qed.
Lemma try_inner_same st dy c t : try_inner fn good st dy (h_domain (c_h c)) (h_type (c_h c)) = Ret t -> (forall a, t <> T_answer a) ->
  try_inner_msg fn good fuel st dy c = Ret (match t with T_blocked => R_blocked | T_recursed => R_recursed | _ => R_none end, c).
Proof.
  intros H HN. unfold try_inner, opt_try in H. unfold try_inner_msg, opt_try_msg, utils_try_msg.
  assert (HD : forall t', match dy with Some h => utils_try fn good h (h_domain (c_h c)) (h_type (c_h c)) | None => Ret T_none end = Ret t' -> (forall a, t' <> T_answer a) ->
     match dy with Some h => let! t := utils_try fn good h (h_domain (c_h c)) (h_type (c_h c)) in match t with T_blocked => Ret (R_blocked, c) | T_none => Ret (R_none, c) | T_recursed => Ret (R_recursed, c)
       | T_answer a => let! r := hosts_message fuel c a in Ret (if fst r then R_ok else R_none, snd r) end | None => Ret (R_none, c) end =
     Ret (match t' with T_blocked => R_blocked | T_recursed => R_recursed | _ => R_none end, c)).
  { intros t' E N. destruct dy as [h'|]; [rewrite E; cbn [bind]; destruct t'; try reflexivity; exfalso; eapply N; reflexivity|]. assert (t' = T_none) as -> by congruence. reflexivity. }
  destruct st as [h|]; [|cbn [bind] in *; now apply HD].
  destruct (utils_try fn good h (h_domain (c_h c)) (h_type (c_h c))) as [t0| | |]; try discriminate. cbn [bind] in *. destruct t0; cbn [bind].
  - assert (t = T_blocked) as -> by congruence. reflexivity.
  - now apply HD.
  - assert (t = T_recursed) as -> by congruence. reflexivity.
  - exfalso. eapply (HN a). congruence.
Qed.

Lemma hosts_get_answer block6 st dy c a inner n c' : hosts_try fn good block6 st dy (h_domain (c_h c)) (h_type (c_h c)) = Ret (T_answer a) -> hosts_message fuel c a = Ret (true, c') ->
  hosts_get fn good hdr fuel block6 st dy c inner n = let! s := send_back hdr c' n in Ret (0, H_sent (fst s) (snd s), c').
Proof.
  intros H HM. unfold hosts_get, hosts_try_msg, hosts_try in *. destruct (if block6 && _ then _ else _) as [b| | |]; try discriminate. cbn [bind] in *. destruct b; [discriminate|].
  destruct (both_exist fn st dy (h_domain (c_h c)) HT_exclude) as [x| | |]; try discriminate. cbn [bind] in *. destruct x; [discriminate|]. rewrite (try_inner_answer _ _ _ _ H _ HM). reflexivity.
Qed.
Lemma hosts_get_other block6 st dy c t inner n : hosts_try fn good block6 st dy (h_domain (c_h c)) (h_type (c_h c)) = Ret t -> (forall a, t <> T_answer a) ->
  hosts_get fn good hdr fuel block6 st dy c inner n =
  match t with
  | T_blocked => let! m := refuse_flags (c_entity c) in let! s := send_back hdr (mk_ctx (c_h c) m) n in Ret (0, H_sent (fst s) (snd s), mk_ctx (c_h c) m)
  | T_recursed => let! id := rdn (c_entity c) 0 2 in Ret (if inner then (0, H_inner (c_h c) id, c) else (-126, H_nothing, c))
  | _ => Ret (-126, H_nothing, c)
  end.
Proof.
  intros H HN. unfold hosts_get, hosts_try_msg, hosts_try in *. destruct (if block6 && _ then _ else _) as [b| | |]; try discriminate. cbn [bind] in *. destruct b.
  { assert (t = T_blocked) as -> by congruence. reflexivity. }
  destruct (both_exist fn st dy (h_domain (c_h c)) HT_exclude) as [x| | |]; try discriminate. cbn [bind] in *. destruct x.
  { assert (t = T_none) as -> by congruence. reflexivity. }
  rewrite (try_inner_same _ _ _ _ H HN). cbn [bind]. destruct t; try reflexivity.
  destruct (rdn (c_entity c) 0 2); cbn [bind]; destruct inner; reflexivity.
Qed.
End Get.

(** A query whose questions and answers take more than what is left of the buffer behind it is copied beyond the end of the buffer. *)
Lemma init_overflow q fuel post : good_msg q -> m_qs q <> [] -> Forall is_byte post -> (length (enc_msg q ++ post) <= fuel)%nat -> (length post < length (enc_msg (stripped q)))%nat ->
  gen_init_copy fuel post (enc_msg q ++ post) (length (enc_msg q)) true = UBW.
Proof.
  intros Hg Hq Hp Hfu Hl. pose proof Hg as (Hid & _). pose proof (items_bytes q Hid) as Hib. rewrite app_length in Hfu.
  destruct (msg_counts q post Hg) as (E4 & E6 & E8 & E10). unfold gen_init_copy. unfold rd16 at 1 2 3 4. rewrite E4, E6, E8, E10. cbn [bind].
  rewrite (striped_length_ok q post fuel Hg Hq Hp ltac:(lia)). cbn [bind].
  set (n := (12 + qs_len (m_qs q) + rrs_len (m_an q))%nat). destruct (Z.of_nat n <? 0) eqn:E0; [lia|]. rewrite Nat2Z.id.
  assert (Hn : length (enc_msg (stripped q)) = n).
  { rewrite enc_msg_length by exact Hid. unfold n, qs_len, rrs_len, stripped. cbn [m_qs m_an m_ns m_ar map concat length]. lia. }
  assert (Hle : (n <= length (enc_msg q))%nat).
  { rewrite enc_msg_length by exact Hid. unfold n, qs_len, rrs_len. lia. }
  unfold rdn. destruct (slice (enc_msg q ++ post) 0 n) as [bytes|] eqn:Es.
  - apply slice_length in Es. cbn [bind]. unfold bwrite, write. destruct (Nat.leb_spec (0 + length bytes) (length post)); [lia|reflexivity].
  - exfalso. unfold slice in Es. rewrite app_length in Es. destruct (Nat.leb_spec (0 + n) (length (enc_msg q) + length post)); [discriminate|lia].
Qed.
Lemma hosts_get_overflow fn good hdr fuel block6 st dy c a inner n q post : hosts_try fn good block6 st dy (h_domain (c_h c)) (h_type (c_h c)) = Ret (T_answer a) ->
  good_msg q -> m_qs q <> [] -> c_entity c = enc_msg q ++ post -> h_len (c_h c) = Z.of_nat (length (enc_msg q)) -> Forall is_byte post -> (length (enc_msg q ++ post) <= fuel)%nat ->
  (length post < length (enc_msg (stripped q)))%nat -> hosts_get fn good hdr fuel block6 st dy c inner n = UBW.
Proof.
  intros H Hg Hq Hce Hcl Hp Hfu Hl.
  assert (HM : hosts_message fuel c a = UBW).
  { unfold hosts_message. rewrite Hcl, Hce, Nat2Z.id. destruct (Z.of_nat (length (enc_msg q)) <? 0) eqn:EN; [lia|].
    assert (HsM : skipn (length (enc_msg q)) (enc_msg q ++ post) = post) by (rewrite skipn_app, skipn_all, Nat.sub_diag; reflexivity). rewrite HsM, init_overflow by assumption. reflexivity. }
  unfold hosts_get, hosts_try_msg, hosts_try in *. destruct (if block6 && _ then _ else _) as [b| | |]; try discriminate. cbn [bind] in *. destruct b; [discriminate|].
  destruct (both_exist fn st dy (h_domain (c_h c)) HT_exclude) as [x| | |]; try discriminate. cbn [bind] in *. destruct x; [discriminate|].
  unfold try_inner, opt_try in H. unfold try_inner_msg, opt_try_msg, utils_try_msg.
  destruct st as [h|]; [|cbn [bind] in *; destruct dy as [h|]; [rewrite H; cbn [bind]; rewrite HM; reflexivity|discriminate]].
  destruct (utils_try fn good h (h_domain (c_h c)) (h_type (c_h c))) as [t| | |]; try discriminate. cbn [bind] in *. destruct t; try discriminate; cbn [bind].
  - destruct dy as [h'|]; [|discriminate]. rewrite H. cbn [bind]. rewrite HM. reflexivity.
  - assert (E : a0 = a) by congruence. subst a0. rewrite HM. reflexivity.
Qed.
