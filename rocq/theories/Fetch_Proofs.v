(** Proofs about answering a query from the cache. *)
From Verif Require Import Base BaseFacts ListFacts Name_Model Name_Spec Name_Proofs Hash_Model Cht_Model Cache_Model Cache_Spec Alias_Spec Alias_Proofs
  Parser_Model Parser_Spec Parser_Proofs Parser_Walk Gen_Model Gen_Spec Gen_Proofs Compress_Spec Compress_Proofs Gen2_Proofs Iheader_Spec Iheader_Proofs Addr2_Proofs Fetch_Model Fetch_Spec.
Require Import ZifyBool ZifyNat.

(** ** Building *)
Definition rest (g : gen) : list Z := skipn (g_itr g) (g_buf g).
Lemma rest_length g : length (rest g) = (length (g_buf g) - g_itr g)%nat. Proof. apply skipn_length. Qed.
Lemma skipn_bump b n k : (n + 2 <= k)%nat -> (n + 2 <= length b)%nat -> skipn k (bump b n) = skipn k b.
Proof.
  intros H1 H2. unfold bump. destruct (get16 b n) as [v|]; [|reflexivity]. unfold splice. rewrite be16_length.
  rewrite app_assoc, skipn_app. rewrite (skipn_all2 (firstn n b ++ be16 (v + 1))) by (rewrite app_length, firstn_length, be16_length; lia). cbn [app].
  rewrite app_length, firstn_length, be16_length. rewrite skipn_skipn'. f_equal; lia.
Qed.
Lemma rest_append g l : ginv g -> (g_num g <= 10)%nat -> (g_itr g + length l <= length (g_buf g))%nat -> rest (gen_append g l) = skipn (length l) (rest g).
Proof.
  intros [HL Hn] H10 Hf. unfold rest, gen_append. cbn [g_itr g_buf].
  rewrite skipn_bump; [|unfold num_ok in Hn; lia|rewrite splice_length by exact Hf; lia]. unfold splice.
  rewrite app_assoc, skipn_app, skipn_all2 by (rewrite app_length, firstn_length; lia). cbn [app]. rewrite app_length, firstn_length, skipn_skipn', skipn_skipn'. f_equal; lia.
Qed.

Lemma fit_step s r g m p : built g (m, p) -> sop_ok s -> sop_rr s = Some r -> op_section (call_of s) p = true ->
  (match s with SRaw _ _ _ d _ => d <> [] | _ => True end) -> (length (enc_rr r) <= length (rest g))%nat ->
  exists g', gen_step (call_of s) g = Ret (0, g') /\ built g' (add_rr p r m, p) /\ rest g' = skipn (length (enc_rr r)) (rest g) /\ length (g_buf g') = length (g_buf g).
Proof.
  intros HB HO Hr Hs Hd Hl. pose proof (bl_inv _ _ HB) as HI. pose proof (built_purpose _ _ HB) as HP. cbn [snd] in HP. rewrite rest_length in Hl.
  pose proof (bytes_rr s r HO Hr) as Eb. pose proof (gi_len g HI) as HL.
  assert (HN : call_of s <> ONext) by (destruct s; discriminate).
  assert (HR : raw_fits (call_of s) g) by (destruct s; try exact I; cbn [call_of raw_fits] in *; rewrite Eb; lia).
  destruct (gen_step_cases_fit (call_of s) g HI HR HN) as [(E & _)|[(n & ty & kl & ttl & E & _)|[(_ & H10 & Hf & E)|(_ & Hf & _)]]].
  - rewrite HP in E. congruence.
  - destruct s; try discriminate. cbn [call_of] in E. congruence.
  - eexists. split; [exact E|]. rewrite Eb in *. split; [|split; [apply rest_append; assumption|]].
    + pose proof (built_step s g _ 0 _ HB HO E ltac:(lia)) as HB'. unfold spec_step in HB'. cbn [Z.eqb] in HB'. rewrite Hr in HB'. destruct s; try discriminate; exact HB'.
    + unfold gen_append. cbn [g_buf]. rewrite bump_length; rewrite splice_length by lia; [reflexivity|]. lia.
  - rewrite Eb in Hf. lia.
Qed.

(** ** The aliases *)
Definition as_built (r : rr) : rr := mk_rr (plain [[97]]) (r_type r) (r_class r) (r_ttl r) (r_data r).
Definition answers_added (m : message) (rs : list rr) : message := mk_msg (m_idflags m) (m_qs m) (m_an m ++ rs) (m_ns m) (m_ar m).
Lemma answers_added_nil m : answers_added m [] = m. Proof. destruct m. unfold answers_added. cbn. now rewrite app_nil_r. Qed.
Lemma answers_added_cons m r rs : answers_added (add_rr P_answer r m) rs = answers_added m (r :: rs).
Proof. unfold answers_added, add_rr. cbn. rewrite <- app_assoc. reflexivity. Qed.

Lemma wire_len c : name_ok c -> Z.of_nat (length (wire c)) = label_length (dotted c).
Proof. intros H. symmetry. now apply label_length_wire. Qed.
Lemma label_length_le t : label_length t <= Z.of_nat (length t) + 2. Proof. unfold label_length. destruct t; cbn [length]; lia. Qed.
Lemma name_ok_a : name_ok [[97]].
Proof. constructor; [|constructor]. split; [cbn; lia|]. constructor; [lia|constructor]. Qed.
Lemma wire_nonempty n : n <> [] -> name_ok n -> (3 <= length (wire n))%nat.
Proof. intros H HN. destruct n as [|l n]; [congruence|]. inversion HN as [|? ? [Hl _] _]; subst. cbn [wire length]. rewrite app_length. destruct n; cbn [wire length]; lia. Qed.

Section Follow.
Context (ignore : bool) (A : list entry) (now : Z) (Httl : forall e, In e A -> fresh ignore now e = true -> 0 <= remaining ignore now e < 4294967296).

Lemma alias_in name e : alias ignore A name now = Some e -> In e A /\ same_key name 5 1 e = true /\ fresh ignore now e = true.
Proof. intros H. unfold alias in H. apply find_some in H. rewrite andb_true_iff in H. tauto. Qed.

Lemma follow_aliases n als n' : aliases ignore A now n als n' -> forall g m code name g', built g (m, P_answer) ->
  (length (concat (map enc_rr (map as_built als))) <= length (rest g))%nat -> follow ignore A now (dotted n) g code name g' ->
  code = 0 /\ name = dotted n' /\ built g' (answers_added m (map as_built als), P_answer) /\ length (g_buf g') = length (g_buf g) /\
  rest g' = skipn (length (concat (map enc_rr (map as_built als)))) (rest g).
Proof.
  intros H. induction H as [n Hn|n e c rs n' Ha Hw Hc Hd Hr IH]; intros g m code name g' HB Hl HF.
  - inversion HF as [? ? X|? ? ? ? ? ? ? ? X|? ? ? ? ? ? X]; subst; try congruence. cbn [map concat length skipn]. rewrite answers_added_nil. auto.
  - assert (Hex : exists g1, gen_cname [97] (dotted c) (remaining ignore now e) g = Ret (0, g1) /\
      built g1 (add_rr P_answer (as_built (mk_rr (plain n) 5 1 (remaining ignore now e) (wire c))) m, P_answer) /\
      rest g1 = skipn (length (enc_rr (as_built (mk_rr (plain n) 5 1 (remaining ignore now e) (wire c))))) (rest g) /\ length (g_buf g1) = length (g_buf g)).
    { apply (fit_step (SCName [[97]] c (remaining ignore now e)) _ g m P_answer HB); [|reflexivity|reflexivity|exact I|cbn [map concat] in Hl; rewrite app_length in Hl; lia].
      cbn [sop_ok]. split; [apply name_ok_a|]. split; [exact Hc|]. destruct (alias_in _ _ Ha) as (I1 & _ & I3). split; [apply Httl; assumption|].
      assert (Hlc : (length (e_data e) <= 254)%nat).
      { remember 5 as five eqn:E5. remember (wire c) as wc eqn:Ec. destruct Hw as [ty d X|ty c0 X0 X1 X2 X3|]; [cbn in X; lia| |discriminate]. rewrite app_length. cbn [length]. lia. }
      rewrite (wire_len c Hc). pose proof (label_length_le (dotted c)). rewrite Hd, app_length in Hlc. cbn [length] in Hlc. lia. }
    destruct Hex as (g1 & E1 & B1 & R1 & L1). cbn [map concat] in *. rewrite app_length in Hl.
    assert (Hinj : forall s, e_data e = s ++ [0] -> s = dotted c) by (intros s Es; rewrite Hd in Es; apply app_inv_tail in Es; congruence).
    inversion HF as [? ? X|? ? e' s g2 ? ? ? X Es Eg HF'|? ? e' s ? g2 X Es Eg Hne]; subst.
    + congruence.
    + rewrite Ha in X. injection X as <-. apply Hinj in Es. subst s. rewrite E1 in Eg. injection Eg as <-.
      destruct (IH g1 _ _ _ _ B1 ltac:(rewrite R1, skipn_length; lia) HF') as (C0 & C1 & C2 & C3 & C4). rewrite answers_added_cons in C2.
      split; [exact C0|]. split; [exact C1|]. split; [exact C2|]. split; [congruence|]. rewrite C4, R1, skipn_skipn', app_length. f_equal; lia.
    + rewrite Ha in X. injection X as <-. apply Hinj in Es. subst s. congruence.
Qed.

(** ** The records *)
Lemma serve_records n ty vs rs : name_ok n -> Forall2 (record_for n ty) vs rs -> ~ In ty [2; 12] ->
  (forall v, In v vs -> 0 <= snd v < 4294967296 /\ fst v <> [] /\ (length (fst v) < 512)%nat) ->
  forall g m ret, built g (m, P_answer) -> (length (concat (map enc_rr rs)) <= length (rest g))%nat ->
  exists g', serve (dotted n) ty 1 vs ret g = Ret (match vs with [] => ret | _ => 0 end, g') /\ built g' (answers_added m rs, P_answer) /\
    length (g_buf g') = length (g_buf g) /\ rest g' = skipn (length (concat (map enc_rr rs))) (rest g).
Proof.
  intros Hn HF Hty. induction HF as [|v r vs rs (R1 & R2 & R3 & R4 & R5) HF IH]; intros Hv g m ret HB Hl.
  - exists g. cbn [serve map concat length skipn]. rewrite answers_added_nil. auto.
  - destruct v as [d t]. cbn [fst snd] in *. cbn [serve]. cbn [map concat] in Hl. rewrite app_length in Hl.
    destruct (Hv (d, t) (or_introl eq_refl)) as (V1 & V2 & V3). cbn [fst snd] in V1, V2, V3.
    assert (Hex : exists s, generate_data ty d s n 1 t /\ sop_ok s /\ sop_rr s = Some r /\ op_section (call_of s) P_answer = true /\ match s with SRaw _ _ _ x _ => x <> [] | _ => True end).
    { destruct r as [nm ty' kl' ttl' data']. cbn [r_name r_type r_class r_ttl r_data] in *. subst nm ty' kl' ttl'. inversion R5 as [? ? X1 X2|? c X1 X2 X3 X4 X5|pref c X1 X2 X3]; subst.
      - exists (SRaw n ty 1 data' t). split; [apply GD_raw; cbn in X1; intuition|]. split; [|split; [reflexivity|split; [reflexivity|exact V2]]].
        cbn [sop_ok]. split; [exact Hn|]. split; [cbn in X1; lia|]. split; [lia|]. split; [exact V1|]. split; [lia|exact X2].
      - assert (ty = 5) as -> by (cbn in X1, Hty; lia). exists (SCName n c t). split; [apply (GD_cname c []); exact X2|]. split; [|split; [reflexivity|split; [reflexivity|exact I]]].
        cbn [sop_ok]. split; [exact Hn|]. split; [exact X2|]. split; [exact V1|]. rewrite (wire_len c X2). pose proof (label_length_le (dotted c)). lia.
      - exists (SMX n pref c t). split; [apply (GD_mx pref c []); assumption|]. split; [|split; [reflexivity|split; [reflexivity|exact I]]].
        cbn [sop_ok]. split; [exact Hn|]. split; [exact X2|]. split; [exact V1|]. split; [exact X1|]. rewrite (wire_len c X2). pose proof (label_length_le (dotted c)). lia. }
    destruct Hex as (s & G1 & G2 & G3 & G4 & G5). rewrite (generate_step ty d s n 1 t g G1).
    destruct (fit_step s r g m P_answer HB G2 G3 G4 G5 ltac:(lia)) as (g1 & E1 & B1 & S1 & L1). rewrite E1. cbn [bind]. change (0 =? 0) with true. cbv iota.
    destruct (IH (fun v H => Hv v (or_intror H)) g1 _ 0 B1 ltac:(rewrite S1, skipn_length; lia)) as (g' & E2 & B2 & L2 & S2).
    exists g'. rewrite E2. rewrite answers_added_cons in B2. split; [destruct vs; reflexivity|]. split; [exact B2|]. split; [congruence|]. rewrite S2, S1, skipn_skipn'. cbn [map concat]. rewrite app_length. f_equal; lia.
Qed.
End Follow.

(** ** The flags *)
Definition set_header (m : message) (h : list Z) : message := mk_msg h (m_qs m) (m_an m) (m_ns m) (m_ar m).
Lemma flags_built g m p : built g (m, p) -> exists i1 i2 f2 f3 g', m_idflags m = [i1; i2; f2; f3] /\ answer_flags g = Ret g' /\
  built g' (set_header m [i1; i2; Z.lor (Z.land f2 3) 128; Z.lor (Z.land f3 112) 128], p) /\ length (g_buf g') = length (g_buf g) /\ rest g' = rest g /\ g_itr g' = g_itr g.
Proof.
  intros HB. pose proof (bl_id _ _ HB) as Hid. cbn [fst] in Hid. pose proof (built_buf _ _ HB) as Eb. cbn [fst] in Eb. pose proof (bl_inv _ _ HB) as HI.
  destruct (m_idflags m) as [|i1 [|i2 [|f2 [|f3 [|]]]]] eqn:Ei; try discriminate. exists i1, i2, f2, f3. pose proof (gi_len g HI) as HL.
  set (tl := be16 (Z.of_nat (length (m_qs m))) ++ be16 (Z.of_nat (length (m_an m))) ++ be16 (Z.of_nat (length (m_ns m))) ++ be16 (Z.of_nat (length (m_ar m))) ++
    concat (map enc_q (m_qs m)) ++ concat (map enc_rr (m_an m)) ++ concat (map enc_rr (m_ns m)) ++ concat (map enc_rr (m_ar m))) in *.
  assert (Ee : enc_msg m = [i1; i2; f2; f3] ++ tl) by (unfold enc_msg; rewrite Ei; reflexivity).
  assert (En : forall a b, enc_msg (set_header m [i1; i2; a; b]) = [i1; i2; a; b] ++ tl) by (intros; reflexivity).
  pose proof (bl_bytes _ _ HB) as Hby. cbn [fst] in Hby.
  assert (El : length (enc_msg m) = g_itr g) by (rewrite <- Hby; apply firstn_length_le; lia).
  assert (Ew : forall a b, bwrite (g_buf g) 2 [a; b] = Ret ([i1; i2; a; b] ++ tl ++ rest g)).
  { intros a b. rewrite Eb, Ee, <- app_assoc. apply (bwrite_app [i1; i2] [f2; f3] (tl ++ skipn (g_itr g) (g_buf g)) [a; b]). reflexivity. }
  eexists. split; [reflexivity|]. assert (E2 : rd8 (g_buf g) 2 = Ret f2) by (rewrite Eb, Ee; reflexivity). assert (E3 : rd8 (g_buf g) 3 = Ret f3) by (rewrite Eb, Ee; reflexivity).
  unfold answer_flags. rewrite E2, E3. cbn [bind]. rewrite Ew. cbn [bind]. split; [reflexivity|].
  assert (Hlt : length ([i1; i2; Z.lor (Z.land f2 3) 128; Z.lor (Z.land f3 112) 128] ++ tl) = g_itr g) by (rewrite <- El, Ee; reflexivity).
  split; [|split; [|split; [|reflexivity]]].
  - constructor; cbn [g_buf g_itr g_num fst snd].
    + constructor; cbn [g_buf g_itr g_num]; [|apply (gi_num g HI)]. rewrite app_assoc, app_length, Hlt, rest_length. lia.
    + apply (bl_num _ _ HB).
    + reflexivity.
    + rewrite En. rewrite app_assoc, <- Hlt. rewrite firstn_app, firstn_all, Nat.sub_diag, firstn_O, app_nil_r. reflexivity.
    + pose proof (bl_later _ _ HB) as HLt. cbn [fst snd] in HLt. destruct p; exact HLt.
  - cbn [g_buf]. rewrite app_assoc, app_length, Hlt, rest_length. lia.
  - unfold rest at 1. cbn [g_buf g_itr]. rewrite app_assoc, skipn_app, <- Hlt, skipn_all, Nat.sub_diag. reflexivity.
Qed.

Lemma flags_header i1 i2 f2 f3 : reply_header [i1; i2; f2; f3] [i1; i2; Z.lor (Z.land f2 3) 128; Z.lor (Z.land f3 112) 128].
Proof.
  exists i1, i2, f2, f3. do 2 eexists. split; [reflexivity|]. split; [reflexivity|].
  assert (Hneg : forall x i, i < 0 -> Z.testbit x i = false) by (intros; apply Z.testbit_neg_r; lia).
  assert (H3 : forall i, Z.testbit 3 i = ((i =? 0) || (i =? 1))).
  { intros i. destruct (Z.ltb_spec i 0); [rewrite Hneg by lia; lia|]. destruct (Z.eq_dec i 0) as [->|]; [reflexivity|]. destruct (Z.eq_dec i 1) as [->|]; [reflexivity|].
    rewrite (Z.bits_above_log2 3 i) by (try (change (Z.log2 3) with 1); lia). lia. }
  assert (H128 : forall i, Z.testbit 128 i = (i =? 7)).
  { intros i. destruct (Z.ltb_spec i 0); [rewrite Hneg by lia; lia|]. change 128 with (2 ^ 7). rewrite Z.pow2_bits_eqb by lia. lia. }
  assert (H112 : forall i, Z.testbit 112 i = ((i =? 4) || (i =? 5) || (i =? 6))).
  { intros i. change 112 with (Z.lor (2 ^ 4) (Z.lor (2 ^ 5) (2 ^ 6))). rewrite !Z.lor_spec, !Z.pow2_bits_eqb by lia. lia. }
  split; intros i; rewrite Z.lor_spec, Z.land_spec, H128, ?H3, ?H112.
  - destruct (i =? 7), (i =? 0), (i =? 1), (Z.testbit f2 i); reflexivity.
  - destruct (i =? 7), (i =? 4), (i =? 5), (i =? 6), (Z.testbit f3 i); reflexivity.
Qed.

(** ** Compression *)
Lemma set_name_same r r' n : same_but_name r r' -> set_name r n = set_name r' n.
Proof. intros (H1 & H2 & H3 & H4). unfold set_name. congruence. Qed.
Lemma comp_same rs rs' : Forall2 same_but_name rs rs' -> Forall (fun r => r_class r = 1) rs -> forall o last, comp o last rs = comp o last rs'.
Proof.
  intros H. induction H as [|r r' rs rs' Hr H IH]; intros HC o last; [reflexivity|]. inversion HC as [|? ? HC1 HC2]; subst. cbn [comp]. pose proof Hr as (H1 & H2 & _).
  rewrite H2, HC1, H1. change (1 =? 1) with true. cbv iota zeta. rewrite (set_name_same r r' (ptr_to last) Hr). f_equal. apply IH, HC2.
Qed.

Lemma compress_reply g q qs ql ideal post fuel : good_msg g -> m_qs g = q :: qs -> q_name q = plain ql -> answer_chain ql ideal -> Forall good_rr ideal ->
  Forall2 same_but_name (m_an g) ideal -> Forall (fun r => r_class r = 1) (m_an g) -> compressible (m_an g) ->
  Z.of_nat (length (enc_msg g)) <= 16384 -> Forall is_byte post -> (length (m_qs g) <= fuel)%nat -> (length (m_an g) < fuel)%nat ->
  exists an' post', let g' := with_answers g an' in
    dns_compress fuel (enc_msg g ++ post) (length (enc_msg g)) = Ret (Z.of_nat (length (enc_msg g')), enc_msg g' ++ post') /\
    length (enc_msg g' ++ post') = length (enc_msg g ++ post) /\ good_msg g' /\ Forall2 same_but_name ideal an' /\
    Forall2 (fun r v => exists w, denotes 63 (enc_msg g') (v_pos v) (en_labels (r_name r)) w) ideal (view_rrs P_answer (12 + qs_len (m_qs g)) an').
Proof.
  intros Hg Hq Hqn HC Hgi HS H1 Hcm H14 Hpost Hf1 Hf2. pose proof Hg as (Hid & Hidb & Hgq & Hga & Hgn & Hgr & Lq & La & Ln & Lr).
  destruct (compress_ok g q qs post fuel Hg Hq Hcm H14 Hpost Hf1 Hf2) as (post' & HE & HL & Hle & _).
  rewrite (comp_same _ _ HS H1) in *. set (an' := comp (12 + qs_len (m_qs g)) 12 ideal) in *. exists an', post'. cbn zeta. split; [exact HE|]. split; [exact HL|].
  set (pre := header g ++ concat (map enc_q (m_qs g))).
  assert (Hpre : length pre = (12 + qs_len (m_qs g))%nat) by (unfold pre; rewrite app_length, header_length; auto).
  assert (Hal : length an' = length (m_an g)) by (unfold an'; rewrite comp_length; symmetry; exact (Forall2_length HS)).
  pose proof (enc_with_answers g an' Hal) as EW. fold pre in EW.
  destruct (chain_denotes ideal pre (concat (map enc_item (map (IR P_nameserver) (m_ns g) ++ map (IR P_additional) (m_ar g)))) ql 12 Hgi HC ltac:(lia)) with (m := enc_msg (with_answers g an')) as (I1 & I2 & I3).
  - rewrite Hpre. fold an'. rewrite EW in Hle. rewrite !app_length in *. lia.
  - rewrite Hpre. fold an'. exact EW.
  - rewrite Hq in Hgq. inversion Hgq as [|? ? Hgq1 _]; subst. destruct Hgq1 as (Hgq1 & _). rewrite Hqn in Hgq1.
    destruct (denotes_plain ql (header g) (be16 (q_type q) ++ be16 (q_class q) ++ concat (map enc_q qs) ++ concat (map enc_rr an') ++
      concat (map enc_item (map (IR P_nameserver) (m_ns g) ++ map (IR P_additional) (m_ar g)))) Hgq1) as [w Hw].
    exists w. rewrite header_length in Hw by exact Hid. rewrite EW. unfold pre. rewrite Hq. cbn [map concat]. unfold enc_q at 1. rewrite Hqn, <- !app_assoc. exact Hw.
  - rewrite Hpre in I1, I2, I3. fold an' in I1, I2, I3. split; [|split; [exact I2|exact I1]].
    unfold good_msg, with_answers. cbn [m_idflags m_qs m_an m_ns m_ar]. rewrite Hal. repeat split; auto.
Qed.

Lemma aliases_chain ignore A now n als n' : aliases ignore A now n als n' -> n <> [] -> name_ok n -> forall rs, (n' <> [] -> name_ok n' -> answer_chain n' rs) -> answer_chain n (als ++ rs) /\ n' <> [] /\ name_ok n'.
Proof.
  intros H. induction H as [n Hn|n e c rs0 n' Ha Hw Hc Hd Hr IH]; intros Hne Hok rs Hrs; [auto|]. cbn [app answer_chain r_class r_type r_name r_data]. change (1 =? 1) with true. change (5 =? 5) with true. cbv iota.
  assert (Hcn : c <> []).
  { remember 5 as five eqn:E5. remember (wire c) as wc eqn:Ec. remember (e_data e) as d eqn:Ed. destruct Hw as [ty d X|ty c0 X0 X1 X2 X3|]; [cbn in X; lia| |discriminate]. intros ->. rewrite Hd in Ed. cbn in Hd. destruct c0 as [|l [|l2 c0]]; [congruence| |].
    - inversion X1 as [|? ? [Y _] _]; subst. destruct l; [cbn in Y; lia|]. cbn in Hd. destruct l; discriminate.
    - cbn in Hd. destruct l; [|destruct l; discriminate]. inversion X1 as [|? ? [Y _] _]; subst. cbn in Y. lia. }
  destruct (IH Hcn Hc rs Hrs) as (I1 & I2). split; [|exact I2]. split; [reflexivity|]. split; [exact Hne|]. exists c. split; [exact Hc|]. split; [reflexivity|exact I1].
Qed.
Lemma records_chain n ty vs rs : n <> [] -> Forall2 (record_for n ty) vs rs -> (ty = 5 -> (length vs <= 1)%nat) -> answer_chain n rs.
Proof.
  intros Hn H H5. induction H as [|v r vs rs (R1 & R2 & R3 & R4 & R5) H IH]; [exact I|]. cbn [answer_chain]. rewrite R3. change (1 =? 1) with true. cbv iota. split; [exact R1|]. split; [exact Hn|].
  rewrite R2. destruct (Z.eqb_spec ty 5) as [->|N5]; [|apply IH; congruence]. specialize (H5 eq_refl). cbn [length] in H5. destruct vs; [|cbn in H5; lia]. inversion H; subst.
  remember 5 as five eqn:E5. destruct R5 as [? ? X|? c X0 X1|]; [cbn in X; lia| |discriminate]. exists c. split; [exact X1|]. split; [reflexivity|exact I].
Qed.

(** ** Sizes *)
Lemma concat_ge {A} (f : A -> list Z) l : (forall x, (1 <= length (f x))%nat) -> (length l <= length (concat (map f l)))%nat.
Proof. intros H. induction l as [|x l IH]; [cbn; lia|]. cbn [map concat length]. rewrite app_length. specialize (H x). lia. Qed.
Lemma enc_item_pos x : (1 <= length (enc_item x))%nat.
Proof. destruct x as [q|p r]; cbn [enc_item]; [unfold enc_q|unfold enc_rr]; rewrite !app_length, !be16_length; lia. Qed.
Lemma items_bytes g : length (m_idflags g) = 4%nat -> (12 + length (items_of g) <= length (enc_msg g))%nat.
Proof. intros H. rewrite enc_msg_items, app_length, header_length by exact H. pose proof (concat_ge enc_item (items_of g) enc_item_pos). lia. Qed.
Lemma items_length g : length (items_of g) = (length (m_qs g) + length (m_an g) + length (m_ns g) + length (m_ar g))%nat.
Proof. unfold items_of. rewrite !app_length, !map_length. lia. Qed.
Lemma as_built_small ignore A now n als n' : aliases ignore A now n als n' -> n <> [] -> name_ok n -> (length (concat (map enc_rr (map as_built als))) <= length (concat (map enc_rr als)))%nat.
Proof.
  intros H Hn Ho. destruct (aliases_chain _ _ _ _ _ _ H Hn Ho [] (fun _ _ => I)) as (HC & _). rewrite app_nil_r in HC.
  assert (HF : Forall (fun r => exists n, r_name r = plain n /\ n <> [] /\ name_ok n) als).
  { clear HC. induction H as [|n e c rs0 n' Ha Hw Hc Hd Hr IH]; [constructor|]. constructor; [exists n; auto|]. destruct (aliases_chain _ _ _ _ _ _ (al_step _ _ _ n e c rs0 n' Ha Hw Hc Hd Hr) Hn Ho [] (fun _ _ => I)) as (HC & _).
    apply IH; [|exact Hc]. intros ->. inversion Hw as [? ? X| ? c0 X0 X1 X2 X3 X4 X5|]; subst; [cbn in X; intuition discriminate|].
    destruct c0 as [|l c0]; [congruence|]. cbn [wire] in X5. inversion X1 as [|? ? [Y _] _]; subst. destruct l; [cbn in Y; lia|discriminate]. }
  clear - HF. induction HF as [|r als (n & E & Hn & Ho) HF IH]; [cbn; lia|]. cbn [map concat]. rewrite !app_length.
  assert (Hl : forall r, length (enc_rr r) = (length (enc_name (r_name r)) + 10 + length (r_data r))%nat) by (intros; unfold enc_rr; rewrite !app_length, !be16_length, be32_length; lia).
  rewrite !Hl. rewrite E. change (r_name (as_built r)) with (plain [[97]]). change (r_data (as_built r)) with (r_data r). rewrite !enc_labels_wire. pose proof (wire_nonempty n Hn Ho). change (length (wire [[97]])) with 3%nat. lia.
Qed.
