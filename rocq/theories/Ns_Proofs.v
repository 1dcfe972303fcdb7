(** Questions for name servers, for the names of addresses and for aliases, answered from the cache. *)
From Verif Require Import Base BaseFacts ListFacts Name_Model Name_Spec Name_Proofs Hash_Model Cht_Model Cache_Model Cache_Spec Cache2_Proofs Cache4_Proofs Cache_Props Alias_Spec Alias_Proofs Alias_Props
  Parser_Model Parser_Spec Parser_Proofs Parser_Walk Gen_Model Gen_Spec Gen_Proofs Compress_Spec Compress_Proofs Gen2_Proofs Gen_Props Iheader_Spec Iheader_Proofs Addr2_Proofs Fetch_Model Fetch_Spec Fetch_Proofs Fetch2_Proofs Ns_Spec.
Require Import ZifyBool ZifyNat.

Lemma generate_as_alias name ty kl d t g : In ty [2; 5; 12] -> gen_generate name ty kl d t g = gen_generate name 5 kl d t g.
Proof. intros [<-|[<-|[<-|[]]]]; reflexivity. Qed.
Lemma serve_as_alias name ty vs : In ty [2; 5; 12] -> forall ret g, serve name ty 1 vs ret g = serve name 5 1 vs ret g.
Proof.
  intros Hty. induction vs as [|[d t] vs IH]; intros ret g; cbn [serve]; [reflexivity|]. rewrite (generate_as_alias name ty 1 d t g Hty).
  destruct (gen_generate name 5 1 d t g) as [[e g']| | |]; cbn [bind]; try reflexivity. destruct (e =? 0); [apply IH|reflexivity].
Qed.
Lemma hosts_records n vs hs : Forall2 stored_host vs hs -> Forall2 (record_for n 5) vs (map (alias_to n) hs).
Proof.
  intros H. induction H as [|[d t] [c t'] vs hs (H1 & H2 & H3 & H4 & H5) H IH]; cbn [map]; constructor; [|exact IH]. cbn [fst snd] in *. subst d t'.
  unfold record_for, alias_to. cbn [Parser_Spec.r_name Parser_Spec.r_type Parser_Spec.r_class Parser_Spec.r_ttl Parser_Spec.r_data fst snd]. repeat split. apply wd_name; auto. cbn; auto.
Qed.
Lemma chained_chain vs hs : Forall2 stored_host vs hs -> forall n, n <> [] -> answer_chain n (chained n hs).
Proof.
  intros H. induction H as [|v h vs hs (H1 & H2 & H3 & H4 & H5) H IH]; intros n Hn; cbn [chained answer_chain]; [exact I|].
  unfold alias_to at 1 2 3 4. cbn [Parser_Spec.r_class Parser_Spec.r_type Parser_Spec.r_name Parser_Spec.r_data]. change (1 =? 1) with true. change (5 =? 5) with true. cbv iota. split; [reflexivity|]. split; [exact Hn|].
  exists (fst h). split; [exact H3|]. split; [reflexivity|]. now apply IH.
Qed.
Lemma chained_good vs hs : Forall2 stored_host vs hs -> (forall v, In v vs -> 0 <= snd v < 4294967296 /\ fst v <> [] /\ (length (fst v) < 512)%nat) -> forall n, name_ok n -> Forall good_rr (chained n hs).
Proof.
  intros H. induction H as [|v h vs hs (H1 & H2 & H3 & H4 & H5) H IH]; intros Hv n Hn; cbn [chained]; constructor; [|apply IH; [intros x Hx; apply Hv; now right|exact H3]].
  destruct (Hv v (or_introl eq_refl)) as (V1 & _). rewrite H2 in V1. apply (sop_rr_good (SCName n (fst h) (snd h))); [|reflexivity]. cbn [sop_ok]. split; [exact Hn|]. split; [exact H3|]. split; [exact V1|].
  rewrite (wire_len _ H3). pose proof (label_length_le (dotted (fst h))). lia.
Qed.
Lemma chained_same n0 hs : forall n, Forall2 same_but_name (map (alias_to n0) hs) (chained n hs).
Proof. induction hs as [|h hs IH]; intros n; cbn [map chained]; constructor; [|apply IH]. unfold same_but_name. auto. Qed.
Lemma aliases_compressible n hs : n <> [] -> compressible (map (alias_to n) hs).
Proof.
  intros Hn. apply Forall_forall. intros r Hr _. apply in_map_iff in Hr. destruct Hr as (h & <- & _). unfold alias_to. cbn [Parser_Spec.r_name]. destruct n as [|l ls]; [congruence|].
  unfold enc_name, plain. cbn [en_labels en_tail enc_labels]. rewrite app_length. cbn. lia.
Qed.

Section Core.
Context (raw : list Z -> list cnode -> nat -> Z) (ignore : bool) (c : cache) (A : list entry) (now : Z).
Context (Httl : forall e, In e A -> fresh ignore now e = true -> 0 <= remaining ignore now e < 4294967296)
  (Hdata : forall name ty v, In v (a_lookup ignore A name ty 1 now) -> 0 <= snd v < 4294967296 /\ fst v <> [] /\ (length (fst v) < 512)%nat)
  (Hby : forall fuel name ty g, ~ In 0 name -> (length name <= 253)%nat -> started g -> (length (g_buf g) <= fuel)%nat -> In ty [1; 2; 5; 12; 15; 16; 28; 65] ->
     exists e name' g', (ty = 5 -> e = 0 /\ name' = name /\ g' = g) /\ (ty <> 5 -> follow ignore A now name g e name' g') /\ started g' /\ length (g_buf g') = length (g_buf g) /\
       by_question raw ignore fuel c name ty 1 now g =
         if e =? 0 then let! y := serve name' ty 1 (a_lookup ignore A name' ty 1 now) (-100) g' in Ret (if fst y =? 0 then 0 else -6, snd y)
         else Ret (e, g')).

Lemma hosts_built ql ty als n' hs g m fuel : let rs := map (alias_to n') hs in hosts_for ignore A now ql ty als n' hs -> name_ok ql -> ql <> [] -> (length (dotted ql) <= 253)%nat -> In ty [2; 5; 12] ->
  built g (m, P_answer) -> (length (g_buf g) <= fuel)%nat -> (length (concat (map enc_rr (als ++ rs))) <= length (rest g))%nat ->
  exists g', by_question raw ignore fuel c (dotted ql) ty 1 now g = Ret (match rs with [] => -6 | _ => 0 end, g') /\
    built g' (answers_added m (map as_built als ++ rs), P_answer) /\ length (g_buf g') = length (g_buf g) /\
    exists k, (k <= length (concat (map enc_rr (als ++ rs))))%nat /\ rest g' = skipn k (rest g).
Proof.
  intros rs (Hal & HF0) Ho Hne Hl Hty HB Hf Hr. pose proof (hosts_records n' _ hs HF0) as HF. fold rs in HF. rewrite map_app, concat_app, app_length in Hr.
  assert (HS : started g).
  { pose proof (bl_inv _ _ HB) as HI. split; [apply (gi_len g HI)|]. rewrite (bl_num _ _ HB). cbn. auto. }
  assert (Hnz : ~ In 0 (dotted ql)) by (pose proof (dotted_nonzero ql Ho) as HZ; rewrite Forall_forall in HZ; intros X; exact (HZ 0 X eq_refl)).
  destruct (Hby fuel (dotted ql) ty g Hnz Hl HS Hf) as (e & name' & g1 & H5 & HN & _ & Hb1 & EB); [cbn [In] in *; lia|].
  assert (HX : e = 0 /\ name' = dotted n' /\ name_ok n' /\ built g1 (answers_added m (map as_built als), P_answer) /\
     rest g1 = skipn (length (concat (map enc_rr (map as_built als)))) (rest g) /\ (length (concat (map enc_rr (map as_built als))) <= length (concat (map enc_rr als)))%nat).
  { destruct (Z.eqb_spec ty 5) as [E5|N5].
    - destruct Hal as (-> & ->). destruct (H5 E5) as (-> & -> & ->). cbn [map concat length skipn]. rewrite answers_added_nil. do 5 (split; [auto|]). lia.
    - pose proof (as_built_small _ _ _ _ _ _ Hal Hne Ho) as Hsm.
      destruct (follow_aliases ignore A now Httl ql als n' Hal g m e name' g1 HB ltac:(lia) (HN N5)) as (C0 & C1 & C2 & C3 & C4).
      destruct (aliases_chain _ _ _ _ _ _ Hal Hne Ho [] (fun _ _ => I)) as (_ & _ & Hn'). auto 8. }
  destruct HX as (-> & -> & Hn' & B1 & R1 & Hsm). rewrite EB. change (0 =? 0) with true. cbv iota.
  rewrite (serve_as_alias _ ty _ Hty). destruct (serve_records n' 5 _ rs Hn' HF ltac:(cbn; lia) (fun v => Hdata (dotted n') ty v) g1 _ (-100) B1) as (g2 & E2 & B2 & L2 & R2).
  { rewrite R1, skipn_length. lia. }
  rewrite E2. cbn [bind fst snd]. exists g2. split.
  { destruct HF; reflexivity. }
  split.
  { unfold answers_added in *. cbn [m_idflags m_qs m_an m_ns m_ar] in B2. rewrite app_assoc. exact B2. }
  split; [congruence|]. exists (length (concat (map enc_rr (map as_built als))) + length (concat (map enc_rr rs)))%nat.
  rewrite map_app, concat_app, app_length. split; [lia|]. rewrite R2, R1, skipn_skipn'. f_equal; lia.
Qed.

Lemma fetch_hosts q q0 qs ql stack : good_msg q -> m_qs q = q0 :: qs -> q_name q0 = plain ql -> name_ok ql -> ql <> [] -> (length (dotted ql) <= 253)%nat ->
  m_an q = [] -> q_class q0 = 1 -> In (q_type q0) [2; 5; 12] -> length stack = 254%nat ->
  exists f0, forall nf fuel post edns sent als n' hs, (f0 <= nf)%nat -> (length (enc_msg q ++ post) <= fuel)%nat -> Forall is_byte post ->
    Z.of_nat (length post) <= 16384 -> hosts_for ignore A now ql (q_type q0) als n' hs ->
    (length (enc_msg (full_reply q edns (als ++ map (alias_to n') hs))) <= length post)%nat ->
    (hs = [] -> exists mem', fetch raw ignore nf stack fuel c (enc_msg q ++ post) (length (enc_msg q)) edns now sent = Ret (-3, enc_msg q ++ mem', length (enc_msg q)) /\ length mem' = length post) /\
    (hs <> [] -> exists a mem', fetch raw ignore nf stack fuel c (enc_msg q ++ post) (length (enc_msg q)) edns now sent = Ret (if sent then 0 else -861, enc_msg a ++ mem', length (enc_msg a)) /\
       length (enc_msg a ++ mem') = length (enc_msg q ++ post) /\ is_reply q edns (als ++ chained n' hs) a).
Proof.
  intros Hg Hq Hqn Ho Hne Hl Han Hk Hty Hs. assert (Hqs : m_qs q <> []) by (rewrite Hq; discriminate).
  destruct (question_read raw ignore stack q q0 qs ql Hg Hq Hqn Ho Hl Hs) as (f0 & HQ). exists f0.
  intros nf fuel post edns sent als n' hs Hf0 Hfu Hp H14 HA Hfit. set (rs := map (alias_to n') hs) in *. pose proof Hg as (Hid & Hidb & Hgq & Hga & Hgn & Hgr & Lq & La & Ln & Lr).
  rewrite enc_msg_length in Hfit by exact Hid. cbn [full_reply m_qs m_an m_ns m_ar map concat length m_idflags] in Hfit.
  pose proof (items_bytes q Hid) as Hib. rewrite app_length in Hfu.
  assert (Hst : length (enc_msg (stripped q)) = (12 + length (concat (map enc_q (m_qs q))))%nat).
  { rewrite enc_msg_length by exact Hid. unfold stripped. cbn [m_qs m_an m_ns m_ar map concat length]. rewrite Han. cbn [map concat length]. lia. }
  destruct (init_copy_strip fuel post q post Hg Hqs Hp ltac:(lia) ltac:(lia)) as (g0 & E0 & B0 & L0 & I0).
  pose proof (init_rest _ _ _ _ _ _ E0 ltac:(lia)) as R0. rewrite I0 in R0.
  assert (Hls : last_section (stripped q) = P_question) by (unfold last_section, stripped; cbn [m_ar m_ns m_an]; rewrite Han; reflexivity). rewrite Hls in B0.
  assert (B1 : built (next_purpose g0) (stripped q, P_answer)) by (apply (built_step SNext g0 _ 0 _ B0 I); [reflexivity|lia]).
  assert (Hbuf : g_buf (next_purpose g0) = g_buf g0 /\ g_itr (next_purpose g0) = g_itr g0) by (unfold next_purpose; destruct (cur_purpose g0); auto). destruct Hbuf as (Hbuf & Hitr).
  assert (Hrest : rest (next_purpose g0) = skipn (length (enc_msg (stripped q))) post) by (rewrite <- R0; unfold rest; rewrite Hbuf, Hitr; reflexivity).
  set (g := next_purpose g0) in *.
  assert (HgB : Forall is_byte (g_buf g)).
  { pose proof (built_buf _ _ B1) as Eb. cbn [fst] in Eb. rewrite Eb. apply Forall_app. split; [apply enc_msg_bytes|].
    - unfold good_msg, stripped. cbn [m_idflags m_qs m_an m_ns m_ar length]. repeat split; auto; lia.
    - fold (rest g). rewrite Hrest. now apply bytes_skipn. }
  assert (Hlp : parser_init (length (enc_msg q)) false <> None).
  { destruct (parser_init_some (length (enc_msg q)) ltac:(lia)) as (x & Hx). congruence. }
  assert (HfM : firstn (length (enc_msg q)) (enc_msg q ++ post) = enc_msg q) by (rewrite firstn_app, firstn_all, Nat.sub_diag; cbn [firstn]; apply app_nil_r).
  assert (HsM : skipn (length (enc_msg q)) (enc_msg q ++ post) = post) by (rewrite skipn_app, skipn_all, Nat.sub_diag; reflexivity).
  assert (Hlen : (length (concat (map enc_rr (als ++ rs))) <= length (rest g))%nat) by (rewrite Hrest, skipn_length; lia).
  destruct (hosts_built ql (q_type q0) als n' hs g (stripped q) fuel HA Ho Hne Hl Hty B1 ltac:(rewrite Hbuf; lia) Hlen) as (g1 & E1 & BB & L1 & k & Hk1 & R1). fold rs in E1, BB, Hk1.
  assert (Hv : negb (q_class q0 =? 1) || negb (valid_type (q_type q0)) = false).
  { rewrite Hk. assert (valid_type (q_type q0) = true) as -> by (apply valid_type_iff; cbn [In] in *; lia). reflexivity. }
  assert (EF : fetch raw ignore nf stack fuel c (enc_msg q ++ post) (length (enc_msg q)) edns now sent =
    if negb (match rs with [] => -6 | _ => 0 end =? 0) then Ret (-3, enc_msg q ++ g_buf g1, length (enc_msg q))
    else let! g2 := answer_flags g1 in
      let! r2 := (if edns then let! ga := to_additional fuel g2 in gen_edns 1280 ga else Ret (0, g2)) in
      let '(e2, g3) := r2 in
      if negb (e2 =? 0) then Ret (-4, enc_msg q ++ g_buf g3, length (enc_msg q))
      else let! r3 := dns_compress fuel (g_buf g3) (g_itr g3) in
        let '(n, b) := r3 in
        if n <? 0 then Ret (-6, enc_msg q ++ b, length (enc_msg q))
        else let! moved := rdn b 0 (Z.to_nat n) in
          let! m2 := bwrite (enc_msg q ++ b) 0 moved in Ret (if sent then 0 else -861, m2, Z.to_nat n)).
  { unfold fetch. destruct (parser_init (length (enc_msg q)) false); [|congruence]. rewrite HsM, E0. cbn [bind]. cbv zeta. fold g. rewrite HfM.
    rewrite (built_purpose _ _ B1). cbn [snd purpose_eqb negb]. rewrite (HQ nf fuel c (g_buf g) now g Hf0 HgB), Hv, Hk, E1. reflexivity. }
  split; intros Hrs.
  { assert (Hrs0 : rs = []) by (unfold rs; rewrite Hrs; reflexivity). rewrite Hrs0 in EF. change (negb (-6 =? 0)) with true in EF. cbv iota in EF. exists (g_buf g1). split; [exact EF|]. rewrite L1, Hbuf. exact L0. }
  assert (EZ : match rs with [] => -6 | _ => 0 end = 0) by (unfold rs; destruct hs; [congruence|reflexivity]). rewrite EZ in EF. change (negb (0 =? 0)) with false in EF. cbv iota in EF.
  destruct (flags_built _ _ _ BB) as (i1 & i2 & f2 & f3 & g2 & Ei & E2 & B2 & L2 & R2 & _). cbn [answers_added stripped m_idflags] in Ei. rewrite E2 in EF. cbn [bind] in EF.
  set (h := [i1; i2; Z.lor (Z.land f2 3) 128; Z.lor (Z.land f3 112) 128]) in *.
  set (m3 := mk_msg h (m_qs q) (map as_built als ++ rs) [] (if edns then [opt_record] else [])).
  assert (H11 : length (enc_rr opt_record) = 11%nat) by reflexivity.
  assert (HE : exists g3 p k', (if edns then let! ga := to_additional fuel g2 in gen_edns 1280 ga else Ret (0, g2)) = Ret (0, g3) /\ built g3 (m3, p) /\ length (g_buf g3) = length post /\ rest g3 = skipn k' post).
  { assert (Em : set_header (answers_added (stripped q) (map as_built als ++ rs)) h = mk_msg h (m_qs q) (map as_built als ++ rs) [] []) by (unfold set_header, answers_added, stripped; cbn [m_qs m_an m_ns m_ar]; rewrite Han; reflexivity).
    rewrite Em in B2. unfold m3. destruct edns.
    - destruct (built_additional fuel g2 _ B2 ltac:(lia)) as (ga & EA & BA & LA & RA). rewrite EA. cbn [bind].
      destruct (fit_step (SEDns 1280) opt_record ga _ _ BA ltac:(cbn; lia) eq_refl eq_refl I) as (g3 & E3 & B3 & R3 & L3).
      { rewrite RA, R2, R1, Hrest, !skipn_length. cbn [map concat] in Hfit. rewrite app_length in Hfit. cbn [length] in Hfit. lia. }
      exists g3, P_additional. rewrite RA, R2, R1, Hrest, !skipn_skipn' in R3. eexists. split; [exact E3|]. split; [exact B3|]. split; [congruence|exact R3].
    - exists g2, P_answer. rewrite R1, Hrest, skipn_skipn' in R2. eexists. split; [reflexivity|]. split; [exact B2|]. split; [congruence|exact R2]. }
  destruct HE as (g3 & p & k' & E3 & B3 & L3 & R3). rewrite E3 in EF. cbn [bind] in EF. change (negb (0 =? 0)) with false in EF. cbv iota in EF.
  destruct (built_at _ _ _ B3) as (I3 & Eb3). rewrite Eb3, I3 in EF.
  destruct HA as (Hal & HF0). pose proof (hosts_records n' _ hs HF0) as HF. fold rs in HF.
  assert (HC : answer_chain ql (als ++ chained n' hs) /\ n' <> [] /\ name_ok n' /\ Forall good_rr als /\ Forall good_rr (map as_built als) /\ Forall (fun r => Parser_Spec.r_class r = 1) als).
  { assert (HR : n' <> [] -> name_ok n' -> answer_chain n' (chained n' hs)).
    { intros Hn' _. exact (chained_chain _ hs HF0 n' Hn'). }
    destruct (Z.eqb_spec (q_type q0) 5) as [E5|N5].
    - destruct Hal as (-> & ->). cbn [app map]. repeat split; auto.
    - destruct (aliases_chain _ _ _ _ _ _ Hal Hne Ho _ HR) as (X1 & X2 & X3). destruct (aliases_good ignore A now Httl _ _ _ Hal Ho) as (X4 & X5).
      pose proof (aliases_class _ _ _ _ _ _ Hal). auto 7. }
  destruct HC as (HC & Hn1 & Hn2 & G1 & G2 & G3).
  pose proof (records_good n' 5 _ rs Hn2 HF (fun v => Hdata _ _ v)) as G4. pose proof (chained_good _ hs HF0 (fun v => Hdata _ _ v) n' Hn2) as G6. pose proof (records_class n' _ _ rs HF) as G5.
  pose proof (gi_len g3 (bl_inv _ _ B3)) as HL3. rewrite I3, L3 in HL3.
  assert (HidM : length (m_idflags m3) = 4%nat) by reflexivity. pose proof (items_bytes m3 HidM) as Hib3. rewrite items_length in Hib3.
  assert (Hqb : Forall is_byte h).
  { rewrite Ei in Hidb. inversion Hidb as [|? ? W1 Hidb1]; subst. inversion Hidb1 as [|? ? W2 Hidb2]; subst. inversion Hidb2 as [|? ? W3 Hidb3]; subst. inversion Hidb3 as [|? ? W4 _]; subst.
    assert (Hbit : forall x m, 0 <= m < 128 -> is_byte (Z.lor (Z.land x m) 128)).
    { intros x m0 Hm. unfold is_byte. rewrite <- (Z.mod_small m0 (2 ^ 7)) by (cbn; lia). rewrite <- Z.land_ones by lia. rewrite Z.land_assoc, Z.land_ones by lia.
      pose proof (Z.mod_pos_bound (Z.land x m0) (2 ^ 7) ltac:(cbn; lia)) as Hb. set (y := Z.land x m0 mod 2 ^ 7) in *. assert (0 <= y < 128) by (cbn in Hb; lia).
      assert (Hy : Z.lor y 128 = y + 128).
      { symmetry. rewrite Z.add_nocarry_lxor, Z.lxor_lor; auto; apply Z.bits_inj'; intros i Hi; rewrite Z.land_spec, Z.bits_0;
          (destruct (Z.eq_dec i 7) as [->|N]; [unfold y; rewrite Z.mod_pow2_bits_high by lia; reflexivity|change 128 with (2 ^ 7); rewrite Z.pow2_bits_false by congruence; apply andb_false_r]). }
      lia. }
    unfold h. constructor; [exact W1|]. constructor; [exact W2|]. constructor; [apply Hbit; lia|]. constructor; [apply Hbit; lia|constructor]. }
  assert (Hgm : good_msg m3).
  { unfold good_msg, m3. cbn [m_idflags m_qs m_an m_ns m_ar] in *. split; [reflexivity|]. split; [exact Hqb|]. split; [exact Hgq|]. split; [now apply Forall_app|]. split; [constructor|].
    split; [destruct edns; constructor; [|constructor]; apply (sop_rr_good (SEDns 1280)); [cbn; lia|reflexivity]|]. assert (Hib4 : (length (m_qs m3) + length (m_an m3) <= length post)%nat) by lia. unfold m3 in Hib4. cbn [m_qs m_an] in Hib4. cbn [length]. destruct edns; cbn [length] in *; lia. }
  assert (Hsame : Forall2 same_but_name (m_an m3) (als ++ chained n' hs)).
  { cbn [m3 m_an]. apply Forall2_app.
    - clear. induction als as [|r als IH]; constructor; [|exact IH]. destruct r. unfold same_but_name. cbn. auto.
    - apply chained_same. }
  assert (Hcm : compressible (m_an m3)).
  { cbn [m3 m_an]. unfold compressible. apply Forall_app. split; [|].
    - clear. induction als as [|r als IH]; constructor; [|exact IH]. intros _. destruct r. cbn. lia.
    - apply aliases_compressible. exact Hn1. }
  assert (Hcl : Forall (fun r => Parser_Spec.r_class r = 1) (m_an m3)).
  { cbn [m3 m_an]. apply Forall_app. split; [|exact G5]. clear - G3. induction G3; constructor; auto. }
  destruct (compress_reply m3 q0 qs ql (als ++ chained n' hs) (rest g3) fuel Hgm Hq Hqn HC) as (an' & post' & HX); auto.
  { now apply Forall_app. } { lia. } { rewrite R3. now apply bytes_skipn. } { lia. } { lia. }
  cbv zeta in HX. set (a := with_answers m3 an') in *. destruct HX as (X1 & X2 & X3 & X4 & X5). rewrite X1 in EF. cbn [bind] in EF.
  assert (Hpos : (Z.of_nat (length (enc_msg a)) <? 0) = false) by lia. rewrite Hpos, Nat2Z.id in EF.
  assert (Erd : rdn (enc_msg a ++ post') 0 (length (enc_msg a)) = Ret (enc_msg a)).
  { unfold rdn. pose proof (slice_app [] (enc_msg a) post') as HSL. cbn [app length] in HSL. rewrite HSL. reflexivity. }
  rewrite Erd in EF. cbn [bind] in EF. rewrite bwrite_ok in EF by (cbn [Nat.add]; rewrite !app_length in *; lia). cbn [bind firstn app Nat.add] in EF.
  exists a, (skipn (length (enc_msg a)) (enc_msg q ++ enc_msg a ++ post')). split; [exact EF|]. split.
  { rewrite <- Eb3 in X2. rewrite !app_length, skipn_length, !app_length in *. lia. }
  unfold is_reply. split; [exact X3|]. split; [rewrite Ei; apply flags_header|]. split; [reflexivity|]. split; [reflexivity|]. split; [reflexivity|]. split; [exact X4|exact X5].
Qed.
End Core.
