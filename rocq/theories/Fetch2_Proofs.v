(** Answering a query from the cache: the whole of it. *)
From Verif Require Import Base BaseFacts ListFacts Name_Model Name_Spec Name_Proofs Hash_Model Cht_Model Cache_Model Cache_Spec Cache2_Proofs Cache4_Proofs Cache_Props Alias_Spec Alias_Proofs Alias_Props
  Parser_Model Parser_Spec Parser_Proofs Parser_Walk Gen_Model Gen_Spec Gen_Proofs Compress_Spec Compress_Proofs Gen2_Proofs Gen_Props Iheader_Spec Iheader_Proofs Addr2_Proofs Fetch_Model Fetch_Spec Fetch_Proofs.
Require Import ZifyBool ZifyNat.

Lemma init_rest fuel b src len strip g : gen_init_copy fuel b src len strip = Ret (Some g) -> (12 <= g_itr g)%nat -> rest g = skipn (g_itr g) b.
Proof.
  unfold gen_init_copy. destruct (rd16 src 4) as [v1| | |]; try discriminate. cbn [bind]. destruct (rd16 src 6) as [v2| | |]; try discriminate. cbn [bind].
  destruct (rd16 src 8) as [v3| | |]; try discriminate. cbn [bind]. destruct (rd16 src 10) as [v4| | |]; try discriminate. cbn [bind]. cbv zeta.
  destruct (if strip then striped_length fuel src len else Ret (Z.of_nat len)) as [sl| | |]; try discriminate. cbn [bind].
  destruct (sl <? 0); [discriminate|]. destruct (rdn src 0 (Z.to_nat sl)) as [bytes| | |] eqn:Er; try discriminate. cbn [bind].
  destruct (bwrite b 0 bytes) as [b1| | |] eqn:E1; try discriminate. cbn [bind].
  assert (Hl : length bytes = Z.to_nat sl) by (unfold rdn in Er; destruct (slice src 0 (Z.to_nat sl)) eqn:Es; [|discriminate]; apply slice_length in Es; congruence).
  apply bwrite_inv in E1. destruct E1 as (L1 & -> & _). cbn [firstn app Nat.add] in *. destruct strip.
  - destruct (bwrite (bytes ++ skipn (length bytes) b) 8 [0; 0; 0; 0]) as [b2| | |] eqn:E2; try discriminate. cbn [bind]. intros H Hi. assert (g_itr g = Z.to_nat sl /\ g_buf g = b2) as (H1 & H2) by (injection H as <-; split; reflexivity). clear H.
    apply bwrite_inv in E2. destruct E2 as (L2 & E2 & _). unfold rest. rewrite H1, H2, E2 in *. rewrite app_assoc, skipn_app, skipn_all2 by (rewrite app_length, firstn_length; cbn [length]; lia).
    rewrite app_length, firstn_length, skipn_skipn'. cbn [length app Nat.add]. replace (Nat.min 8 _) with 8%nat by lia. rewrite <- Hl. match goal with |- skipn ?k _ = _ => replace k with (length bytes) by lia end. rewrite skipn_app, skipn_all, Nat.sub_diag. reflexivity.
  - cbn [bind]. intros H Hi. injection H as <-. unfold rest. cbn [g_itr g_buf]. rewrite <- Hl. rewrite skipn_app, skipn_all, Nat.sub_diag. reflexivity.
Qed.

Section Question.
Context (raw : list Z -> list cnode -> nat -> Z) (ignore : bool) (stack : list Z).
Lemma question_read q q0 qs ql : good_msg q -> m_qs q = q0 :: qs -> q_name q0 = plain ql -> name_ok ql -> (length (dotted ql) <= 253)%nat -> length stack = 254%nat ->
  exists f0, forall nf fuel c post now g, (f0 <= nf)%nat -> Forall is_byte post ->
    get_by_question raw ignore nf stack fuel c (enc_msg q ++ post) (length (enc_msg q)) now g =
    if negb (q_class q0 =? 1) || negb (valid_type (q_type q0)) then Ret (-4, g) else by_question raw ignore fuel c (dotted ql) (q_type q0) (q_class q0) now g.
Proof.
  intros Hg Hq Hn Ho Hl Hs. assert (Hne : m_qs q <> []) by (rewrite Hq; discriminate).
  assert (Hi : items_of q = IQ q0 :: (map IQ qs ++ map (IR P_answer) (m_an q) ++ map (IR P_nameserver) (m_ns q) ++ map (IR P_additional) (m_ar q))) by (unfold items_of; rewrite Hq; reflexivity).
  pose proof Hg as (Hid & _).
  assert (HD : exists w, denotes 63 (enc_msg q) 12 ql w).
  { destruct (denotes_plain ql (header q) (be16 (q_type q0) ++ be16 (q_class q0) ++ concat (map enc_item (map IQ qs ++ map (IR P_answer) (m_an q) ++ map (IR P_nameserver) (m_ns q) ++ map (IR P_additional) (m_ar q))))) as [w Hw]; [now apply name_ok_good|].
    exists w. rewrite header_length in Hw by exact Hid. rewrite enc_msg_items, Hi. cbn [map concat enc_item]. unfold enc_q. rewrite Hn, <- !app_assoc. exact Hw. }
  destruct HD as (w & HD). destruct (get_host_name_complete 63 _ _ _ _ ltac:(lia) HD) as (f0 & HC). exists f0. intros nf fuel c post now g Hf Hp.
  destruct (iter_init_start q post P_unknown 0 0 0 Hg Hp Hne) as (i & HI & HS).
  destruct (at_first q post i (Z.of_nat (length (enc_msg q))) _ _ Hg HS ltac:(lia) Hi) as (i1 & HN & HA & _).
  unfold get_by_question. rewrite HI. cbn [bind]. rewrite HN. cbn [bind]. rewrite (at_purpose _ _ _ _ _ _ _ HA). cbn [item_purpose purpose_eqb negb].
  destruct (at_view _ _ _ _ _ _ _ HA) as (Ht & Hk). cbn [view_item v_type v_class] in Ht, Hk. rewrite Ht, Hk.
  destruct (negb (q_class q0 =? 1) || negb (valid_type (q_type q0))); [reflexivity|].
  unfold get_host_name in *. rewrite (name_loop_app _ post _ _ _ _ _ _ _ _ _ (HC nf stack Hf ltac:(unfold text_space; lia))). cbn [bind]. rewrite cstr_app by now apply dotted_nonzero. reflexivity.
Qed.
End Question.

(** ** The records are good *)
Section Good.
Context (ignore : bool) (A : list entry) (now : Z) (Httl : forall e, In e A -> fresh ignore now e = true -> 0 <= remaining ignore now e < 4294967296).
Lemma wire_short ty d c : wire_data ty d (wire c) -> d = dotted c ++ [0] -> ty = 5 -> name_ok c -> Z.of_nat (length (wire c)) < 65536.
Proof.
  intros Hw Hd H5 Hc. assert (Hl : (length d <= 254)%nat).
  { remember (wire c) as wc eqn:Ec. destruct Hw as [ty d X|ty c0 X0 X1 X2 X3|]; [cbn in X; lia| |discriminate]. rewrite app_length. cbn [length]. lia. }
  rewrite (wire_len c Hc). pose proof (label_length_le (dotted c)). rewrite Hd, app_length in Hl. cbn [length] in Hl. lia.
Qed.
Lemma aliases_good n als n' : aliases ignore A now n als n' -> name_ok n -> Forall good_rr als /\ Forall good_rr (map as_built als).
Proof.
  intros H. induction H as [n Hn|n e c rs n' Ha Hw Hc Hd Hr IH]; intros Ho; [split; constructor|]. destruct (IH Hc) as (G1 & G2).
  destruct (alias_in ignore A now _ _ Ha) as (I1 & _ & I3). pose proof (Httl e I1 I3) as HT. pose proof (wire_short 5 _ c Hw Hd eq_refl Hc) as HW.
  cbn [map]. split; constructor; try assumption.
  - apply (sop_rr_good (SCName n c (remaining ignore now e))); [|reflexivity]. cbn [sop_ok]. auto.
  - apply (sop_rr_good (SCName [[97]] c (remaining ignore now e))); [|reflexivity]. cbn [sop_ok]. pose proof name_ok_a. auto.
Qed.
Lemma aliases_class n als n' : aliases ignore A now n als n' -> Forall (fun r => Parser_Spec.r_class r = 1) als.
Proof. intros H. induction H; constructor; auto. Qed.
Lemma records_good n ty vs rs : name_ok n -> Forall2 (record_for n ty) vs rs ->
  (forall v, In v vs -> 0 <= snd v < 4294967296 /\ fst v <> [] /\ (length (fst v) < 512)%nat) -> Forall good_rr rs.
Proof.
  intros Hn HF Hv. induction HF as [|v r vs rs (R1 & R2 & R3 & R4 & R5) HF IH]; constructor; [|apply IH; intros; apply Hv; now right].
  destruct v as [d t]. destruct (Hv (d, t) (or_introl eq_refl)) as (V1 & V2 & V3). cbn [fst snd] in *.
  destruct r as [nm ty' kl' ttl' data']. cbn [Parser_Spec.r_name Parser_Spec.r_type Parser_Spec.r_class Parser_Spec.r_ttl Parser_Spec.r_data] in *. subst nm ty' kl' ttl'. inversion R5 as [? ? X1 X2|? c X1 X2 X3 X4 X5|pref c X1 X2 X3]; subst.
  - apply (sop_rr_good (SRaw n ty 1 data' t)); [|reflexivity]. cbn [sop_ok]. split; [exact Hn|]. split; [cbn in X1; lia|]. split; [lia|]. split; [exact V1|]. split; [lia|exact X2].
  - assert (G : good_rr (mk_rr (plain n) 5 1 t (wire c))).
    { apply (sop_rr_good (SCName n c t)); [|reflexivity]. cbn [sop_ok]. split; [exact Hn|]. split; [exact X2|]. split; [exact V1|]. rewrite (wire_len c X2). pose proof (label_length_le (dotted c)). lia. }
    destruct G as (G1 & G2 & G3 & G4 & G5 & G6). split; [exact G1|]. split; [cbn [Parser_Spec.r_type]; cbn in X1; lia|]. auto.
  - apply (sop_rr_good (SMX n pref c t)); [|reflexivity]. cbn [sop_ok]. split; [exact Hn|]. split; [exact X2|]. split; [exact V1|]. split; [exact X1|]. rewrite (wire_len c X2). pose proof (label_length_le (dotted c)). lia.
Qed.
Lemma records_class n ty vs rs : Forall2 (record_for n ty) vs rs -> Forall (fun r => Parser_Spec.r_class r = 1) rs.
Proof. intros H. induction H as [|v r vs rs (R1 & R2 & R3 & _) H IH]; constructor; auto. Qed.
End Good.

Lemma bytes_skipn k (l : list Z) : Forall is_byte l -> Forall is_byte (skipn k l).
Proof. intros H. rewrite <- (firstn_skipn k l) in H. apply Forall_app in H. tauto. Qed.
Lemma built_at g m p : built g (m, p) -> g_itr g = length (enc_msg m) /\ g_buf g = enc_msg m ++ rest g.
Proof.
  intros HB. pose proof (bl_bytes _ _ HB) as E. pose proof (gi_len g (bl_inv _ _ HB)) as HL. cbn [fst] in E. split.
  - rewrite <- E, firstn_length. lia.
  - unfold rest. rewrite <- E. symmetry. apply firstn_skipn.
Qed.
Lemma built_additional fuel g m : built g (m, P_answer) -> (4 <= fuel)%nat -> exists g', to_additional fuel g = Ret g' /\ built g' (m, P_additional) /\ g_buf g' = g_buf g /\ rest g' = rest g.
Proof.
  intros HB Hf. destruct (to_additional_ok fuel g _ HB Hf) as (g1 & HE1 & Hb1 & Hi1 & Hn1); [auto|]. exists g1. split; [exact HE1|].
  split; [|split; [exact Hb1|unfold rest; congruence]]. destruct HB as [HI Hn Hid Hby Hla]. destruct HI as [HI1 HI2]. constructor; cbn [fst snd] in *; auto.
  - constructor; [rewrite Hb1, Hi1; exact HI1|rewrite Hn1; unfold num_ok; auto].
  - rewrite Hb1, Hi1. exact Hby.
  - exact I.
Qed.
(** ** The answer *)
Lemma enc_msg_length g : length (m_idflags g) = 4%nat ->
  length (enc_msg g) = (12 + length (concat (map enc_q (m_qs g))) + length (concat (map enc_rr (m_an g))) + length (concat (map enc_rr (m_ns g))) + length (concat (map enc_rr (m_ar g))))%nat.
Proof.
  intros H. rewrite enc_msg_items, app_length, header_length by exact H. unfold items_of. rewrite !map_app, !concat_app, !app_length, !map_map.
  change (fun x : question => enc_item (IQ x)) with enc_q. change (fun x : rr => enc_item (IR P_answer x)) with enc_rr. change (fun x : rr => enc_item (IR P_nameserver x)) with enc_rr.
  change (fun x : rr => enc_item (IR P_additional x)) with enc_rr. lia.
Qed.
Section Core.
Context (raw : list Z -> list cnode -> nat -> Z) (ignore : bool) (c : cache) (A : list entry) (now : Z).
Context (Httl : forall e, In e A -> fresh ignore now e = true -> 0 <= remaining ignore now e < 4294967296)
  (Hdata : forall name ty v, In v (a_lookup ignore A name ty 1 now) -> 0 <= snd v < 4294967296 /\ fst v <> [] /\ (length (fst v) < 512)%nat)
  (Hby : forall fuel name ty g, ~ In 0 name -> (length name <= 253)%nat -> started g -> (length (g_buf g) <= fuel)%nat -> In ty [1; 2; 5; 12; 15; 16; 28; 65] ->
     exists e name' g', (ty = 5 -> e = 0 /\ name' = name /\ g' = g) /\ (ty <> 5 -> follow ignore A now name g e name' g') /\ started g' /\ length (g_buf g') = length (g_buf g) /\
       by_question raw ignore fuel c name ty 1 now g =
         if e =? 0 then let! y := serve name' ty 1 (a_lookup ignore A name' ty 1 now) (-100) g' in Ret (if fst y =? 0 then 0 else -6, snd y)
         else Ret (e, g')).

Lemma answers_built ql ty als rs g m fuel : answers ignore A now ql ty als rs -> name_ok ql -> ql <> [] -> (length (dotted ql) <= 253)%nat -> In ty [1; 28; 65; 16; 15; 5] ->
  built g (m, P_answer) -> (length (g_buf g) <= fuel)%nat -> (length (concat (map enc_rr (als ++ rs))) <= length (rest g))%nat ->
  exists g', by_question raw ignore fuel c (dotted ql) ty 1 now g = Ret (match rs with [] => -6 | _ => 0 end, g') /\
    built g' (answers_added m (map as_built als ++ rs), P_answer) /\ length (g_buf g') = length (g_buf g) /\
    exists k, (k <= length (concat (map enc_rr (als ++ rs))))%nat /\ rest g' = skipn k (rest g).
Proof.
  intros (n' & Hal & HF) Ho Hne Hl Hty HB Hf Hr. rewrite map_app, concat_app, app_length in Hr.
  assert (HS : started g).
  { pose proof (bl_inv _ _ HB) as HI. split; [apply (gi_len g HI)|]. rewrite (bl_num _ _ HB). cbn. auto. }
  assert (Hnz : ~ In 0 (dotted ql)) by (pose proof (dotted_nonzero ql Ho) as HZ; rewrite Forall_forall in HZ; intros X; exact (HZ 0 X eq_refl)).
  destruct (Hby fuel (dotted ql) ty g Hnz Hl HS Hf) as (e & name' & g1 & H5 & HN & _ & Hb1 & EB); [cbn [In] in *; lia|].
  assert (H12 : ~ In ty [2; 12]) by (cbn [In] in *; lia).
  assert (HX : e = 0 /\ name' = dotted n' /\ name_ok n' /\ built g1 (answers_added m (map as_built als), P_answer) /\
     rest g1 = skipn (length (concat (map enc_rr (map as_built als)))) (rest g) /\ (length (concat (map enc_rr (map as_built als))) <= length (concat (map enc_rr als)))%nat).
  { destruct (Z.eqb_spec ty 5) as [E5|N5].
    - destruct Hal as (-> & ->). destruct (H5 E5) as (-> & -> & ->). cbn [map concat length skipn]. rewrite answers_added_nil. do 5 (split; [auto|]). lia.
    - pose proof (as_built_small _ _ _ _ _ _ Hal Hne Ho) as Hsm.
      destruct (follow_aliases ignore A now Httl ql als n' Hal g m e name' g1 HB ltac:(lia) (HN N5)) as (C0 & C1 & C2 & C3 & C4).
      destruct (aliases_chain _ _ _ _ _ _ Hal Hne Ho [] (fun _ _ => I)) as (_ & _ & Hn'). auto 8. }
  destruct HX as (-> & -> & Hn' & B1 & R1 & Hsm). rewrite EB. change (0 =? 0) with true. cbv iota.
  destruct (serve_records n' ty _ rs Hn' HF H12 (fun v => Hdata (dotted n') ty v) g1 _ (-100) B1) as (g2 & E2 & B2 & L2 & R2).
  { rewrite R1, skipn_length. lia. }
  rewrite E2. cbn [bind fst snd]. exists g2. split.
  { destruct HF; reflexivity. }
  split.
  { unfold answers_added in *. cbn [m_idflags m_qs m_an m_ns m_ar] in B2. rewrite app_assoc. exact B2. }
  split; [congruence|]. exists (length (concat (map enc_rr (map as_built als))) + length (concat (map enc_rr rs)))%nat.
  rewrite map_app, concat_app, app_length. split; [lia|]. rewrite R2, R1, skipn_skipn'. f_equal; lia.
Qed.

Lemma fetch_answers q q0 qs ql stack : good_msg q -> m_qs q = q0 :: qs -> q_name q0 = plain ql -> name_ok ql -> ql <> [] -> (length (dotted ql) <= 253)%nat ->
  m_an q = [] -> q_class q0 = 1 -> In (q_type q0) [1; 28; 65; 16; 15; 5] -> length stack = 254%nat ->
  exists f0, forall nf fuel post edns sent als rs, (f0 <= nf)%nat -> (length (enc_msg q ++ post) <= fuel)%nat -> Forall is_byte post ->
    Z.of_nat (length post) <= 16384 -> answers ignore A now ql (q_type q0) als rs -> (q_type q0 = 5 -> (length rs <= 1)%nat) ->
    (length (enc_msg (full_reply q edns (als ++ rs))) <= length post)%nat ->
    (rs = [] -> exists mem', fetch raw ignore nf stack fuel c (enc_msg q ++ post) (length (enc_msg q)) edns now sent = Ret (-3, enc_msg q ++ mem', length (enc_msg q)) /\ length mem' = length post) /\
    (rs <> [] -> exists a mem', fetch raw ignore nf stack fuel c (enc_msg q ++ post) (length (enc_msg q)) edns now sent = Ret (if sent then 0 else -861, enc_msg a ++ mem', length (enc_msg a)) /\
       length (enc_msg a ++ mem') = length (enc_msg q ++ post) /\ is_reply q edns (als ++ rs) a).
Proof.
  intros Hg Hq Hqn Ho Hne Hl Han Hk Hty Hs. assert (Hqs : m_qs q <> []) by (rewrite Hq; discriminate).
  destruct (question_read raw ignore stack q q0 qs ql Hg Hq Hqn Ho Hl Hs) as (f0 & HQ). exists f0.
  intros nf fuel post edns sent als rs Hf0 Hfu Hp H14 HA H5 Hfit. pose proof Hg as (Hid & Hidb & Hgq & Hga & Hgn & Hgr & Lq & La & Ln & Lr).
  rewrite enc_msg_length in Hfit by exact Hid. cbn [full_reply m_qs m_an m_ns m_ar map concat length m_idflags] in Hfit.
  pose proof (items_bytes q Hid) as Hib. rewrite app_length in Hfu.
  assert (Hst : length (enc_msg (stripped q)) = (12 + length (concat (map enc_q (m_qs q))))%nat).
  { rewrite enc_msg_length by exact Hid. unfold stripped. cbn [m_qs m_an m_ns m_ar map concat length]. rewrite Han. cbn [map concat length]. lia. }
  destruct (init_copy_strip fuel post q post Hg Hqs Hp ltac:(lia) ltac:(lia)) as (g0 & E0 & B0 & L0 & I0).
  pose proof (init_rest _ _ _ _ _ _ E0 ltac:(lia)) as R0. rewrite I0 in R0.
  assert (Hls : last_section (stripped q) = P_question) by (unfold last_section, stripped; cbn [m_ar m_ns m_an]; rewrite Han; reflexivity). rewrite Hls in B0.
  assert (B1 : built (next_purpose g0) (stripped q, P_answer)) by (apply (built_step SNext g0 _ 0 _ B0 I); [reflexivity|lia]).
  assert (Hbuf : g_buf (next_purpose g0) = g_buf g0 /\ g_itr (next_purpose g0) = g_itr g0) by (unfold next_purpose; destruct (cur_purpose g0); auto). destruct Hbuf as (Hbuf & Hitr).
  assert (Hrest : rest (next_purpose g0) = skipn (length (enc_msg (stripped q))) post) by (rewrite <- R0; unfold rest; rewrite Hbuf, Hitr; reflexivity).
  set (g := next_purpose g0) in *.
  assert (HgB : Forall is_byte (g_buf g)).
  { pose proof (built_buf _ _ B1) as Eb. cbn [fst] in Eb. rewrite Eb. apply Forall_app. split; [apply enc_msg_bytes|].
    - unfold good_msg, stripped. cbn [m_idflags m_qs m_an m_ns m_ar length]. repeat split; auto; lia.
    - fold (rest g). rewrite Hrest. now apply bytes_skipn. }
  assert (Hlp : parser_init (length (enc_msg q)) false <> None).
  { destruct (parser_init_some (length (enc_msg q)) ltac:(lia)) as (x & Hx). congruence. }
  assert (HfM : firstn (length (enc_msg q)) (enc_msg q ++ post) = enc_msg q) by (rewrite firstn_app, firstn_all, Nat.sub_diag; cbn [firstn]; apply app_nil_r).
  assert (HsM : skipn (length (enc_msg q)) (enc_msg q ++ post) = post) by (rewrite skipn_app, skipn_all, Nat.sub_diag; reflexivity).
  assert (Hlen : (length (concat (map enc_rr (als ++ rs))) <= length (rest g))%nat) by (rewrite Hrest, skipn_length; lia).
  destruct (answers_built ql (q_type q0) als rs g (stripped q) fuel HA Ho Hne Hl Hty B1 ltac:(rewrite Hbuf; lia) Hlen) as (g1 & E1 & BB & L1 & k & Hk1 & R1).
  assert (Hv : negb (q_class q0 =? 1) || negb (valid_type (q_type q0)) = false).
  { rewrite Hk. assert (valid_type (q_type q0) = true) as -> by (apply valid_type_iff; cbn [In] in *; lia). reflexivity. }
  assert (EF : fetch raw ignore nf stack fuel c (enc_msg q ++ post) (length (enc_msg q)) edns now sent =
    if negb (match rs with [] => -6 | _ => 0 end =? 0) then Ret (-3, enc_msg q ++ g_buf g1, length (enc_msg q))
    else let! g2 := answer_flags g1 in
      let! r2 := (if edns then let! ga := to_additional fuel g2 in gen_edns 1280 ga else Ret (0, g2)) in
      let '(e2, g3) := r2 in
      if negb (e2 =? 0) then Ret (-4, enc_msg q ++ g_buf g3, length (enc_msg q))
      else let! r3 := dns_compress fuel (g_buf g3) (g_itr g3) in
        let '(n, b) := r3 in
        if n <? 0 then Ret (-6, enc_msg q ++ b, length (enc_msg q))
        else let! moved := rdn b 0 (Z.to_nat n) in
          let! m2 := bwrite (enc_msg q ++ b) 0 moved in Ret (if sent then 0 else -861, m2, Z.to_nat n)).
  { unfold fetch. destruct (parser_init (length (enc_msg q)) false); [|congruence]. rewrite HsM, E0. cbn [bind]. cbv zeta. fold g. rewrite HfM.
    rewrite (built_purpose _ _ B1). cbn [snd purpose_eqb negb]. rewrite (HQ nf fuel c (g_buf g) now g Hf0 HgB), Hv, Hk, E1. reflexivity. }
  split; intros Hrs.
  { subst rs. change (negb (-6 =? 0)) with true in EF. cbv iota in EF. exists (g_buf g1). split; [exact EF|]. rewrite L1, Hbuf. exact L0. }
  assert (EZ : match rs with [] => -6 | _ => 0 end = 0) by (destruct rs; congruence). rewrite EZ in EF. change (negb (0 =? 0)) with false in EF. cbv iota in EF.
  destruct (flags_built _ _ _ BB) as (i1 & i2 & f2 & f3 & g2 & Ei & E2 & B2 & L2 & R2 & _). cbn [answers_added stripped m_idflags] in Ei. rewrite E2 in EF. cbn [bind] in EF.
  set (h := [i1; i2; Z.lor (Z.land f2 3) 128; Z.lor (Z.land f3 112) 128]) in *.
  set (m3 := mk_msg h (m_qs q) (map as_built als ++ rs) [] (if edns then [opt_record] else [])).
  assert (H11 : length (enc_rr opt_record) = 11%nat) by reflexivity.
  assert (HE : exists g3 p k', (if edns then let! ga := to_additional fuel g2 in gen_edns 1280 ga else Ret (0, g2)) = Ret (0, g3) /\ built g3 (m3, p) /\ length (g_buf g3) = length post /\ rest g3 = skipn k' post).
  { assert (Em : set_header (answers_added (stripped q) (map as_built als ++ rs)) h = mk_msg h (m_qs q) (map as_built als ++ rs) [] []) by (unfold set_header, answers_added, stripped; cbn [m_qs m_an m_ns m_ar]; rewrite Han; reflexivity).
    rewrite Em in B2. unfold m3. destruct edns.
    - destruct (built_additional fuel g2 _ B2 ltac:(lia)) as (ga & EA & BA & LA & RA). rewrite EA. cbn [bind].
      destruct (fit_step (SEDns 1280) opt_record ga _ _ BA ltac:(cbn; lia) eq_refl eq_refl I) as (g3 & E3 & B3 & R3 & L3).
      { rewrite RA, R2, R1, Hrest, !skipn_length. cbn [map concat] in Hfit. rewrite app_length in Hfit. cbn [length] in Hfit. lia. }
      exists g3, P_additional. rewrite RA, R2, R1, Hrest, !skipn_skipn' in R3. eexists. split; [exact E3|]. split; [exact B3|]. split; [congruence|exact R3].
    - exists g2, P_answer. rewrite R1, Hrest, skipn_skipn' in R2. eexists. split; [reflexivity|]. split; [exact B2|]. split; [congruence|exact R2]. }
  destruct HE as (g3 & p & k' & E3 & B3 & L3 & R3). rewrite E3 in EF. cbn [bind] in EF. change (negb (0 =? 0)) with false in EF. cbv iota in EF.
  destruct (built_at _ _ _ B3) as (I3 & Eb3). rewrite Eb3, I3 in EF.
  destruct HA as (n' & Hal & HF).
  assert (HC : answer_chain ql (als ++ rs) /\ n' <> [] /\ name_ok n' /\ Forall good_rr als /\ Forall good_rr (map as_built als) /\ Forall (fun r => Parser_Spec.r_class r = 1) als).
  { assert (HR : n' <> [] -> name_ok n' -> answer_chain n' rs).
    { intros Hn' _. apply (records_chain n' (q_type q0) _ rs Hn' HF). intros E. rewrite (Forall2_length HF). auto. }
    destruct (Z.eqb_spec (q_type q0) 5) as [E5|N5].
    - destruct Hal as (-> & ->). cbn [app map]. repeat split; auto.
    - destruct (aliases_chain _ _ _ _ _ _ Hal Hne Ho rs HR) as (X1 & X2 & X3). destruct (aliases_good ignore A now Httl _ _ _ Hal Ho) as (X4 & X5).
      pose proof (aliases_class _ _ _ _ _ _ Hal). auto 7. }
  destruct HC as (HC & Hn1 & Hn2 & G1 & G2 & G3).
  pose proof (records_good n' (q_type q0) _ rs Hn2 HF (fun v => Hdata _ _ v)) as G4. pose proof (records_class n' _ _ rs HF) as G5.
  pose proof (gi_len g3 (bl_inv _ _ B3)) as HL3. rewrite I3, L3 in HL3.
  assert (HidM : length (m_idflags m3) = 4%nat) by reflexivity. pose proof (items_bytes m3 HidM) as Hib3. rewrite items_length in Hib3.
  assert (Hqb : Forall is_byte h).
  { rewrite Ei in Hidb. inversion Hidb as [|? ? W1 Hidb1]; subst. inversion Hidb1 as [|? ? W2 Hidb2]; subst. inversion Hidb2 as [|? ? W3 Hidb3]; subst. inversion Hidb3 as [|? ? W4 _]; subst.
    assert (Hbit : forall x m, 0 <= m < 128 -> is_byte (Z.lor (Z.land x m) 128)).
    { intros x m0 Hm. unfold is_byte. rewrite <- (Z.mod_small m0 (2 ^ 7)) by (cbn; lia). rewrite <- Z.land_ones by lia. rewrite Z.land_assoc, Z.land_ones by lia.
      pose proof (Z.mod_pos_bound (Z.land x m0) (2 ^ 7) ltac:(cbn; lia)) as Hb. set (y := Z.land x m0 mod 2 ^ 7) in *. assert (0 <= y < 128) by (cbn in Hb; lia).
      assert (Hy : Z.lor y 128 = y + 128).
      { symmetry. rewrite Z.add_nocarry_lxor, Z.lxor_lor; auto; apply Z.bits_inj'; intros i Hi; rewrite Z.land_spec, Z.bits_0;
          (destruct (Z.eq_dec i 7) as [->|N]; [unfold y; rewrite Z.mod_pow2_bits_high by lia; reflexivity|change 128 with (2 ^ 7); rewrite Z.pow2_bits_false by congruence; apply andb_false_r]). }
      lia. }
    unfold h. constructor; [exact W1|]. constructor; [exact W2|]. constructor; [apply Hbit; lia|]. constructor; [apply Hbit; lia|constructor]. }
  assert (Hgm : good_msg m3).
  { unfold good_msg, m3. cbn [m_idflags m_qs m_an m_ns m_ar] in *. split; [reflexivity|]. split; [exact Hqb|]. split; [exact Hgq|]. split; [now apply Forall_app|]. split; [constructor|].
    split; [destruct edns; constructor; [|constructor]; apply (sop_rr_good (SEDns 1280)); [cbn; lia|reflexivity]|]. assert (Hib4 : (length (m_qs m3) + length (m_an m3) <= length post)%nat) by lia. unfold m3 in Hib4. cbn [m_qs m_an] in Hib4. cbn [length]. destruct edns; cbn [length] in *; lia. }
  assert (Hsame : Forall2 same_but_name (m_an m3) (als ++ rs)).
  { cbn [m3 m_an]. apply Forall2_app.
    - clear. induction als as [|r als IH]; constructor; [|exact IH]. destruct r. unfold same_but_name. cbn. auto.
    - clear. induction rs as [|r rs IH]; constructor; [|exact IH]. unfold same_but_name. auto. }
  assert (Hcm : compressible (m_an m3)).
  { cbn [m3 m_an]. unfold compressible. apply Forall_app. split; [|].
    - clear. induction als as [|r als IH]; constructor; [|exact IH]. intros _. destruct r. cbn. lia.
    - eapply chain_compressible; [|exact G4]. apply (records_chain n' (q_type q0) _ rs Hn1 HF). intros E. rewrite (Forall2_length HF). auto. }
  assert (Hcl : Forall (fun r => Parser_Spec.r_class r = 1) (m_an m3)).
  { cbn [m3 m_an]. apply Forall_app. split; [|exact G5]. clear - G3. induction G3; constructor; auto. }
  destruct (compress_reply m3 q0 qs ql (als ++ rs) (rest g3) fuel Hgm Hq Hqn HC) as (an' & post' & HX); auto.
  { now apply Forall_app. } { lia. } { rewrite R3. now apply bytes_skipn. } { lia. } { lia. }
  cbv zeta in HX. set (a := with_answers m3 an') in *. destruct HX as (X1 & X2 & X3 & X4 & X5). rewrite X1 in EF. cbn [bind] in EF.
  assert (Hpos : (Z.of_nat (length (enc_msg a)) <? 0) = false) by lia. rewrite Hpos, Nat2Z.id in EF.
  assert (Erd : rdn (enc_msg a ++ post') 0 (length (enc_msg a)) = Ret (enc_msg a)).
  { unfold rdn. pose proof (slice_app [] (enc_msg a) post') as HSL. cbn [app length] in HSL. rewrite HSL. reflexivity. }
  rewrite Erd in EF. cbn [bind] in EF. rewrite bwrite_ok in EF by (cbn [Nat.add]; rewrite !app_length in *; lia). cbn [bind firstn app Nat.add] in EF.
  exists a, (skipn (length (enc_msg a)) (enc_msg q ++ enc_msg a ++ post')). split; [exact EF|]. split.
  { rewrite <- Eb3 in X2. rewrite !app_length, skipn_length, !app_length in *. lia. }
  unfold is_reply. split; [exact X3|]. split; [rewrite Ei; apply flags_header|]. split; [reflexivity|]. split; [reflexivity|]. split; [reflexivity|]. split; [exact X4|exact X5].
Qed.
End Core.

(** ** Queries that are not answered from the cache *)
Lemma fetch_not_cached raw ignore c now q q0 qs ql stack : good_msg q -> m_qs q = q0 :: qs -> q_name q0 = plain ql -> name_ok ql -> (length (dotted ql) <= 253)%nat -> length stack = 254%nat ->
  m_an q <> [] \/ q_class q0 <> 1 \/ ~ In (q_type q0) [1; 2; 5; 12; 15; 16; 28; 65] ->
  exists f0, forall nf fuel post edns sent, (f0 <= nf)%nat -> (length (enc_msg q ++ post) <= fuel)%nat -> Forall is_byte post -> (length (enc_msg (stripped q)) <= length post)%nat ->
    exists mem', fetch raw ignore nf stack fuel c (enc_msg q ++ post) (length (enc_msg q)) edns now sent = Ret (match m_an q with [] => -3 | _ => -5 end, enc_msg q ++ mem', length (enc_msg q)) /\ length mem' = length post.
Proof.
  intros Hg Hq Hqn Ho Hl Hs Hno. assert (Hqs : m_qs q <> []) by (rewrite Hq; discriminate).
  destruct (question_read raw ignore stack q q0 qs ql Hg Hq Hqn Ho Hl Hs) as (f0 & HQ). exists f0. intros nf fuel post edns sent Hf0 Hfu Hp Hfit.
  pose proof Hg as (Hid & Hidb & Hgq & Hga & Hgn & Hgr & Lq & La & Ln & Lr). pose proof (items_bytes q Hid) as Hib. rewrite app_length in Hfu.
  destruct (init_copy_strip fuel post q post Hg Hqs Hp ltac:(lia) Hfit) as (g0 & E0 & B0 & L0 & I0).
  assert (HX : (12 <= length (enc_msg (stripped q)))%nat) by (rewrite enc_msg_length by exact Hid; lia).
  pose proof (init_rest _ _ _ _ _ _ E0 ltac:(lia)) as R0. rewrite I0 in R0.
  assert (Hbuf : g_buf (next_purpose g0) = g_buf g0) by (unfold next_purpose; destruct (cur_purpose g0); auto).
  assert (HgB : Forall is_byte (g_buf (next_purpose g0))).
  { rewrite Hbuf. destruct (built_at _ _ _ B0) as (_ & ->). apply Forall_app. split; [apply enc_msg_bytes|].
    - unfold good_msg, stripped. cbn [m_idflags m_qs m_an m_ns m_ar length]. repeat split; auto; lia.
    - rewrite R0. now apply bytes_skipn. }
  assert (HfM : firstn (length (enc_msg q)) (enc_msg q ++ post) = enc_msg q) by (rewrite firstn_app, firstn_all, Nat.sub_diag; cbn [firstn]; apply app_nil_r).
  assert (HsM : skipn (length (enc_msg q)) (enc_msg q ++ post) = post) by (rewrite skipn_app, skipn_all, Nat.sub_diag; reflexivity).
  destruct (parser_init_some (length (enc_msg q)) ltac:(lia)) as (x & Hx).
  exists (g_buf g0). split; [|exact L0]. unfold fetch. rewrite Hx, HsM, E0. cbn [bind]. cbv zeta. rewrite HfM, Hbuf.
  pose proof (built_step SNext g0 _ 0 _ B0 I eq_refl ltac:(lia)) as B1. cbn [spec_step] in B1. destruct (m_an q) as [|r rs] eqn:Han.
  - assert (Hls : last_section (stripped q) = P_question) by (unfold last_section, stripped; cbn [m_ar m_ns m_an]; rewrite Han; reflexivity). rewrite Hls in B1.
    rewrite (built_purpose _ _ B1). cbn [snd spec_next purpose_eqb negb]. rewrite <- Hbuf. rewrite (HQ nf fuel c _ now _ Hf0 HgB).
    assert (Hv : negb (q_class q0 =? 1) || negb (valid_type (q_type q0)) = true).
    { destruct Hno as [Hno|[Hno|Hno]]; [congruence|lia|]. rewrite <- valid_type_iff in Hno. destruct (valid_type (q_type q0)); [congruence|]. apply orb_true_r. }
    rewrite Hv. cbn [bind]. change (negb (-4 =? 0)) with true. cbv iota. reflexivity.
  - assert (Hls : last_section (stripped q) = P_answer) by (unfold last_section, stripped; cbn [m_ar m_ns m_an]; rewrite Han; reflexivity). rewrite Hls in B1.
    rewrite (built_purpose _ _ B1). cbn [snd spec_next purpose_eqb negb]. reflexivity.
Qed.
