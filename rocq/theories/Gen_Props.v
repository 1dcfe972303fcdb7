(** Theorems about building messages: C08, C09, C10, C11, C50, C51, C52. *)
From Verif Require Import Base BaseFacts Name_Model Name_Spec Name_Proofs Parser_Model Parser_Spec Parser_Proofs Parser_Walk
  Gen_Model Gen_Spec Gen_Proofs Compress_Spec Compress_Proofs Gen2_Proofs.
Require Import ZifyBool ZifyNat.

(** ** C08 Building a message never writes outside the output buffer *)

(** Any history of calls other than RawData: no write (or read) outside of the buffer, whose size never changes,
    and every call returns. *)
Theorem C08_building_stays_in_buffer_partial : forall b os,
  (12 <= length b)%nat -> (forall n ty kl d t, ~ In (ORaw n ty kl d t) os) ->
  exists g0 codes g, gen_init b = Ret g0 /\ gen_run os g0 = Ret (codes, g) /\
    length codes = length os /\ length (g_buf g) = length b /\ (g_itr g <= length b)%nat.
Proof.
  intros b os Hb HR. destruct (gen_init b) as [g0| | |] eqn:E0.
  2,3,4: unfold gen_init, zero_counts in E0; rewrite bwrite_ok in E0 by (cbn; lia); discriminate.
  destruct (gen_init_built b g0 Hb E0) as [HB HL]. destruct HB as [HI _ _ _ _].
  destruct (gen_run_no_raw os g0 HI HR) as (cs & g & E). destruct (gen_run_inv os g0 cs g HI E) as (HI' & HL' & HC).
  exists g0, cs, g. repeat split; auto; try congruence. destruct HI' as [? _]. lia.
Qed.
Print Assumptions C08_building_stays_in_buffer_partial.

(** RawData, after any history that stayed inside: it stays inside exactly when the whole record fits or one of
    the checked fields before the data does not. *)
Theorem C08_raw_data_partial : forall b os g0 codes g n ty kl d t,
  (12 <= length b)%nat -> gen_init b = Ret g0 -> gen_run os g0 = Ret (codes, g) ->
  d <> [] -> (cur_purpose g = P_answer \/ cur_purpose g = P_nameserver \/ cur_purpose g = P_additional) ->
  let before := Z.of_nat (g_itr g) + label_length n + 10 in
  (gen_step (ORaw n ty kl d t) g = UBW <->
   before <= Z.of_nat (length b) < before + Z.of_nat (length d)).
Proof.
  intros b os g0 codes g n ty kl d t Hb H0 HE Hd Hp before.
  destruct (gen_init_built b g0 Hb H0) as [HB HL]. destruct HB as [HI _ _ _ _].
  destruct (gen_run_inv os g0 codes g HI HE) as (HI' & HL' & _). rewrite <- HL, <- HL'.
  assert (HA : rr_allowed g = true) by (unfold rr_allowed; destruct Hp as [->|[->| ->]]; reflexivity).
  set (pre := name_bytes n ++ be16 ty ++ be16 kl ++ be32 t ++ be16 (Z.of_nat (length d))).
  assert (Hbe : before = Z.of_nat (g_itr g + length pre)).
  { unfold before, pre. rewrite <- name_bytes_length, !app_length, !be16_length, be32_length. lia. }
  assert (Hop : length (op_bytes (ORaw n ty kl d t)) = (length pre + length d)%nat).
  { unfold pre. cbn [op_bytes]. rewrite !app_length. lia. }
  rewrite Hbe. split.
  - intros HU. destruct (raw_fits_dec (ORaw n ty kl d t) g) as [HF|HF].
    + exfalso. destruct (gen_step_cases_fit _ g HI' HF ltac:(discriminate)) as [(_ & H)|[(? & ? & ? & ? & _ & _ & H)|[(_ & _ & _ & H)|(_ & _ & ? & ? & H & _)]]]; congruence.
    + pose proof (raw_misfit n ty kl d t g HI' HF) as HM. cbn zeta in HM. fold pre in HM. cbn [raw_fits] in HF. rewrite Hop in HF.
      destruct HM as [[? ?]|[(_ & ? & _)|[(_ & _ & _ & ? & ? & ? & _)|(_ & _ & ? & _)]]]; [congruence|congruence|congruence|lia].
  - intros Hl.
    assert (HF : ~ raw_fits (ORaw n ty kl d t) g). { cbn [raw_fits]. rewrite Hop. lia. }
    pose proof (raw_misfit n ty kl d t g HI' HF) as HM. cbn zeta in HM. fold pre in HM.
    destruct HM as [[? ?]|[(_ & ? & _)|[(_ & _ & ? & _)|(_ & _ & ? & ?)]]]; [congruence|congruence|lia|assumption].
Qed.
Print Assumptions C08_raw_data_partial.

(** The full statement is false: a TXT record one byte too long. *)
Theorem C08_building_stays_in_buffer_refuted : exists b os g0,
  (12 <= length b)%nat /\ gen_init b = Ret g0 /\ gen_run os g0 = UBW.
Proof.
  exists (repeat 0 30), [ONext; ORaw [97] 16 1 [1;2;3;4;5;6] 60]. eexists.
  split; [cbn; lia|]. split; [reflexivity|]. vm_compute. reflexivity.
Qed.
Print Assumptions C08_building_stays_in_buffer_refuted.

(** Effect of one call after any history: 0 and the record is appended after the bytes built so far, or the
    bytes built so far are untouched. *)
Theorem C08_call_effect : forall b os g0 codes g o c g',
  (12 <= length b)%nat -> gen_init b = Ret g0 -> gen_run os g0 = Ret (codes, g) -> gen_step o g = Ret (c, g') ->
  (c = 0 -> o <> ONext -> exists rec, firstn (g_itr g' - 12) (skipn 12 (g_buf g')) = firstn (g_itr g - 12) (skipn 12 (g_buf g)) ++ rec /\
            rec <> []) /\
  (c <> 0 -> firstn (g_itr g) (g_buf g') = firstn (g_itr g) (g_buf g)) /\
  (c > 0 -> g' = g).
Proof.
  intros b os g0 codes g o c g' Hb H0 HE HS.
  destruct (gen_init_built b g0 Hb H0) as [HB HL]. destruct HB as [HI _ _ _ _].
  destruct (gen_run_inv os g0 codes g HI HE) as (HI' & HL' & _).
  destruct (match o with ONext => true | _ => false end) eqn:EN.
  { destruct o; try discriminate. inversion HS; subst. split; [congruence|]. split; lia. }
  assert (HN : o <> ONext) by (intros ->; discriminate).
  destruct (gen_step_cases o g HI' ltac:(congruence) HN) as [(_ & H)|[(? & ? & ? & ? & _ & _ & H)|[(_ & H10 & Hf & H)|(_ & Hf & c' & g2 & H & HF)]]];
    rewrite HS in H; inversion H; subst; clear H.
  - split; [lia|]. split; auto.
  - split; [lia|]. split; auto.
  - split; [|split; lia]. intros _ _. exists (op_bytes o). split.
    + destruct (append_firstn g (op_bytes o) HI' H10 Hf) as [Hit Hfi].
      destruct HI' as [HL2 Hn].
      assert (E : skipn 12 (firstn (g_itr (gen_append g (op_bytes o))) (g_buf (gen_append g (op_bytes o)))) = skipn 12 (firstn (g_itr g) (g_buf g) ++ op_bytes o)).
      { rewrite Hfi. unfold bump. destruct (get16 _ _) as [v|] eqn:Eg; [|reflexivity].
        apply list_ext. intros j. rewrite !nth_error_skipn. set (l := firstn (g_itr g) (g_buf g) ++ op_bytes o).
        assert (Hl12 : (12 <= length l)%nat) by (unfold l; rewrite app_length, firstn_length; lia).
        assert (HW : write l (g_num g) (be16 (v + 1)) = Some (splice l (g_num g) (be16 (v + 1)))).
        { unfold write. rewrite be16_length. destruct (Nat.leb_spec (g_num g + 2) (length l)); [reflexivity|lia]. }
        eapply nth_error_write_out; [exact HW|]. rewrite be16_length. lia. }
      rewrite !skipn_firstn_comm in E. rewrite E. rewrite skipn_app. rewrite skipn_firstn_comm.
      replace (12 - length (firstn (g_itr g) (g_buf g)))%nat with O by (rewrite firstn_length; lia). reflexivity.
    + clear - HN. destruct o; cbn [op_bytes]; try congruence; intros E; apply (f_equal (@length Z)) in E;
        rewrite !app_length, ?be16_length, ?be32_length in E; cbn [length] in E; lia.
  - destruct HF as (? & _ & _ & _ & Hfi). split; [lia|]. split; [auto|lia].
Qed.
Print Assumptions C08_call_effect.

Example C08_nonvacuous : exists g0 g, gen_init (repeat 7 64) = Ret g0 /\
  gen_run [OQuestion [97;46;98] 1 1; ONext; OA [97;46;98] [1;2;3;4] 60; ORaw [97] 16 1 (repeat 1 60) 5] g0 = UBW /\
  gen_run [OQuestion [97;46;98] 1 1; ONext; OA [97;46;98] [1;2;3;4] 60; ORaw [97] 16 1 [1;2] 5; OA (repeat 98 40) [1;2;3;4] 60] g0
    = Ret ([0;0;0;0;-1], g).
Proof. do 2 eexists. split; [reflexivity|]. split; vm_compute; reflexivity. Qed.

(** ** C09 Header counts equal the number of records built *)
(** All histories, failing calls included.  [spec_run] adds a record for each call that returned 0. *)
Theorem C09_header_counts : forall b ss g0 codes g m p,
  (12 <= length b)%nat -> gen_init b = Ret g0 -> gen_run (map call_of ss) g0 = Ret (codes, g) ->
  spec_run ss codes (spec_init (firstn 4 b)) = (m, p) ->
  get16 (g_buf g) 4 = Some (Z.of_nat (length (m_qs m)) mod 65536) /\
  get16 (g_buf g) 6 = Some (Z.of_nat (length (m_an m)) mod 65536) /\
  get16 (g_buf g) 8 = Some (Z.of_nat (length (m_ns m)) mod 65536) /\
  get16 (g_buf g) 10 = Some (Z.of_nat (length (m_ar m)) mod 65536) /\
  cur_purpose g = p.
Proof.
  intros b ss g0 codes g m p Hb H0 HE HS.
  pose proof (counted_run ss g0 _ codes g (counted_init b g0 Hb H0) HE) as HC. rewrite HS in HC.
  destruct HC as [HI Hn Hh]. cbn [fst snd] in *. destruct HI as [HL _].
  pose proof (split_header (g_buf g) ltac:(lia)) as HSp. rewrite Hh in HSp. unfold counts in HSp.
  assert (H4 : length (firstn 4 (g_buf g)) = 4%nat) by (rewrite firstn_length; lia).
  assert (G : forall a v c i, g_buf g = a ++ be16 v ++ c -> i = length a -> get16 (g_buf g) i = Some (v mod 65536)).
  { intros a v c i E Ei. unfold get16. rewrite (slice_at a (be16 v) c _ i 2 E Ei eq_refl). cbn [option_map]. now rewrite from16_be16. }
  set (f4 := firstn 4 (g_buf g)) in *. set (t := skipn 12 (g_buf g)) in *.
  repeat split.
  - eapply (G f4); [|symmetry; exact H4]. rewrite HSp at 1. rewrite <- !app_assoc. reflexivity.
  - eapply (G (f4 ++ be16 (Z.of_nat (length (m_qs m))))); [|rewrite app_length, H4; reflexivity]. rewrite HSp at 1. rewrite <- !app_assoc. reflexivity.
  - eapply (G (f4 ++ be16 (Z.of_nat (length (m_qs m))) ++ be16 (Z.of_nat (length (m_an m))))); [|rewrite !app_length, H4; reflexivity].
    rewrite HSp at 1. rewrite <- !app_assoc. reflexivity.
  - eapply (G (f4 ++ be16 (Z.of_nat (length (m_qs m))) ++ be16 (Z.of_nat (length (m_an m))) ++ be16 (Z.of_nat (length (m_ns m))))); [|rewrite !app_length, H4; reflexivity].
    rewrite HSp at 1. rewrite <- !app_assoc. reflexivity.
  - unfold cur_purpose. rewrite Hn. destruct p; reflexivity.
Qed.
Print Assumptions C09_header_counts.

(** ** C10 Built records read back unchanged *)
(** As long as no call ran out of space (those have negative codes), the bytes built are the encoding of the
    message that consists of the records of the successful calls, and walking it finds exactly them. *)
Theorem C10_built_message_partial : forall b ss g0 codes g m p,
  (12 <= length b)%nat -> Forall is_byte b -> Forall sop_ok ss ->
  gen_init b = Ret g0 -> gen_run (map call_of ss) g0 = Ret (codes, g) -> Forall (fun c => 0 <= c) codes ->
  spec_run ss codes (spec_init (firstn 4 b)) = (m, p) ->
  firstn (g_itr g) (g_buf g) = enc_msg m /\
  (m_qs m <> [] -> Z.of_nat (length (m_qs m)) < 65536 -> Z.of_nat (length (m_an m)) < 65536 ->
   Z.of_nat (length (m_ns m)) < 65536 -> Z.of_nat (length (m_ar m)) < 65536 ->
   exists i, iter_init (enc_msg m) P_unknown 0 0 0 = Ret i /\
   walk (S (length (view_msg m))) (enc_msg m) (Z.of_nat (g_itr g)) i = Ret (view_msg m)).
Proof.
  intros b ss g0 codes g m p Hb Hby HO H0 HE HC HS.
  destruct (gen_init_built b g0 Hb H0) as [HB HL].
  pose proof (built_run ss g0 _ codes g HB HO HE HC) as HB'. rewrite HS in HB'.
  assert (HF : firstn (g_itr g) (g_buf g) = enc_msg m) by apply (bl_bytes _ _ HB').
  split; [exact HF|]. intros Hq L1 L2 L3 L4.
  assert (HG : good_msg m).
  { assert (HGP : good_parts m).
    { replace m with (fst (spec_run ss codes (spec_init (firstn 4 b)))) by (rewrite HS; reflexivity).
      apply spec_run_good; auto. cbn [spec_init fst]. unfold good_parts. cbn [m_idflags m_qs m_an m_ns m_ar].
      repeat split; auto; [rewrite firstn_length; lia|]. rewrite <- (firstn_skipn 4 b) in Hby. apply Forall_app in Hby. tauto. }
    destruct HGP as (P1 & P2 & P3 & P4 & P5 & P6). repeat split; auto. }
  destruct (walk_message m [] P_unknown 0 0 0 HG (Forall_nil _) Hq) as (i & HI & HW).
  rewrite app_nil_r in HI, HW. exists i. split; [exact HI|]. apply HW; [lia|].
  rewrite <- HF, firstn_length. lia.
Qed.
Print Assumptions C10_built_message_partial.

(** The condition on the codes is needed: a record that ran out of space leaves its beginning behind, and a
    shorter record appended after it is not read back. *)
Theorem C10_built_message_refuted : exists b ss g0 codes g m p i,
  (12 <= length b)%nat /\ Forall sop_ok ss /\
  gen_init b = Ret g0 /\ gen_run (map call_of ss) g0 = Ret (codes, g) /\
  spec_run ss codes (spec_init (firstn 4 b)) = (m, p) /\
  iter_init (g_buf g) P_unknown 0 0 0 = Ret i /\
  walk 9 (g_buf g) (Z.of_nat (g_itr g)) i <> Ret (view_msg m).
Proof.
  exists (repeat 0 60), [SQuestion [[97]] 1 1; SNext; SCName [[97]] [repeat 98 60] 60; SA [[97]] [1;2;3;4] 60].
  do 6 eexists. split; [cbn; lia|]. split.
  { repeat constructor; cbn; try lia; try discriminate. }
  split; [reflexivity|]. split; [vm_compute; reflexivity|]. split; [vm_compute; reflexivity|]. split; [vm_compute; reflexivity|].
  vm_compute. discriminate.
Qed.
Print Assumptions C10_built_message_refuted.

(** Every kind of record, each in its section. *)
Definition ex_calls : list sop :=
  [SQuestion [[97];[98;99]] 1 1; SNext; SCName [[97];[98;99]] [[100]] 300; SA [[100]] [10;0;0;1] 4294967295;
   SMX [[100]] 10 [[109];[120]] 60; SNext; SRaw [[100]] 16 1 [3;1;2;3] 5; SNext; SAAAA [[110]] (repeat 5 16) 0; SEDns 1280].
Example C10_nonvacuous : exists g0 g, gen_init (repeat 9 300) = Ret g0 /\ Forall sop_ok ex_calls /\
  gen_run (map call_of ex_calls) g0 = Ret ([0;0;0;0;0;0;0;0;0;0], g) /\
  length (view_msg (fst (spec_run ex_calls [0;0;0;0;0;0;0;0;0;0] (spec_init [9;9;9;9])))) = 7%nat.
Proof.
  do 2 eexists. split; [vm_compute; reflexivity|]. split; [|split; vm_compute; reflexivity].
  unfold ex_calls, sop_ok, name_ok, ttl_ok, good_label, is_byte. crush.
Qed.

(** ** C11 Compressing the answers keeps their meaning *)
Theorem C11_compression_keeps_meaning : forall g q qs ql post fuel,
  good_msg g -> m_qs g = q :: qs -> q_name q = plain ql -> answer_chain ql (m_an g) ->
  Z.of_nat (length (enc_msg g)) <= 16384 -> Forall is_byte post ->
  (length (m_qs g) <= fuel)%nat -> (length (m_an g) < fuel)%nat ->
  exists an' post',
    let g' := with_answers g an' in
    dns_compress fuel (enc_msg g ++ post) (length (enc_msg g)) = Ret (Z.of_nat (length (enc_msg g')), enc_msg g' ++ post') /\
    length (enc_msg g' ++ post') = length (enc_msg g ++ post) /\
    (length (enc_msg g') <= length (enc_msg g))%nat /\
    good_msg g' /\ Forall2 same_but_name (m_an g) an' /\
    Forall2 (fun r v => exists w, denotes 63 (enc_msg g') (v_pos v) (en_labels (r_name r)) w)
            (m_an g) (view_rrs P_answer (12 + qs_len (m_qs g)) an').
Proof.
  intros g q qs ql post fuel Hg Hq Hqn HC H14 Hpost Hf1 Hf2.
  pose proof Hg as (Hid & Hidb & Hgq & Hga & Hgn & Hgr & Lq & La & Ln & Lr).
  destruct (compress_ok g q qs post fuel Hg Hq (chain_compressible _ _ HC Hga) H14 Hpost Hf1 Hf2) as (post' & HE & HL & Hle & _).
  set (an' := comp (12 + qs_len (m_qs g)) 12 (m_an g)) in *.
  exists an', post'. cbn zeta. split; [exact HE|]. split; [exact HL|]. split; [exact Hle|].
  set (pre := header g ++ concat (map enc_q (m_qs g))).
  assert (Hpre : length pre = (12 + qs_len (m_qs g))%nat) by (unfold pre; rewrite app_length, header_length; auto).
  assert (Hal : length an' = length (m_an g)) by apply comp_length.
  pose proof (enc_with_answers g an' Hal) as EW. fold pre in EW.
  destruct (chain_denotes (m_an g) pre (concat (map enc_item (map (IR P_nameserver) (m_ns g) ++ map (IR P_additional) (m_ar g))))
             ql 12 Hga HC ltac:(lia)) with (m := enc_msg (with_answers g an')) as (I1 & I2 & I3).
  - rewrite Hpre. fold an'. rewrite EW in Hle. rewrite !app_length in *. lia.
  - rewrite Hpre. fold an'. exact EW.
  - rewrite Hq in Hgq. inversion Hgq as [|? ? Hgq1 _]; subst. destruct Hgq1 as (Hgq1 & _). rewrite Hqn in Hgq1.
    destruct (denotes_plain ql (header g) (be16 (q_type q) ++ be16 (q_class q) ++ concat (map enc_q qs) ++ concat (map enc_rr an') ++
      concat (map enc_item (map (IR P_nameserver) (m_ns g) ++ map (IR P_additional) (m_ar g)))) Hgq1) as [w Hw].
    exists w. rewrite header_length in Hw by exact Hid. rewrite EW. unfold pre. rewrite Hq. cbn [map concat]. unfold enc_q at 1.
    rewrite Hqn, <- !app_assoc. exact Hw.
  - rewrite Hpre in I1, I2, I3. fold an' in I1, I2, I3.
    split; [|split; [exact I2|exact I1]].
    unfold good_msg, with_answers. cbn [m_idflags m_qs m_an m_ns m_ar]. rewrite Hal. repeat split; auto.
Qed.
Print Assumptions C11_compression_keeps_meaning.

(** A message with an alias chain, a record of another class and an authority record. *)
Definition ex_comp : message :=
  mk_msg [1;2;129;128] [mk_q (plain [[97];[98;99]]) 1 1]
    [mk_rr (plain [[97];[98;99]]) 5 1 300 (wire [[100];[101]]); mk_rr (plain [[100];[101]]) 1 1 60 [10;0;0;1];
     mk_rr (plain [[122]]) 16 3 60 [0]; mk_rr (plain [[100];[101]]) 1 1 60 [10;0;0;2]]
    [mk_rr (plain [[110]]) 2 1 60 (wire [[109]])] [].
Example C11_nonvacuous : good_msg ex_comp /\ answer_chain [[97];[98;99]] (m_an ex_comp) /\
  exists m', dns_compress 9 (enc_msg ex_comp) (length (enc_msg ex_comp)) = Ret (Z.of_nat (length (enc_msg ex_comp)) - 10, m').
Proof.
  split; [|split].
  - unfold good_msg, good_q, good_rr, good_name, is_byte. cbn. crush.
  - cbn. repeat split; try discriminate. exists [[100];[101]]. repeat split; try discriminate.
    unfold name_ok, good_label. cbn. crush.
  - eexists. vm_compute. reflexivity.
Qed.

(** ** C50 Generated answers keep their type *)
(** Generate with the data of a record as kept in the cache: the record appended is of the type given. *)
Theorem C50_generate_keeps_type_partial : forall g m n ty kl data ttl s c g',
  built g (m, cur_purpose g) -> generate_data ty data s n kl ttl -> (ty = 5 \/ ty = 15 -> kl = 1) -> sop_ok s ->
  gen_generate (dotted n) ty kl data ttl g = Ret (c, g') -> c = 0 ->
  exists r, r_name r = plain n /\ r_type r = ty /\ r_class r = kl /\ r_ttl r = ttl /\
    firstn (g_itr g') (g_buf g') = enc_msg (add_rr (cur_purpose g) r m).
Proof.
  intros g m n ty kl data ttl s c g' HB HD HK HO HE Hc. rewrite (generate_step _ _ _ _ _ _ _ HD) in HE. subst c.
  pose proof (built_step s g _ 0 g' HB HO HE ltac:(lia)) as HB'.
  destruct HD as [ty data n kl ttl Hty|cn rest n kl ttl Hcn|pref sv rest n kl ttl Hsv Hp].
  - eexists. split; [|split; [|split; [|split]]]; [| | | |apply (bl_bytes _ _ HB')]; reflexivity.
  - eexists. split; [|split; [|split; [|split]]]; [| | | |apply (bl_bytes _ _ HB')]; try reflexivity. symmetry; apply HK; auto.
  - eexists. split; [|split; [|split; [|split]]]; [| | | |apply (bl_bytes _ _ HB')]; try reflexivity. symmetry; apply HK; auto.
Qed.
Print Assumptions C50_generate_keeps_type_partial.

(** PTR and NS records come back as CNAME records. *)
Theorem C50_generate_keeps_type_refuted : exists g0 g1 g2, 
  gen_init (repeat 0 64) = Ret g0 /\ gen_run [OQuestion [97] 12 1; ONext] g0 = Ret ([0; 0], g1) /\
  gen_generate [97] 12 1 [98; 0] 60 g1 = Ret (0, g2) /\
  firstn (g_itr g2) (g_buf g2) = enc_msg (mk_msg [0;0;0;0] [mk_q (plain [[97]]) 12 1] [mk_rr (plain [[97]]) 5 1 60 (wire [[98]])] [] []) /\
  (exists g3, gen_generate [97] 2 1 [98; 0] 60 g1 = Ret (0, g3) /\ g3 = g2).
Proof.
  do 3 eexists. split; [vm_compute; reflexivity|]. split; [vm_compute; reflexivity|]. split; [vm_compute; reflexivity|].
  split; [vm_compute; reflexivity|]. eexists. split; vm_compute; reflexivity.
Qed.
Print Assumptions C50_generate_keeps_type_refuted.

Example C50_nonvacuous : generate_data 15 (be16 10 ++ dotted [[109];[120]] ++ 0 :: [7]) (SMX [[97]] 10 [[109];[120]] 60) [[97]] 1 60 /\
  sop_ok (SMX [[97]] 10 [[109];[120]] 60).
Proof. split; [constructor; [unfold name_ok, good_label; crush|lia]|]. unfold sop_ok, name_ok, ttl_ok, good_label. crush. Qed.

(** ** C51 Starting from an existing message *)
(** The new message is the given one, without its authority and additional records if stripping is asked for. *)
Theorem C51_init_from_message_partial : forall fuel (b : list Z) m post (strip : bool),
  good_msg m -> m_qs m <> [] -> Forall is_byte post ->
  (length (m_qs m) + length (m_an m) + length (m_ns m) + length (m_ar m) < fuel)%nat ->
  let m' := if strip then stripped m else m in
  (length (enc_msg m') <= length b)%nat ->
  exists g', gen_init_copy fuel b (enc_msg m ++ post) (length (enc_msg m)) strip = Ret (Some g') /\
    firstn (g_itr g') (g_buf g') = enc_msg m' /\ cur_purpose g' = last_section m' /\ length (g_buf g') = length b.
Proof.
  intros fuel b m post strip Hg Hq Hp Hf m' Hl.
  assert (Hi : (length (items_of m) < fuel)%nat) by (unfold items_of; rewrite !app_length, !map_length; lia).
  destruct strip.
  - destruct (init_copy_strip fuel b m post Hg Hq Hp Hi Hl) as (g' & HE & HB & HL & _). exists g'.
    split; [exact HE|]. split; [apply (bl_bytes _ _ HB)|]. split; [apply (built_purpose _ _ HB)|exact HL].
  - destruct (init_copy_plain fuel b m post Hg Hq Hl) as (g' & HE & HB & HL & _). exists g'.
    split; [exact HE|]. split; [apply (bl_bytes _ _ HB)|]. split; [apply (built_purpose _ _ HB)|exact HL].
Qed.
Print Assumptions C51_init_from_message_partial.

(** The copy is not checked against the size of the buffer. *)
Theorem C51_init_from_message_refuted : exists b m, good_msg m /\ m_qs m <> [] /\
  gen_init_copy 9 b (enc_msg m) (length (enc_msg m)) false = UBW.
Proof.
  exists (repeat 0 18), (mk_msg [0;0;0;0] [mk_q (plain [[97]]) 1 1] [] [] []).
  split; [unfold good_msg, good_q, good_name, is_byte; cbn; crush|]. split; [discriminate|]. vm_compute. reflexivity.
Qed.
Print Assumptions C51_init_from_message_refuted.

(** ** C52 Adding EDNS to a query *)
Lemma to_additional_ok fuel g st : built g st -> (4 <= fuel)%nat -> snd st = P_question \/ snd st = P_answer \/ snd st = P_nameserver ->
  exists g', to_additional fuel g = Ret g' /\ g_buf g' = g_buf g /\ g_itr g' = g_itr g /\ g_num g' = 10%nat.
Proof.
  intros HB Hf Hp. pose proof (bl_num _ _ HB) as Hn. do 4 (destruct fuel as [|fuel]; [lia|]). destruct g as [gb gi gn]. cbn in Hn. subst gn.
  destruct Hp as [->|[->| ->]]; eexists; (split; [reflexivity|]); cbn; auto.
Qed.

Theorem C52_fake_edns_partial : forall fuel m post,
  good_msg m -> m_qs m <> [] -> m_ar m = [] -> (4 <= fuel)%nat -> (11 <= length post)%nat ->
  exists post', fake_edns fuel (enc_msg m ++ post) (length (enc_msg m)) =
    Ret (Some ((length (enc_msg m) + 11)%nat, enc_msg (add_rr P_additional (mk_rr (plain []) 41 1280 0 []) m) ++ post')) /\
    length post' = (length post - 11)%nat.
Proof.
  intros fuel m post Hg Hq Har Hf Hp. unfold fake_edns.
  destruct (init_copy_plain fuel (enc_msg m ++ post) m post Hg Hq ltac:(rewrite app_length; lia)) as (g & HE & HB & HL & Hit).
  rewrite HE. cbn [bind].
  destruct (to_additional_ok fuel g _ HB Hf) as (g1 & HE1 & Hb1 & Hi1 & Hn1).
  { cbn [snd]. unfold last_section. rewrite Har. destruct (m_ns m), (m_an m); auto. }
  rewrite HE1. cbn [bind].
  assert (HB1 : built g1 (m, P_additional)).
  { destruct HB as [HI Hn Hid Hby Hla]. destruct HI as [HI1 HI2]. constructor; cbn [fst snd] in *; auto.
    - constructor; [rewrite Hb1, Hi1; exact HI1|rewrite Hn1; unfold num_ok; auto].
    - rewrite Hb1, Hi1. exact Hby.
    - exact I. }
  assert (HO : sop_ok (SEDns 1280)) by (cbn; lia).
  change (gen_edns 1280 g1) with (gen_step (call_of (SEDns 1280)) g1).
  assert (Hspace : (g_itr g1 + length (op_bytes (call_of (SEDns 1280))) <= length (g_buf g1))%nat).
  { rewrite Hi1, Hb1, HL, Hit, app_length. change (length (op_bytes (call_of (SEDns 1280)))) with 11%nat. lia. }
  destruct (gen_step_cases_fit (call_of (SEDns 1280)) g1 (bl_inv _ _ HB1) I ltac:(discriminate))
    as [(H & _)|[(? & ? & ? & ? & H & _)|[(_ & H10 & _ & H)|(_ & H & _)]]].
  - rewrite (built_purpose _ _ HB1) in H. discriminate.
  - discriminate.
  - pose proof (built_step (SEDns 1280) g1 _ 0 _ HB1 HO H ltac:(lia)) as HB2. rewrite H. cbn [bind snd].
    pose proof (built_buf _ _ HB2) as HBB. cbn [spec_step Z.eqb sop_rr fst] in HBB.
    set (g2 := gen_append g1 _) in *. assert (Hit2 : g_itr g2 = (length (enc_msg m) + 11)%nat).
    { unfold g2, gen_append. cbn [g_itr]. rewrite Hi1, Hit. reflexivity. }
    assert (HL2 : length (g_buf g2) = length (enc_msg m ++ post)).
    { unfold g2, gen_append. cbn [g_buf]. destruct (bl_inv _ _ HB1) as [HIL _].
      rewrite bump_length, splice_length by (rewrite ?splice_length by lia; lia). congruence. }
    exists (skipn (g_itr g2) (g_buf g2)). split.
    + rewrite <- HBB, Hit2. reflexivity.
    + rewrite skipn_length, HL2, Hit2, app_length. lia.
  - lia.
Qed.
Print Assumptions C52_fake_edns_partial.

(** A query that carries an additional record already (other than OPT, which is detected beforehand) never
    gets out of the loop. *)
Theorem C52_fake_edns_refuted : exists m, good_msg m /\ m_qs m <> [] /\
  forall fuel post, (8 <= fuel)%nat -> (12 <= length post)%nat -> fake_edns fuel (enc_msg m ++ post) (length (enc_msg m)) = Fuel.
Proof.
  set (m := mk_msg [0;0;1;0] [mk_q (plain [[97]]) 1 1] [] [] [mk_rr (plain [[98]]) 250 255 0 []]).
  assert (Hg : good_msg m) by (unfold m, good_msg, good_q, good_rr, good_name, is_byte; cbn; crush).
  exists m. split; [exact Hg|]. split; [discriminate|]. intros fuel post Hf Hp. unfold fake_edns.
  destruct (init_copy_plain fuel (enc_msg m ++ post) m post Hg ltac:(discriminate) ltac:(rewrite app_length; lia)) as (g & HE & HB & HL & Hit).
  rewrite HE. cbn [bind]. pose proof (bl_num _ _ HB) as Hn. cbn in Hn.
  assert (HF : forall fuel b i, to_additional fuel (mk_gen b i 12) = Fuel).
  { induction fuel0 as [|f IH]; intros; [reflexivity|]. cbn. apply IH. }
  destruct g as [gb gi gn]. cbn in Hn. subst gn. destruct fuel as [|fuel]; [lia|].
  cbn [to_additional]. unfold next_purpose. cbn [cur_purpose g_num g_buf g_itr Nat.add purpose_eqb]. rewrite HF. reflexivity.
Qed.
Print Assumptions C52_fake_edns_refuted.

Example C52_nonvacuous : good_msg (mk_msg [0;9;1;0] [mk_q (plain [[97]]) 1 1] [] [] []) /\
  match fake_edns 9 (enc_msg (mk_msg [0;9;1;0] [mk_q (plain [[97]]) 1 1] [] [] []) ++ repeat 0 30) 19 with
  | Ret (Some (30%nat, _)) => True | _ => False end.
Proof. split; [unfold good_msg, good_q, good_name, is_byte; cbn; crush|]. vm_compute. exact I. Qed.
