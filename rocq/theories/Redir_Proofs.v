(** Lemmas about following the aliases of the hosts files: copying records into the reply. *)
From Verif Require Import Base BaseFacts ListFacts Name_Model Name_Spec Name_Proofs Parser_Model Parser_Spec Parser_Proofs Parser_Walk
  Gen_Model Gen_Spec Gen_Proofs Compress_Spec Compress_Proofs Gen2_Proofs Gen_Props Fetch_Spec Fetch_Proofs Fetch2_Proofs Iheader_Spec Iheader_Proofs Hmsg_Proofs Redir_Model Redir_Spec.
Require Import ZifyBool ZifyNat.

(** ** Copying names *)
Lemma copy_label_more m post : forall f o l f', copy_label f m o = Ret l -> (f <= f')%nat -> copy_label f' (m ++ post) o = Ret l.
Proof.
  induction f as [|f IH]; intros o l f' H Hf; [discriminate|]. destruct f' as [|f']; [lia|]. cbn [copy_label] in *.
  destruct (rd8 m o) as [c| | |] eqn:E; try discriminate. cbn [bind] in H. rewrite (rd8_app _ post _ _ E). cbn [bind]. destruct (is_ptr c).
  - destruct (label_ptr m o) as [p| | |] eqn:EP; try discriminate. cbn [bind] in H. assert (HP : label_ptr (m ++ post) o = Ret p).
    { unfold label_ptr in *. rewrite E in EP. rewrite (rd8_app _ post _ _ E). cbn [bind] in *. destruct (rd8 m (S o)) as [d| | |] eqn:E2; try discriminate. rewrite (rd8_app _ post _ _ E2). exact EP. }
    rewrite HP. cbn [bind]. apply IH; [exact H|lia].
  - destruct (c =? 0); [exact H|]. destruct (copy_label f m (S o)) as [r| | |] eqn:ER; try discriminate. rewrite (IH _ _ f' ER) by lia. exact H.
Qed.
Lemma denotes_labels mx m o ls w : denotes mx m o ls w -> Forall (fun l => (1 <= length l <= mx)%nat) ls.
Proof. intros H. induction H as [|o n l ls w H1 Hn Hs Hd IH|]; auto. constructor; [rewrite (slice_length _ _ _ _ Hs); exact Hn|exact IH]. Qed.
Lemma low_name_ok m o ls w : denotes 63 m o ls w -> low ls -> name_ok ls.
Proof.
  intros H HL. apply denotes_labels in H. unfold low in HL. unfold name_ok. rewrite Forall_forall in *. intros l Hl. split; [apply H, Hl|]. specialize (HL l Hl). rewrite Forall_forall in *. intros c Hc. specialize (HL c Hc). lia.
Qed.
Lemma copied_name m o ls w : denotes 63 m o ls w -> low ls -> exists f0, forall f post, (f0 <= f)%nat -> copy_label f (m ++ post) o = Ret (wire ls).
Proof.
  intros H HL. destruct (copy_label_complete 63 m o ls w ltac:(lia) H) as (f0 & E).
  { eapply Forall_impl; [|exact HL]. intros l Hl. eapply Forall_impl; [|exact Hl]. cbn. intros; lia. }
  exists f0. intros f post Hf. exact (copy_label_more _ _ _ _ _ _ E Hf).
Qed.

(** ** Copying parts *)
(** Two ways to write a part that differ at most in the error code. *)
Definition part_eq (p p' : part) : Prop := forall g, p g = p' g \/ exists c c' g', p g = Ret (c, g') /\ p' g = Ret (c', g') /\ c <> 0 /\ c' <> 0.
Lemma run_parts_eq ps ps' : Forall2 (fun x y => fst x = fst y /\ part_eq (snd x) (snd y)) ps ps' -> forall g, run_parts ps g = run_parts ps' g.
Proof.
  intros H. induction H as [|[c p] [c' p'] ps ps' (Hc & Hp) H IH]; intros g; [reflexivity|]. cbn [fst snd] in *. subst c'. cbn [run_parts].
  destruct (Hp g) as [E|(d & d' & g' & E1 & E2 & N1 & N2)].
  - rewrite E. destruct (p' g) as [[e g1]| | |]; cbn [bind fst snd]; try reflexivity. destruct (e =? 0); [apply IH|reflexivity].
  - rewrite E1, E2. cbn [bind fst snd]. destruct (Z.eqb_spec d 0); [contradiction|]. destruct (Z.eqb_spec d' 0); [contradiction|]. reflexivity.
Qed.
Lemma part_eq_refl p : part_eq p p. Proof. intros g. now left. Qed.
Lemma dotted_nil ls : name_ok ls -> dotted ls = [] -> ls = [].
Proof. intros HF E. destruct ls as [|l ls]; [reflexivity|]. inversion HF as [|? ? [Hl _] _]; subst. destruct ls; cbn in E; [subst l; cbn in Hl; lia|]. destruct l; [cbn in Hl; lia|discriminate]. Qed.
Lemma copy_part_name nf m pos ls : name_ok ls -> copy_label nf m pos = Ret (wire ls) -> part_eq (copy_part nf m pos) (name_part (dotted ls)).
Proof.
  intros Hn E g. unfold copy_part, name_part. rewrite E. cbn [bind]. destruct (dotted ls) as [|z t] eqn:ED.
  - apply dotted_nil in ED; [|exact Hn]. subst ls. cbn [wire length]. change (Z.of_nat 1) with 1. now left.
  - rewrite <- ED. rewrite (label_length_wire ls Hn). destruct (left_length g <? Z.of_nat (length (wire ls))) eqn:EL.
    + right. exists (-1), (-2), g. repeat split; lia.
    + left. rewrite (labelize_wire 63 ls) by (try lia; try exact Hn; rewrite ED; pose proof (label_length_wire ls Hn) as X; rewrite ED in X; cbn [label_length] in X; lia). reflexivity.
Qed.

(** Copying an alias is writing one. *)
Lemma copy_cname_call nf m pos ls c ttl g : name_ok ls -> name_ok c -> copy_label nf m pos = Ret (wire ls) -> rec_ttl m pos = Ret ttl ->
  (exists dp, rec_dpos m pos = Ret dp /\ copy_label nf m dp = Ret (wire c)) -> gen_copy_cname nf m pos 5 1 g = gen_step (call_of (SCName ls c ttl)) g.
Proof.
  intros Hl Hc E Et (dp & Ed & Ec). cbn [call_of gen_step]. unfold gen_copy_cname, gen_cname. destruct (rr_allowed g); [|reflexivity]. cbn [Z.eqb negb orb]. change (5 =? 5) with true. cbn [negb orb].
  rewrite Et, Ed. cbn [bind]. rewrite Ec. cbn [bind]. rewrite (label_length_wire c Hc). apply run_parts_eq.
  repeat (constructor; [split; [reflexivity|try apply part_eq_refl]|]); [apply copy_part_name; assumption|apply copy_part_name; assumption|constructor].
Qed.
(** Copying an address is writing one. *)
Lemma copy_addr_call nf m pos ls ty n d ttl g : ty = 1 /\ n = 4%nat \/ ty = 28 /\ n = 16%nat -> name_ok ls -> copy_label nf m pos = Ret (wire ls) -> rec_ttl m pos = Ret ttl ->
  (exists dp, rec_dpos m pos = Ret dp /\ rdn m dp n = Ret d) ->
  gen_copy_addr nf m pos ty 1 ty n g = gen_step (call_of (if ty =? 1 then SA ls d ttl else SAAAA ls d ttl)) g.
Proof.
  intros HT Hl E Et (dp & Ed & Er). unfold gen_copy_addr.
  destruct HT as [(-> & ->)|(-> & ->)]; cbn [Z.eqb call_of gen_step]; [change (1 =? 1) with true|change (28 =? 1) with false; change (28 =? 28) with true]; cbv iota; unfold gen_step, call_of, gen_a, gen_aaaa;
    (destruct (rr_allowed g); [|reflexivity]); cbn [negb orb]; change (1 =? 1) with true; cbn [negb orb]; rewrite Et, Ed; cbn [bind]; rewrite Er; cbn [bind]; apply run_parts_eq;
    (repeat (constructor; [split; [reflexivity|try apply part_eq_refl]|]); [apply copy_part_name; assumption|constructor]).
Qed.

(** ** A record that is taken over *)
Lemma same_letters_wire a b : same_letters a b -> length (wire a) = length (wire b).
Proof.
  unfold same_letters. revert b. induction a as [|l a IH]; intros [|l' b] H; try discriminate; [reflexivity|]. cbn [map] in H. injection H as H1 H2. cbn [wire length]. rewrite !app_length, (IH b H2).
  apply (f_equal (@length Z)) in H1. rewrite !map_length in H1. lia.
Qed.
Lemma same_letters_nil a b : same_letters a b -> a <> [] -> b <> [].
Proof. unfold same_letters. intros H N ->. destruct a; [congruence|discriminate]. Qed.

(** What is written for the record [r] that is taken over as [r']. *)
Definition written_as (r0 r' : rr) : Prop :=
  good_rr r0 /\ same_but_name r0 r' /\ r_class r0 = 1 /\ length (enc_rr r0) = length (enc_rr r') /\ (en_labels (r_name r') <> [] -> (2 <= length (enc_name (r_name r0)))%nat).
(** The call for a record, as in the loop. *)
Definition copy_call (nf : nat) (m : list Z) (pos : nat) (ty kl : Z) (g : gen) : outcome (Z * gen) :=
  if ty =? 5 then gen_copy_cname nf m pos ty kl g else if ty =? 1 then gen_copy_a nf m pos ty kl g else if ty =? 28 then gen_copy_aaaa nf m pos ty kl g else Ret (0, g).

Lemma wire_two n : n <> [] -> name_ok n -> (2 <= length (wire n))%nat. Proof. intros H1 H2. pose proof (wire_nonempty n H1 H2). lia. Qed.

Lemma taken_record R post o r own ls w pre rest0 : good_rr r -> r_class r = 1 -> denotes 63 (enc_msg R) o ls w -> low ls -> same_letters own ls ->
  enc_msg R ++ post = pre ++ enc_rr r ++ rest0 -> length pre = o ->
  forall d, (r_type r = 5 /\ (exists c v, d = wire c /\ denotes 63 (enc_msg R) (data_at o r) c v /\ low c) /\ Z.of_nat (length d) < 65536 \/
             d = r_data r /\ (r_type r = 1 /\ length (r_data r) = 4%nat \/ r_type r = 28 /\ length (r_data r) = 16%nat)) ->
  exists s r0 f0, sop_ok s /\ sop_rr s = Some r0 /\ op_section (call_of s) P_answer = true /\ (match s with SRaw _ _ _ d _ => d <> [] | _ => True end) /\
    written_as r0 (mk_rr (plain own) (r_type r) 1 (r_ttl r) d) /\
    forall nf g, (f0 <= nf)%nat -> copy_call nf (enc_msg R ++ post) o (r_type r) (r_class r) g = gen_step (call_of s) g.
Proof.
  intros Hg Hk HD HL HS Hm Ho d Hd. pose proof (low_name_ok _ _ _ _ HD HL) as Hn. destruct (copied_name _ _ _ _ HD HL) as (f1 & E1).
  pose proof Hg as (_ & _ & _ & Httl & Hdl & Hdb).
  assert (Hit : good_item (IR P_answer r)) by (split; [exact Hg|split; discriminate]).
  pose proof (item_fields _ pre (IR P_answer r) rest0 Hit Hm) as HI. cbn zeta in HI. destruct HI as (_ & _ & _ & _ & _ & _ & HT & HP). rewrite Ho in HT, HP.
  assert (Hwl : forall n t k l e, length (enc_rr (mk_rr (plain n) t k l e)) = (length (wire n) + 10 + length e)%nat).
  { intros n t k l e. unfold enc_rr. cbn [r_name r_type r_class r_ttl r_data]. rewrite enc_labels_wire, !app_length, !be16_length, be32_length. lia. }
  assert (Hsl : length (wire ls) = length (wire own)) by (symmetry; now apply same_letters_wire).
  assert (Hown : own <> [] -> (2 <= length (wire ls))%nat) by (intros X; apply wire_two; [exact (same_letters_nil _ _ HS X)|exact Hn]).
  destruct Hd as [(T5 & (c & v & -> & HDc & HLc) & Hc65)|(-> & HT4)].
  - pose proof (low_name_ok _ _ _ _ HDc HLc) as Hc. destruct (copied_name _ _ _ _ HDc HLc) as (f2 & E2).
    assert (HO : sop_ok (SCName ls c (r_ttl r))) by (cbn; repeat split; auto; unfold ttl_ok; lia).
    exists (SCName ls c (r_ttl r)), (mk_rr (plain ls) 5 1 (r_ttl r) (wire c)), (Nat.max f1 f2). split; [exact HO|]. split; [reflexivity|]. split; [reflexivity|]. split; [exact I|]. split.
    + split; [eapply sop_rr_good; [exact HO|reflexivity]|]. split; [rewrite T5; unfold same_but_name; cbn; auto|]. split; [reflexivity|]. split.
      * rewrite !Hwl. lia.
      * cbn [r_name plain en_labels]. rewrite enc_labels_wire. exact Hown.
    + intros nf g Hnf. unfold copy_call. rewrite T5, Hk. change (5 =? 5) with true. cbv iota. apply copy_cname_call; [exact Hn|exact Hc|apply E1; lia|exact HT|]. eexists. split; [exact HP|]. apply E2. lia.
  - assert (Hrd : rdn (enc_msg R ++ post) (o + length (enc_rr r) - length (r_data r)) (length (r_data r)) = Ret (r_data r)).
    { unfold rdn. rewrite Hm. unfold enc_rr. set (H0 := enc_name (r_name r) ++ be16 (r_type r) ++ be16 (r_class r) ++ be32 (r_ttl r) ++ be16 (Z.of_nat (length (r_data r)))).
      replace (pre ++ _ ++ rest0) with ((pre ++ H0) ++ r_data r ++ rest0) by (unfold H0; rewrite <- !app_assoc; reflexivity).
      replace (o + _ - _)%nat with (length (pre ++ H0)); [rewrite slice_app; reflexivity|]. unfold H0. rewrite !app_length. lia. }
    set (s := if r_type r =? 1 then SA ls (r_data r) (r_ttl r) else SAAAA ls (r_data r) (r_ttl r)).
    assert (HO : sop_ok s) by (unfold s; destruct HT4 as [(-> & L)|(-> & L)]; cbn; repeat split; auto; unfold ttl_ok; lia).
    assert (HR : sop_rr s = Some (mk_rr (plain ls) (r_type r) 1 (r_ttl r) (r_data r))) by (unfold s; destruct HT4 as [(-> & L)|(-> & L)]; reflexivity).
    exists s, (mk_rr (plain ls) (r_type r) 1 (r_ttl r) (r_data r)), f1. split; [exact HO|]. split; [exact HR|]. split; [unfold s; destruct (r_type r =? 1); reflexivity|]. split; [unfold s; destruct (r_type r =? 1); exact I|]. split.
    + split; [eapply sop_rr_good; [exact HO|exact HR]|]. split; [unfold same_but_name; cbn; auto|]. split; [reflexivity|]. split.
      * rewrite !Hwl. lia.
      * cbn [r_name plain en_labels]. rewrite enc_labels_wire. exact Hown.
    + intros nf g Hnf. unfold copy_call, gen_copy_a, gen_copy_aaaa. rewrite Hk. unfold s.
      destruct HT4 as [(T & L)|(T & L)]; rewrite T; [change (1 =? 5) with false; change (1 =? 1) with true|change (28 =? 5) with false; change (28 =? 1) with false; change (28 =? 28) with true]; cbv iota.
      * apply (copy_addr_call nf _ o ls 1 4 (r_data r) (r_ttl r)); [auto|exact Hn|apply E1; lia|exact HT|]. eexists. split; [exact HP|]. rewrite <- L. exact Hrd.
      * apply (copy_addr_call nf _ o ls 28 16 (r_data r) (r_ttl r)); [auto|exact Hn|apply E1; lia|exact HT|]. eexists. split; [exact HP|]. rewrite <- L. exact Hrd.
Qed.

Lemma copy_answers_ok R post : forall rs o news, taken R o rs news -> Forall (fun r => Z.of_nat (length (r_data r)) < 65536) news ->
  forall pre1 ts, enc_msg R ++ post = pre1 ++ concat (map enc_item (map (IR P_answer) rs ++ ts)) ++ post -> length pre1 = o -> Forall good_rr rs -> Forall (fun y => item_purpose y <> P_answer) ts ->
  exists brs f0, Forall2 written_as brs news /\ forall fuel nf dlen i pre x g M, pre ++ enc_item x = pre1 ->
    at_item (enc_msg R ++ post) dlen i pre x (map (IR P_answer) rs ++ ts) post -> (f0 <= nf)%nat -> (length rs < fuel)%nat -> built g (M, P_answer) ->
    (length (concat (map enc_rr news)) <= length (rest g))%nat ->
    exists g', copy_answers fuel nf (enc_msg R ++ post) dlen i g = Ret (0, g') /\ built g' (answers_added M brs, P_answer) /\ length (g_buf g') = length (g_buf g) /\
      rest g' = skipn (length (concat (map enc_rr news))) (rest g).
Proof.
  induction rs as [|r rs IH]; intros o news HK H65 pre1 ts Hm Ho HG HT.
  - inversion HK; subst. exists [], 0%nat. split; [constructor|]. intros fuel nf dlen i pre x g M _ HA _ Hf HB _. exists g. destruct fuel as [|fuel]; [lia|]. cbn [copy_answers map app] in *. rewrite answers_added_nil.
    split; [|auto]. destruct ts as [|y ts].
    + rewrite (at_last _ _ _ _ _ _ HA). reflexivity.
    + destruct (at_next _ _ _ _ _ _ _ _ HA) as (i' & HN & HA' & _ & _). rewrite HN. cbn [bind]. rewrite (at_purpose _ _ _ _ _ _ _ HA'). inversion HT as [|? ? Hy _]; subst. destruct (item_purpose y); try reflexivity. congruence.
  - inversion HG as [|? ? Hg HG']; subst. set (o := length pre1) in *. cbn [map app] in Hm.
    assert (Hm2 : enc_msg R ++ post = pre1 ++ enc_rr r ++ (concat (map enc_item (map (IR P_answer) rs ++ ts)) ++ post)) by (rewrite Hm; cbn [map concat enc_item]; rewrite <- !app_assoc; reflexivity).
    assert (Hm' : enc_msg R ++ post = (pre1 ++ enc_rr r) ++ concat (map enc_item (map (IR P_answer) rs ++ ts)) ++ post) by (rewrite Hm2, <- !app_assoc; reflexivity).
    assert (Ho2 : length (pre1 ++ enc_rr r) = (o + length (enc_rr r))%nat) by (rewrite app_length; reflexivity).
    (* what happens with the record *)
    assert (HX : exists new news', news = new ++ news' /\ taken R (o + length (enc_rr r)) rs news' /\ exists br f1, Forall2 written_as br new /\
      forall nf g M, (f1 <= nf)%nat -> built g (M, P_answer) -> (length (concat (map enc_rr new)) <= length (rest g))%nat ->
        exists g', copy_call nf (enc_msg R ++ post) o (r_type r) (r_class r) g = Ret (0, g') /\ built g' (answers_added M br, P_answer) /\ length (g_buf g') = length (g_buf g) /\
          rest g' = skipn (length (concat (map enc_rr new))) (rest g)).
    { assert (HS : forall own ls w d news', denotes 63 (enc_msg R) o ls w -> low ls -> same_letters own ls -> r_class r = 1 ->
        (r_type r = 5 /\ (exists c v, d = wire c /\ denotes 63 (enc_msg R) (data_at o r) c v /\ low c) /\ Z.of_nat (length d) < 65536 \/
             d = r_data r /\ (r_type r = 1 /\ length (r_data r) = 4%nat \/ r_type r = 28 /\ length (r_data r) = 16%nat)) ->
        news = mk_rr (plain own) (r_type r) 1 (r_ttl r) d :: news' -> taken R (o + length (enc_rr r)) rs news' ->
        exists new news', news = new ++ news' /\ taken R (o + length (enc_rr r)) rs news' /\ exists br f1, Forall2 written_as br new /\
        forall nf g M, (f1 <= nf)%nat -> built g (M, P_answer) -> (length (concat (map enc_rr new)) <= length (rest g))%nat ->
        exists g', copy_call nf (enc_msg R ++ post) o (r_type r) (r_class r) g = Ret (0, g') /\ built g' (answers_added M br, P_answer) /\ length (g_buf g') = length (g_buf g) /\
          rest g' = skipn (length (concat (map enc_rr new))) (rest g)).
      { intros own ls w d news' D1 D2 D3 D4 D5 -> D7. exists [mk_rr (plain own) (r_type r) 1 (r_ttl r) d], news'. split; [reflexivity|]. split; [exact D7|].
        destruct (taken_record R post o r own ls w pre1 _ Hg D4 D1 D2 D3 Hm2 eq_refl d D5) as (s & r0 & f1 & S1 & S2 & S3 & S4 & S5 & S6).
        exists [r0], f1. split; [constructor; [exact S5|constructor]|]. intros nf g M Hnf HB Hl. cbn [map concat] in *. rewrite app_nil_r in *.
        destruct S5 as (_ & _ & _ & Hle & _). destruct (fit_step s r0 g M P_answer HB S1 S2 S3 S4 ltac:(lia)) as (g' & E1 & B1 & R1 & L1). exists g'. rewrite (S6 nf g Hnf).
        split; [exact E1|]. rewrite <- (answers_added_nil (add_rr P_answer r0 M)), answers_added_cons in B1. split; [exact B1|]. split; [exact L1|]. rewrite <- Hle. exact R1. }
      inversion HK as [|? ? ? ? N5 N1 N28 HK'|? ? ? ? own ls w c v T5 K1 D1 L1 S1 D2 L2 HK'|? ? ? ? own ls w T4 K1 D1 L1 S1 HK']; subst.
      - exists [], news. split; [reflexivity|]. split; [exact HK'|]. exists [], 0%nat. split; [constructor|]. intros nf g M _ HB _. exists g. unfold copy_call.
        destruct (Z.eqb_spec (r_type r) 5); [contradiction|]. destruct (Z.eqb_spec (r_type r) 1); [contradiction|]. destruct (Z.eqb_spec (r_type r) 28); [contradiction|]. rewrite answers_added_nil. auto.
      - eapply (HS own ls w (wire c)); eauto; [|rewrite T5; reflexivity]. left. split; [exact T5|]. split; [exists c, v; auto|]. inversion H65; subst. assumption.
      - eapply (HS own ls w (r_data r)); eauto. }
    destruct HX as (new & news' & -> & HK' & br & f1 & F1 & HC). apply Forall_app in H65. destruct H65 as (_ & H65').
    destruct (IH _ news' HK' H65' _ ts Hm' Ho2 HG' HT) as (brs & f2 & F2 & HL). exists (br ++ brs), (Nat.max f1 f2). split; [apply Forall2_app; assumption|].
    intros fuel nf dlen i pre x g M Hpx HA Hnf Hf HB Hfit. rewrite map_app, concat_app, app_length in Hfit. destruct fuel as [|fuel]; [lia|]. cbn [copy_answers]. cbn [map app] in HA.
    destruct (at_next _ _ _ _ _ _ _ _ HA) as (i' & HN & HA' & _ & _). rewrite HN. cbn [bind]. rewrite (at_purpose _ _ _ _ _ _ _ HA'). cbn [item_purpose purpose_eqb negb].
    destruct (at_view _ _ _ _ _ _ _ HA') as (Ht & Hk). cbn [view_item v_type v_class] in Ht, Hk. rewrite Ht, Hk, Hpx. fold o. fold (copy_call nf (enc_msg R ++ post) o (r_type r) (r_class r) g).
    destruct (HC nf g M ltac:(lia) HB ltac:(lia)) as (g1 & E1 & B1 & L1 & R1). rewrite E1. cbn [bind]. change (0 =? 0) with true. cbv iota.
    destruct (HL fuel nf dlen i' (pre ++ enc_item x) (IR P_answer r) g1 _ ltac:(rewrite Hpx; reflexivity) HA' ltac:(lia) ltac:(cbn [length] in Hf; lia) B1) as (g' & E2 & B2 & L2 & R2); [rewrite R1, skipn_length; lia|].
    exists g'. split; [exact E2|]. split; [|split; [congruence|]].
    + unfold answers_added in *. cbn [m_idflags m_qs m_an m_ns m_ar] in B2. rewrite app_assoc. exact B2.
    + rewrite R2, R1, skipn_skipn', map_app, concat_app, app_length. reflexivity.
Qed.
