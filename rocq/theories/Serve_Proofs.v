(** Proofs about the way of one query through the program. *)
From Verif Require Import Base BaseFacts ListFacts Name_Model Name_Spec Name_Proofs Hash_Model Chunk_Spec Filter_Model Filter_Props Mmgr_Model Mmgr_Props Cht_Model Cache_Model Cache_Spec Alias_Spec Cache_Props
  Parser_Model Parser_Spec Parser_Proofs Gen_Model Gen_Spec Gen_Proofs Compress_Spec Compress_Proofs Gen2_Proofs Gen_Props Fetch_Model Fetch_Spec Fetch_Proofs Fetch2_Proofs Fetch_Props
  Hosts_Model Hosts_Spec Mctx_Model Iheader_Spec Iheader_Model Iheader_Proofs Iheader_Props Udpm_Model Udpm_Spec Udpm_Props Hmsg_Model Hmsg_Spec Hmsg_Proofs Hmsg_Props Serve_Model Serve_Spec.
Require Import ZifyBool ZifyNat.

Section Group.
Context (fn : list Z -> list Z -> bool).
Lemma choose_none stale t2u u2t tcp name rnd id : name <> [] -> choose fn stale (map_of mmap_init []) t2u u2t tcp name (bkdr name) rnd id = Ret None.
Proof.
  intros Hn. unfold choose. destruct (map_of_init []) as (M1 & M2). rewrite M1, M2.
  destruct (Chunk_Props.C26_domain_match_random fn (rules_of []) (module_fit (map fst (@nil (proto * list (list Z)))) t2u u2t tcp) name (Some (bkdr name)) rnd stale Hn (or_intror eq_refl) ltac:(intros ? [])) as (p & w & Hp & -> & Hw). cbn [bind].
  destruct p as [v|]; [destruct Hp as (n & _ & (_ & r1 & r2 & E & _) & _); destruct r1; discriminate E|]. destruct w as [v|]; [destruct Hw as (p & [] & _)|]. reflexivity.
Qed.
Lemma to_group_ok k a w c s name t2u u2t : k_map k = map_of mmap_init (w_groups w) -> k_t2u k = t2u -> k_u2t k = u2t -> name <> [] -> 0 <= ctx_id c ->
  h_reqtcp (c_h c) = false -> h_domain (c_h c) = name -> h_hash (c_h c) = bkdr name ->
  (w_groups w = [] -> to_group fn k a c s = Ret (mk_served s N_dropped)) /\
  (w_groups w <> [] -> exists i, to_group fn k a c s = Ret (mk_served s (N_group i c)) /\
     group_for fn (w_groups w) t2u u2t (match h_back (c_h c) with None => true | Some _ => false end) name (ctx_id c) i).
Proof.
  intros EM <- <- Hn Hid Ht Hd Hh. unfold to_group. rewrite EM, Ht, Hd, Hh. split; intros Hg.
  - rewrite Hg, choose_none by exact Hn. reflexivity.
  - destruct (C33_choice fn (w_groups w) (a_stale2 a) (k_t2u k) (k_u2t k) (match h_back (c_h c) with None => true | Some _ => false end) name (a_rnd a) (ctx_id c) Hn Hg Hid) as (i & E & Hi & HC).
    rewrite E. cbn [bind]. exists i. split; [reflexivity|]. split; [exact Hi|exact HC].
Qed.
End Group.

Lemma ctx_id_nonneg h m : Forall is_byte m -> 0 <= ctx_id (mk_ctx h m).
Proof. intros H. unfold ctx_id. cbn [c_entity]. destruct (get16 m 0) as [v|] eqn:E; [|lia]. pose proof (get16_byte m 0 v H E). lia. Qed.
Lemma ctx_id_app h h' q m m' : (2 <= length q)%nat -> ctx_id (mk_ctx h (q ++ m)) = ctx_id (mk_ctx h' (q ++ m')).
Proof. intros H. destruct q as [|x [|y q]]; cbn in H; try lia. reflexivity. Qed.

Lemma stripped_fits q edns rs : good_msg q -> m_an q = [] -> (length (enc_msg (stripped q)) <= length (enc_msg (full_reply q edns rs)))%nat.
Proof.
  intros (Hid & _) Han. rewrite !enc_msg_length by exact Hid. unfold stripped, full_reply. cbn [m_qs m_an m_ns m_ar map concat length]. rewrite Han. cbn [map concat length]. lia.
Qed.
Lemma small_nonempty ql : name_ok ql -> ql <> [] -> map small (dotted ql) <> [].
Proof.
  intros Ho Hne E. apply map_eq_nil in E. destruct ql as [|l ls]; [congruence|]. inversion Ho as [|? ? [Hl _] _]; subst. destruct ls; cbn in E; [subst l; cbn in Hl; lia|]. destruct l; [cbn in Hl; lia|discriminate].
Qed.

Section Serve.
Context (fn : list Z -> list Z -> bool) (parse : list Z -> ipaddr) (good : list Z -> option (list Z)) (hdr : iheader -> list Z) (raw : list Z -> list cnode -> nat -> Z) (ignore : bool).

Lemma verdict_exists k w name type : loaded fn parse k w name -> exists r, verdict good (w_block6 w) (w_ts1 w) (w_ts2 w) type r.
Proof.
  intros (_ & _ & _ & (l1 & T1 & S1) & (l2 & T2 & S2) & _).
  destruct (Hosts_Props.C28_two_tables fn parse good _ _ l1 l2 name _ _ (w_block6 w) type T1 T2 S1 S2) as (r & _ & V). exists r. exact V.
Qed.

(** What the cache does with the query. *)
Definition fetch_ok (k : holds) (now : Z) (q : message) (stack : list Z) (nf fuel : nat) (post : list Z) (edns : bool) (als rs : list rr) : Prop :=
  match k_cache k with
  | None => rs = []
  | Some m =>
    (rs = [] -> exists code mem', code <> 0 /\ code <> -861 /\ fetch raw ignore nf stack fuel m (enc_msg q ++ post) (length (enc_msg q)) edns now true = Ret (code, enc_msg q ++ mem', length (enc_msg q))) /\
    (rs <> [] -> exists a mem', fetch raw ignore nf stack fuel m (enc_msg q ++ post) (length (enc_msg q)) edns now true = Ret (0, enc_msg a ++ mem', length (enc_msg a)) /\ is_reply q edns (als ++ rs) a)
  end.

Lemma serve_ok k w q q0 ql a back sock c als rs fuel nf time agent edns post : plain_query q q0 ql ->
  let name := map small (dotted ql) in
  loaded fn parse k w name -> a_inner a = true -> a_sent a = true -> 
  c = mk_ctx (mk_ih None false time back sock name (bkdr name) (q_type q0) false edns (Z.of_nat (length (enc_msg q))) agent) (enc_msg q ++ post) -> Forall is_byte post ->
  (length (enc_msg q ++ post) <= fuel)%nat -> room good w q ql (q_type q0) edns als rs (length post) ->
  fetch_ok k (a_now a) q (a_name a) nf fuel post edns als rs ->
  exists s, serve fn good hdr raw ignore fuel nf k a c = Ret s /\ due fn good hdr w q ql (q_type q0) name als rs c s.
Proof.
  intros (Hg & Hq & Hqn & Ho & Hne & Hl & Hk & Han) name HL Hin Hse Hc Hp Hfu (R1 & R2 & R3) HF.
  pose proof (small_nonempty ql Ho Hne) as Hnn. fold name in Hnn.
  destruct (verdict_exists k w name (q_type q0) HL) as (r & HV).
  destruct HL as ((n0 & items & ET & EWT & HTr) & (ds & files & ED & EWR & HFo) & EB & (l1 & T1 & S1) & (l2 & T2 & S2) & EM & ETU & EUT).
  assert (Hq0 : good_q q0) by (destruct Hg as (_ & _ & HQ & _); rewrite Hq in HQ; inversion HQ; assumption).
  assert (Hty : in_range (q_type q0)) by (destruct Hq0 as (_ & X & _); unfold in_range; clear - X; lia).
  destruct (disabled_type_ok n0 items (q_type q0) Hty HTr) as (t & x & ET' & EX & HX). rewrite ET in ET'. injection ET' as <-.
  destruct (disabled_domain_ok fn (a_stale1 a) ds files name Hnn HFo) as (kd & y & ED' & EY & HY). rewrite ED in ED'. injection ED' as <-.
  assert (HB : Forall is_byte (enc_msg q)) by now apply enc_msg_bytes.
  assert (H12 : (12 <= length (enc_msg q))%nat) by (rewrite enc_msg_length by exact (proj1 Hg); clear; lia).
  assert (H4 : (4 <= length (enc_msg q))%nat) by (clear - H12; lia).
  assert (Eent : c_entity c = enc_msg q ++ post) by (rewrite Hc; reflexivity).
  assert (Elen : h_len (c_h c) = Z.of_nat (length (enc_msg q))) by (rewrite Hc; reflexivity).
  assert (Edom : h_domain (c_h c) = name) by (rewrite Hc; reflexivity).
  assert (Ehash : h_hash (c_h c) = bkdr name) by (rewrite Hc; reflexivity).
  assert (Etype : h_type (c_h c) = q_type q0) by (rewrite Hc; reflexivity).
  assert (Eedns : h_edns (c_h c) = edns) by (rewrite Hc; reflexivity).
  assert (Ereq : h_reqtcp (c_h c) = false) by (rewrite Hc; reflexivity).
  unfold serve. rewrite Etype, EX. cbn [bind].
  assert (HD : exists b, (if x then Ret true else is_disabled_domain fn (a_stale1 a) (k_domains k) (h_domain (c_h c)) (h_hash (c_h c))) = Ret b /\ (b = true <-> disabled fn w (q_type q0) name)).
  { rewrite Edom, Ehash. unfold disabled. rewrite EWT, EWR. destruct x; [exists true|exists y]; (split; [auto|]); [|rewrite HY]; intuition congruence. }
  destruct HD as (b & -> & HD). cbn [bind]. destruct b.
  - destruct (C45_sent hdr c (enc_msg q) post (a_ret a) Eent Elen H4 HB) as (m & code & HR & E & _). rewrite E. cbn [bind fst].
    exists (mk_served [sent_to hdr (c_h c) (c_h c) m] N_done). split; [|apply Due_disabled; [now apply HD|exact HR]].
    assert (EQ : to_client hdr c (mk_ctx (c_h c) (m ++ post)) m = sent_to hdr (c_h c) (c_h c) m) by (destruct c as [[] ?]; reflexivity). rewrite EQ. reflexivity.
  - assert (HN : ~ disabled fn w (q_type q0) name) by (intros X; apply HD in X; discriminate).
    rewrite <- Etype in HV. rewrite EB. destruct r as [| | |an].
    + (* blocked *)
      destruct (C65_refused fn parse good hdr _ _ _ _ T1 T2 name _ _ S1 S2 (w_block6 w) (enc_msg q) post fuel c (a_inner a) (a_ret a) Edom HV Eent Elen H4 HB) as (m & code & c' & HR & E).
      rewrite E. cbn [bind Z.eqb]. eexists. split; [reflexivity|]. rewrite Etype in HV. now apply Due_blocked.
    + (* nothing *)
      rewrite (C65_nothing fn parse good hdr _ _ _ _ T1 T2 name _ _ S1 S2 (w_block6 w) fuel c (a_inner a) (a_ret a) Edom HV). cbn [bind Z.eqb]. rewrite Etype in HV. unfold fetch_ok in HF.
      destruct (k_cache k) as [m|].
      * rewrite Elen. destruct (Z.of_nat (length (enc_msg q)) <? 0) eqn:E0; [clear - E0; lia|]. rewrite Nat2Z.id, Eent, Eedns, Hse. destruct rs as [|r0 rs'].
        -- destruct HF as (HF & _). destruct (HF eq_refl) as (code & mem' & C1 & C2 & E). rewrite E. cbn [bind].
           destruct (Z.eqb_spec code 0); [congruence|]. destruct (Z.eqb_spec code (-861)); [congruence|]. cbn [orb].
           set (c2 := with_entity c (Z.of_nat (length (enc_msg q))) (enc_msg q ++ mem')).
           assert (Ec2 : c2 = mk_ctx (c_h c) (enc_msg q ++ mem')) by (unfold c2; rewrite Hc; reflexivity).
           assert (Eid : ctx_id c2 = ctx_id c) by (rewrite Ec2, Hc; apply ctx_id_app; clear - H4; lia).
           destruct (to_group_ok fn k a w c2 [] name (w_t2u w) (w_u2t w) EM ETU EUT Hnn) as (G1 & G2); try (rewrite Ec2; cbn [c_h]; assumption).
           { rewrite Eid, Hc. apply ctx_id_nonneg, Forall_app. auto. }
           assert (Hsq : same_query c c2).
           { split; [rewrite Ec2; reflexivity|]. rewrite Elen, Nat2Z.id, Eent, Ec2. cbn [c_entity]. rewrite !firstn_app, !Nat.sub_diag, !firstn_all. reflexivity. }
           destruct (w_groups w) eqn:EG.
           ++ rewrite (G1 eq_refl). eexists. split; [reflexivity|]. now apply Due_dropped.
           ++ destruct (G2 ltac:(discriminate)) as (i & EE & HG). rewrite EE. eexists. split; [reflexivity|]. apply Due_asked; auto. rewrite EG. rewrite Eid, Ec2 in HG. exact HG.
        -- destruct HF as (_ & HF). destruct (HF ltac:(discriminate)) as (g & mem' & E & HR). rewrite E. cbn [bind Z.eqb orb].
           destruct (send_back_ok hdr (with_length (c_h c) (length (enc_msg g))) (enc_msg g) mem' (a_ret a) eq_refl) as (code & ES).
           assert (EC : with_entity c (Z.of_nat (length (enc_msg g))) (enc_msg g ++ mem') = mk_ctx (with_length (c_h c) (length (enc_msg g))) (enc_msg g ++ mem')) by reflexivity.
           rewrite EC, ES. cbn [bind fst]. exists (mk_served [sent_to hdr (c_h c) (with_length (c_h c) (length (enc_msg g))) (enc_msg g)] N_done). split; [reflexivity|].
           apply Due_cached; auto; [discriminate|]. rewrite Eedns. exact HR.
      * subst rs. destruct (to_group_ok fn k a w c [] name (w_t2u w) (w_u2t w) EM ETU EUT Hnn) as (G1 & G2); auto.
        { rewrite Hc. apply ctx_id_nonneg, Forall_app. auto. }
        destruct (w_groups w) eqn:EG.
        -- rewrite (G1 eq_refl). eexists. split; [reflexivity|]. now apply Due_dropped.
        -- destruct (G2 ltac:(discriminate)) as (i & EE & HG). rewrite EE. eexists. split; [reflexivity|]. apply Due_asked; auto; [split; reflexivity|]. rewrite EG. exact HG.
    + (* alias *)
      destruct (enc_msg q) as [|i1 [|i2 m]] eqn:Eq; cbn in H4; [clear - H4; lia|clear - H4; lia|].
      rewrite (C65_alias fn parse good hdr _ _ _ _ T1 T2 name _ _ S1 S2 (w_block6 w) i1 i2 (m ++ post) fuel c (a_inner a) (a_ret a) Edom HV Eent). rewrite Hin. cbn [bind Z.eqb].
      eexists. split; [reflexivity|]. rewrite Etype in HV. eapply Due_alias; eauto.
    + (* answer *)
      rewrite Etype in HV. destruct (R3 an HV) as (r & HR & Hfit). rewrite <- Etype in HV.
      destruct (C65_reply_partial fn parse good hdr _ _ _ _ T1 T2 name _ _ S1 S2 (w_block6 w) an q q0 [] ql r fuel post c (a_inner a) (a_ret a) Edom HV HR Hg Hq Hqn Ho Hne Han Eent Elen Hp Hfu R2) as (g & code & c' & HI & E).
      { rewrite Eedns. exact Hfit. }
      rewrite E. cbn [bind Z.eqb]. eexists. split; [reflexivity|]. rewrite Etype in HV. eapply Due_hosts; eauto.
Qed.
End Serve.
