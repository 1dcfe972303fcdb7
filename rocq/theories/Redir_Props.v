(** Following the aliases of the hosts files. *)
From Verif Require Import Base BaseFacts ListFacts Hash_Model Bst_Model Bst_Spec Bst_Proofs Bst2_Proofs Name_Model Name_Spec Name_Proofs Parser_Model Parser_Spec Parser_Proofs
  Gen_Model Gen_Spec Compress_Spec Fetch_Spec Fetch_Props Sht_Model Hosts_Model Hosts_Spec Hosts_Props Mctx_Model Mctx_Spec Mctx_Proofs Iheader_Model Iheader_Spec Udpm_Model Hmsg_Model Hmsg_Spec Hmsg_Proofs Hmsg_Props
  Fetch2_Proofs Iheader_Proofs Rdata_Proofs Redir_Model Redir_Spec Redir_Proofs Redir2_Proofs Redir3_Proofs.
Require Import Permutation ZifyBool ZifyNat.

Section Props.
Context (fn : list Z -> list Z -> bool) (parse : list Z -> ipaddr) (hdr : iheader -> list Z) (arr : list Z -> list Z) (hsz : nat) (osock : Z) (oaddr : list Z) (leave : ubuf -> ubuf).

(** [s] is a state of the thread. *)
Definition reached (fuel nf : nat) (os : list rop) (s : rst) : Prop :=
  exists n s0 es, r_started n s0 /\ Forall rop_ok os /\ rturns fn hdr arr hsz osock oaddr leave fuel nf s0 os = Ret (es, s).
(** ... and the queries have always been tame on the way. *)
Definition tamely (fuel nf : nat) (os : list rop) (s : rst) : Prop :=
  exists n s0 es, r_started n s0 /\ Forall rop_ok os /\ rturns fn hdr arr hsz osock oaddr leave fuel nf s0 os = Ret (es, s) /\
  forall os1 os2 es1 s1 p, os = os1 ++ os2 -> rturns fn hdr arr hsz osock oaddr leave fuel nf s0 os1 = Ret (es1, s1) -> table (rs_tab s1) p -> tame p.

(** C66.  Every turn in every state: a query that is taken up is kept until it is answered or a pass without traffic finds it older than two seconds; a reply
    removes at most one query, and what is sent then goes to the client of that query. *)
Theorem C66_turn fuel nf os s o e s' : reached fuel nf os s -> rop_ok o -> rturn fn hdr arr hsz osock oaddr leave fuel nf s o = Ret (e, s') ->
  match o with
  | RInner _ _ h id _ now =>
      (e = RV_nothing /\ forall a q, holds (rs_tab s') a q <-> holds (rs_tab s) a q) \/
      exists a m, e = RV_asked m /\ h_parent (c_h m) = Some a /\ (forall q, ~ holds (rs_tab s) a q) /\
        forall a' q', holds (rs_tab s') a' q' <-> holds (rs_tab s) a' q' \/ a' = a /\ q' = stamped (mk_ctx h (id ++ skipn 2 (c_entity (rs_in s)))) now
  | ROuter _ _ _ =>
      (e = RV_nothing /\ forall a q, holds (rs_tab s') a q <-> holds (rs_tab s) a q) \/
      exists a q, holds (rs_tab s) a q /\ (forall a' q', holds (rs_tab s') a' q' <-> holds (rs_tab s) a' q' /\ a' <> a) /\
        (e = RV_nothing \/ exists sn code, e = RV_sent sn code /\ s_sock sn = h_sock (c_h q) /\ s_to sn = h_back (c_h q))
  | RIdle now => e = RV_nothing /\ forall a q, holds (rs_tab s') a q <-> holds (rs_tab s) a q /\ ~ expired now q
  end.
Proof.
  intros (n & s0 & es & HS & HO & HR) Ho HT. destruct (turns_known _ _ _ _ _ _ _ _ _ os s0 Leaf es s (started_known n s0 HS) HO HR) as (t & HK).
  destruct (turn_did _ _ _ _ _ _ _ _ _ s t o e s' HK Ho HT) as (t' & HK' & HD & _). destruct HK as ((fl & HB) & HH). destruct HK' as ((fl' & HB') & _).
  pose proof (fun a q => holds_elems _ t fl a q HB) as X. pose proof (fun a q => holds_elems _ t' fl' a q HB') as X'.
  destruct o as [st dy h id rnd now|h msg k|now]; cbn [did rop_ok] in *.
  - destruct HD as [(-> & ->)|(a & m & -> & Hp & Hn & HP)]; [left; split; [reflexivity|]; intros; rewrite X, X'; tauto|]. right. exists a, m. split; [reflexivity|]. split; [exact Hp|]. split.
    + intros q Hq. apply X in Hq. apply Hn. unfold addrs. apply (in_map fst) in Hq. exact Hq.
    + intros a' q'. rewrite X, X'. destruct Ho as (_ & L & _). unfold kept in HP. rewrite L in HP. split.
      * intros H. apply (Permutation_in _ HP) in H. destruct H as [H|H]; [right|left; exact H]. split; congruence.
      * intros [H|(-> & ->)]; (eapply Permutation_in; [symmetry; exact HP|]); [right; exact H|left; reflexivity].
  - destruct HD as [(-> & ->)|(a & q & HI & Hin & He)]; [left; split; [reflexivity|]; intros; rewrite X, X'; tauto|]. right. exists a, q. split; [apply X; exact HI|]. split; [|exact He].
    intros a' q'. rewrite X, X'. apply Hin.
  - destruct HD as (-> & Hin). split; [reflexivity|]. intros a q. rewrite X, X'. apply Hin.
Qed.

(** A query for a name for which the hosts files have an alias: the query for the target goes through the forwarder, with the client's type. *)
Theorem C66_query fuel nf os s room st dy l1 l2 name ts1 ts2 c h id rnd now : reached fuel nf os s -> ubuf_ok room (rs_out s) ->
  table_is parse st l1 -> table_is parse dy l2 -> says fn parse l1 name ts1 -> says fn parse l2 name ts2 ->
  h_domain h = name -> match first alias_of ts1 with Some x => Some x | None => first alias_of ts2 end = Some (dotted c) ->
  name_ok c -> (length (dotted c) <= 128)%nat -> 0 < h_type h < 65536 -> (length (wire c) + 16 <= room)%nat -> length id = 2%nat ->
  exists f0, forall fuel' nf', (f0 <= fuel')%nat -> (f0 <= nf')%nat -> exists a mem' s',
    inner_turn fn osock oaddr leave fuel' nf' st dy s h id rnd now =
      Ret (RV_asked (mk_ctx (target_header (u_h (rs_out s)) (Some a) (match h_back h with None => true | Some _ => false end) osock oaddr c (h_type h))
                            (enc_msg (target_query (rnd mod 65536) c (h_type h)) ++ mem')), s') /\
    (forall q, ~ holds (rs_tab s) a q) /\
    forall a' q', holds (rs_tab s') a' q' <-> holds (rs_tab s) a' q' \/ a' = a /\ q' = stamped (mk_ctx h (id ++ skipn 2 (c_entity (rs_in s)))) now.
Proof.
  intros (n & s0 & es & HS & HO & HR) HU T1 T2 S1 S2 Hd HA Hc Hl Ht Hr Hid. destruct (turns_known _ _ _ _ _ _ _ _ _ os s0 Leaf es s (started_known n s0 HS) HO HR) as (t & (fl & HB) & HH).
  destruct (query_ok (rnd mod 65536) c (h_type h) room Hc Ht Hl Hr) as (f0 & HQ). exists f0. intros fuel' nf' Hf Hn.
  destruct (HQ fuel' nf' (rs_out s) osock oaddr (match h_back h with None => true | Some _ => false end) HU Hf Hn) as (dom' & mem' & EQ & _).
  destruct (bst_add_ok ctx_cmp (rs_tab s) t fl (stamped (mk_ctx h (id ++ skipn 2 (c_entity (rs_in s)))) now) HB) as (a & b' & fl' & HE & HN & HB').
  exists a, mem'. eexists. split; [|split].
  - unfold inner_turn. cbv zeta. rewrite Hd, (C28_alias fn parse (fun _ => None) st dy l1 l2 name ts1 ts2 T1 T2 S1 S2), HA. cbn [bind]. destruct (Nat.ltb 128 (length (dotted c))) eqn:E; [apply Nat.ltb_lt in E; lia|].
    rewrite EQ. cbn [bind]. change (negb (0 =? 0)) with false. cbv iota. rewrite Hid. unfold mc_add.
    change (set_time (mk_ctx h (id ++ skipn 2 (c_entity (rs_in s)))) now) with (stamped (mk_ctx h (id ++ skipn 2 (c_entity (rs_in s)))) now). rewrite HE. cbn [bind u_h u_mem]. reflexivity.
  - intros q Hq. apply (holds_elems _ t fl a q HB) in Hq. apply HN. unfold addrs. apply (in_map fst) in Hq. exact Hq.
  - intros a' q'. cbn [rs_tab]. rewrite (holds_elems _ _ fl' a' q' HB'), (holds_elems _ t fl a' q' HB). pose proof (ins_elems ctx_cmp (stamped (mk_ctx h (id ++ skipn 2 (c_entity (rs_in s)))) now) a t) as HP. split.
    + intros H. apply (Permutation_in _ HP) in H. destruct H as [H|H]; [right; split; congruence|left; exact H].
    + intros [H|(-> & ->)]; (eapply Permutation_in; [symmetry; exact HP|]); [right; exact H|left; reflexivity].
Qed.
(** Without an alias (the files may have changed since): nothing is asked, nothing kept. *)
Theorem C66_no_alias fuel nf s st dy l1 l2 name ts1 ts2 h id rnd now :
  table_is parse st l1 -> table_is parse dy l2 -> says fn parse l1 name ts1 -> says fn parse l2 name ts2 -> h_domain h = name -> first alias_of ts1 = None -> first alias_of ts2 = None ->
  exists s', inner_turn fn osock oaddr leave fuel nf st dy s h id rnd now = Ret (RV_nothing, s') /\ rs_tab s' = rs_tab s.
Proof.
  intros T1 T2 S1 S2 Hd A1 A2. unfold inner_turn. cbv zeta. rewrite Hd, (C28_alias fn parse (fun _ => None) st dy l1 l2 name ts1 ts2 T1 T2 S1 S2), A1, A2. cbn [bind]. eexists. split; reflexivity.
Qed.

(** The reply to the query for the target: the client gets its own question, the alias, and the reply's aliases and addresses.
    Missing from the full statement: queries of which two share identification and name ([C66_types_refuted]), replies that come after the query has been
    given up ([C66_late_refuted]), and replies whose records are not in the order of the chain of aliases ([C66_order_refuted]). *)
Theorem C66_reply_partial fuel nf os s room a q h tgt dom R news n : tamely fuel nf os s -> array room (c_entity (rs_in s)) -> ubuf_ok room (rs_out s) ->
  holds (rs_tab s) a q -> (forall a' q', holds (rs_tab s) a' q' -> matches q' q -> a' = a) ->
  h_parent h = Some a -> h_domain h = dotted tgt -> name_ok tgt -> h_domain (c_h q) = dotted dom -> name_ok dom -> 0 < h_type (c_h q) < 65536 ->
  good_msg R -> m_qs R <> [] -> (length (enc_msg R) <= room)%nat -> taken R (12 + qs_len (m_qs R)) (m_an R) news -> answer_chain dom (alias_record dom tgt :: news) ->
  (length (enc_msg (full_redirect (firstn 2 (c_entity q)) R dom (h_type (c_h q)) (h_edns (c_h q)) (alias_record dom tgt :: news))) <= room)%nat ->
  Z.of_nat (length (enc_msg (full_redirect (firstn 2 (c_entity q)) R dom (h_type (c_h q)) (h_edns (c_h q)) (alias_record dom tgt :: news)))) <= 16384 ->
  exists f0, forall fuel' nf', (f0 <= fuel')%nat -> (f0 <= nf')%nat -> exists g code s',
    outer_turn hdr arr hsz fuel' nf' s h (enc_msg R) n = Ret (RV_sent (sent_to hdr (c_h q) (with_length (c_h q) (length (enc_msg g))) (enc_msg g)) code, s') /\
    redirected (firstn 2 (c_entity q)) R dom (h_type (c_h q)) (h_edns (c_h q)) (alias_record dom tgt :: news) g /\
    forall a' q', holds (rs_tab s') a' q' <-> holds (rs_tab s) a' q' /\ a' <> a.
Proof.
  intros (n0 & s0 & es & HS & HO & HR & HT) (Hai & Hab) (Hu1 & Hu2 & Hu3) Hq Huniq Hpar Hhd Htg Hqd Hdo Hty Hg Hqs HRl HK HC Hfit H14.
  destruct (turns_ord _ _ _ _ _ _ _ _ _ os s0 Leaf es s (started_known n0 s0 HS) HO I HT HR) as (t & ((fl & HB) & HH) & Hord).
  pose proof Hq as HqI. apply (holds_elems _ t fl a q HB) in HqI. destruct (HH _ HqI) as (Hhash & (i1 & i2 & e & Hce & B1 & B2)). cbn [snd] in Hhash, Hce.
  destruct (srch_complete ctx_cmp q t (a, q) Hord HqI) as (a1 & Ha1); [reflexivity|apply ctx_cmp_refl|].
  set (c0 := mk_ctx (c_h (rs_in s)) ([i1; i2] ++ skipn 2 (c_entity (rs_in s)))).
  destruct (answer_to_some (rs_tab s) t fl q c0 a1 HB Ha1) as (q1 & b' & t' & fl' & HI1 & H01 & HE1 & HD & HB').
  assert (Ea : a1 = a).
  { apply (Huniq a1 q1); [apply (holds_elems _ t fl a1 q1 HB); exact HI1|]. apply ctx_cmp_zero in H01; [|exact Hhash|apply (HH _ HI1)]. destruct H01; split; auto. }
  subst a1. destruct (binv_deref _ t fl a q HB HqI) as (nd & Hnd & Hndd). destruct (binv_deref _ t fl a q1 HB HI1) as (nd1 & Hnd1 & Hndd1).
  assert (q1 = q) as -> by congruence.
  assert (Haq : c_h (addressed q q) = c_h q) by (destruct q as [hq ?]; destruct hq; reflexivity).
  set (c := mk_ctx (c_h q) ([i1; i2] ++ skipn 2 (c_entity (rs_in s)))).
  assert (Hfst : firstn 2 (c_entity q) = [i1; i2]) by (rewrite Hce; reflexivity). rewrite Hfst in Hfit, H14 |- *.
  assert (Hr2 : (2 <= room)%nat).
  { pose proof (enc_msg_length (full_redirect [i1; i2] R dom (h_type (c_h q)) (h_edns (c_h q)) (alias_record dom tgt :: news))) as HL. rewrite HL in Hfit; [lia|].
    unfold full_redirect. cbn [m_idflags]. destruct Hg as (H4 & _). rewrite app_length, skipn_length. cbn [length]. lia. }
  assert (Hcl : length (c_entity c) = room) by (unfold c; cbn [c_entity]; rewrite app_length, skipn_length; cbn [length]; lia).
  assert (Hcb : Forall is_byte (c_entity c)) by (unfold c; cbn [c_entity app]; constructor; [exact B1|constructor; [exact B2|]]; apply Forall_skip; exact Hab).
  set (post := skipn (length (enc_msg R)) (u_mem (rs_out s))).
  assert (Hpb : Forall is_byte post) by (apply Forall_skip; exact Hu3).
  destruct (combine_ok R dom tgt news c [i1; i2] (skipn 2 (c_entity (rs_in s))) post Hg Hqs Hpb Hqd Hdo Hty eq_refl eq_refl Hcb HK HC Htg) as (f0 & HF); [rewrite Hcl; exact Hfit|exact H14|].
  exists (f0 + (length (enc_msg R ++ post) + length (c_entity c)))%nat. intros fuel' nf' Hf Hn.
  destruct (HF fuel' nf' (hsz + length (enc_msg R))%nat) as (g & mem' & EC & Hlg & Hred); [lia|lia|lia|].
  destruct (send_back_ok hdr (with_length (c_h q) (length (enc_msg g))) (enc_msg g) mem' n eq_refl) as (code & EB).
  exists g, code. eexists. split; [|split].
  - unfold outer_turn. cbv zeta. rewrite Hpar. unfold deref at 1. rewrite Hnd. cbn [bind]. rewrite Hndd, Hce. change (rdn (i1 :: i2 :: e) 0 2) with (Ret [i1; i2]). cbn [bind].
    rewrite (bwrite_at0 (c_entity (rs_in s)) [i1; i2]) by (cbn [length]; lia). cbn [bind length]. rewrite <- Hndd in HE1. fold c0. rewrite Hndd in HE1. rewrite HE1. cbn [bind]. change (negb (0 =? 0)) with false. cbv iota.
    rewrite Haq. change (mk_ctx (c_h q) (c_entity c0)) with c. assert (Hfn : firstn (length (u_mem (rs_out s))) (enc_msg R) = enc_msg R) by (apply firstn_all2; lia). rewrite Hfn. fold post. rewrite Hhd, EC. cbn [bind].
    change (negb (0 =? 0)) with false. cbv iota. change (c_h c) with (c_h q). rewrite EB. cbn [bind fst snd]. reflexivity.
  - exact Hred.
  - intros a' q'. cbn [rs_tab]. rewrite (holds_elems _ t' fl' a' q' HB'), (holds_elems _ t fl a' q' HB). apply (deleted_in t t' a (binv_nodup _ _ _ HB) HD).
Qed.
End Props.
Print Assumptions C66_turn.
Print Assumptions C66_query.
Print Assumptions C66_no_alias.
Print Assumptions C66_reply_partial.

(** * Examples and counterexamples: "c.d a.b", and in another version of the file "e.f a.c" *)
Definition l_alias2 : list Z := [101; 46; 102; 32; 97; 46; 99].
Definition rx_ac : list Z := [97; 46; 99].
Definition rx_dy2 : hosts := match hosts_of ex_parse hosts_init [l_alias2] with Ret h => h | _ => hosts_init end.
Lemma rx_table2 : table_is ex_parse (Some rx_dy2) (Some [l_alias2]). Proof. vm_compute. reflexivity. Qed.
Lemma rx_says2 : says hx_fn ex_parse (Some [l_alias2]) rx_ac [Alias [101; 46; 102]].
Proof.
  exists [(rx_ac, Alias [101; 46; 102])]. split.
  - eapply (L_item _ l_alias2 [101; 46; 102] rx_ac); [two [32] (@nil Z)| |apply L_nil]. apply (R_alias_hex _ 101 _ 102); [unfold hexdigit; lia|cbn; intuition lia|cbn; auto|unfold letter; lia].
  - exists (Some rx_ac). split; [|reflexivity]. left. split; [reflexivity|]. split; [unfold Chunk_Spec.plain, rx_ac; cbn; lia|]. eexists. left. reflexivity.
Qed.

Definition rx_h (domain : list Z) (type : Z) (client : list Z) : iheader := mk_ih None false 0 (Some client) 5 domain (bkdr domain) type false false 0 [].
Definition rx_0 : rst := mk_rst bst_init (mk_ctx (rx_h [] 0 []) (repeat 0 100)) (mk_ubuf (rx_h [] 0 []) (repeat 0 256) (repeat 0 100)).
Notation rx_run := (rturns hx_fn (fun _ => []) (fun d => d) 8 6 [127] (fun b => b) 120 120).
Notation rx_turn := (rturn hx_fn (fun _ => []) (fun d => d) 8 6 [127] (fun b => b) 120 120).
Notation rx_reached := (reached hx_fn (fun _ => []) (fun d => d) 8 6 [127] (fun b => b) 120 120).
Definition rx_ask (type : Z) (client : list Z) : rop := RInner None (Some hx_dy) (rx_h ab type client) [1; 2] 777 100.
Definition rx_after (os : list rop) : rst := match rx_run rx_0 os with Ret (_, s) => s | _ => rx_0 end.
(** The reply for c.d: an alias of e.f (with a pointer as owner), the address of e.f. *)
Definition rx_R : message := mk_msg [9; 9; 129; 128] [mk_q (plain [[99]; [100]]) 1 1]
  [mk_rr (mk_ename [] (Some (192, 12))) 5 1 30 (wire [[101]; [102]]); mk_rr (plain [[101]; [102]]) 1 1 40 [1; 2; 3; 4]] [] [].
Definition rx_news : list rr := [mk_rr (plain [[99]; [100]]) 5 1 30 (wire [[101]; [102]]); mk_rr (plain [[101]; [102]]) 1 1 40 [1; 2; 3; 4]].
Definition rx_reply (R : message) (a : nat) : rop := ROuter (set_parent (rx_h [99; 46; 100] 1 [127]) (Some a)) (enc_msg R) 71.
Definition rx_kept (now : Z) (h : iheader) : mctx := stamped (mk_ctx h ([1; 2] ++ repeat 0 98)) now.

Lemma rx_started : r_started 100 rx_0.
Proof.
  assert (B : forall n, Forall is_byte (repeat 0 n)) by (intros n; apply Forall_forall; intros x Hx; apply repeat_spec in Hx; subst x; unfold is_byte; lia).
  split; [reflexivity|]. split; [split; [apply repeat_length|apply B]|]. split; [apply repeat_length|]. split; [apply repeat_length|apply B].
Qed.
Lemma rx_ok o : match o with RInner _ _ h id _ _ => 0 <= h_hash h < 4294967296 /\ id = [1; 2] | ROuter _ m _ => Forall is_byte m | RIdle _ => True end -> rop_ok o.
Proof. destruct o as [st dy h id r n|h m n|n]; cbn [rop_ok]; auto. intros (H & ->). split; [exact H|]. split; [reflexivity|]. repeat (constructor; [unfold is_byte; lia|]). constructor. Qed.

Lemma rx_arr s : (Nat.eqb (length (c_entity (rs_in s))) 100 && forallb (fun x => (0 <=? x) && (x <? 256)) (c_entity (rs_in s)))%bool = true -> array 100 (c_entity (rs_in s)).
Proof. intros H. apply andb_prop in H. destruct H as (H1 & H2). split; [now apply Nat.eqb_eq|]. apply Forall_forall. intros x Hx. rewrite forallb_forall in H2. specialize (H2 x Hx). unfold is_byte. lia. Qed.
Lemma rx_R_good : good_msg rx_R.
Proof. unfold good_msg, rx_R. cbn [m_idflags m_qs m_an m_ns m_ar]. unfold good_q, good_rr, good_name. crush. Qed.
Lemma rx_two_labels m o a b : nth_error m o = Some 1 -> slice m (S o) 1 = Some [a] -> nth_error m (S (S o)) = Some 1 -> slice m (S (S (S o))) 1 = Some [b] -> nth_error m (S (S (S (S o)))) = Some 0 ->
  denotes 63 m o [[a]; [b]] 5.
Proof.
  intros H1 H2 H3 H4 H5. apply (Name_Spec.D_label 63 m o 1 [a] [[b]] 3); [exact H1|lia|exact H2|]. replace (S o + 1)%nat with (S (S o)) by lia.
  apply (Name_Spec.D_label 63 m (S (S o)) 1 [b] [] 1); [exact H3|lia|exact H4|]. apply Name_Spec.D_root. replace (S (S (S o)) + 1)%nat with (S (S (S (S o)))) by lia. exact H5.
Qed.
Lemma rx_low a b : 0 < a < 192 /\ a <> 46 -> 0 < b < 192 /\ b <> 46 -> low [[a]; [b]].
Proof. intros Ha Hb. repeat (constructor; [repeat (constructor; [assumption|]); constructor|]). constructor. Qed.
Lemma rx_taken : taken rx_R (12 + qs_len (m_qs rx_R)) (m_an rx_R) rx_news.
Proof.
  unfold rx_news. change (m_an rx_R) with [mk_rr (mk_ename [] (Some (192, 12))) 5 1 30 (wire [[101]; [102]]); mk_rr (plain [[101]; [102]]) 1 1 40 [1; 2; 3; 4]].
  apply (K_alias rx_R _ (mk_rr (mk_ename [] (Some (192, 12))) 5 1 30 (wire [[101]; [102]])) _ _ [[99]; [100]] [[99]; [100]] 2 [[101]; [102]] 5); try reflexivity; try (apply rx_low; lia).
  - apply (Name_Spec.D_ptr 63 (enc_msg rx_R) 21 192 12 _ 5); try reflexivity; try lia. apply rx_two_labels; reflexivity.
  - apply rx_two_labels; reflexivity.
  - apply (K_address rx_R _ (mk_rr (plain [[101]; [102]]) 1 1 40 [1; 2; 3; 4]) _ _ [[101]; [102]] [[101]; [102]] 5); try reflexivity; try (apply rx_low; lia); [left; split; reflexivity|apply rx_two_labels; reflexivity|constructor].
Qed.
Lemma rx_chain : answer_chain [[97]; [98]] (alias_record [[97]; [98]] [[99]; [100]] :: rx_news).
Proof.
  cbn. split; [reflexivity|]. split; [discriminate|]. exists [[99]; [100]]. split; [apply fx_name; lia|]. split; [reflexivity|]. split; [reflexivity|]. split; [discriminate|].
  exists [[101]; [102]]. split; [apply fx_name; lia|]. split; [reflexivity|]. split; [reflexivity|]. split; [discriminate|exact I].
Qed.

Example C66_nonvacuous : let s := rx_after [rx_ask 1 [1]] in
  tamely hx_fn (fun _ => []) (fun d => d) 8 6 [127] (fun b => b) 120 120 [rx_ask 1 [1]] s /\ array 100 (c_entity (rs_in s)) /\ ubuf_ok 100 (rs_out s) /\
  holds (rs_tab s) 0 (rx_kept 100 (rx_h ab 1 [1])) /\ (forall a' q', holds (rs_tab s) a' q' -> a' = 0%nat) /\
  good_msg rx_R /\ taken rx_R (12 + qs_len (m_qs rx_R)) (m_an rx_R) rx_news /\ answer_chain [[97]; [98]] (alias_record [[97]; [98]] [[99]; [100]] :: rx_news) /\
  Z.of_nat (length (enc_msg (full_redirect [1; 2] rx_R [[97]; [98]] 1 false (alias_record [[97]; [98]] [[99]; [100]] :: rx_news)))) <= 100 /\
  match rx_run rx_0 [rx_ask 1 [1]; rx_reply rx_R 0; rx_reply rx_R 0] with
  | Ret (es, _) => map (fun e => match e with RV_asked c => Some (h_back (c_h c), firstn 21 (c_entity c)) | RV_sent sn _ => Some (s_to sn, s_bytes sn) | RV_nothing => None end) es =
      [Some (Some [127], enc_msg (target_query 777 [[99]; [100]] 1));
       Some (Some [1], [1; 2; 129; 128; 0; 1; 0; 3; 0; 0; 0; 0; 1; 97; 1; 98; 0; 0; 1; 0; 1; 192; 12; 0; 5; 0; 1; 0; 0; 0; 60; 0; 5; 1; 99; 1; 100; 0;
                        192; 33; 0; 5; 0; 1; 0; 0; 0; 30; 0; 5; 1; 101; 1; 102; 0; 192; 50; 0; 1; 0; 1; 0; 0; 0; 40; 0; 4; 1; 2; 3; 4]); None]
  | _ => False end.
Proof.
  cbv zeta. set (s := rx_after [rx_ask 1 [1]]). assert (HR : exists es, rx_run rx_0 [rx_ask 1 [1]] = Ret (es, s)) by (eexists; vm_compute; reflexivity). destruct HR as (es & HR).
  assert (HO : Forall rop_ok [rx_ask 1 [1]]) by (constructor; [apply rx_ok; split; [cbn; lia|reflexivity]|constructor]).
  assert (HE : bst_enum (rs_tab s) (fun (acc : list (nat * mctx)) x c => (acc ++ [(x, c)], false)) [] = Ret [(0%nat, rx_kept 100 (rx_h ab 1 [1]))]) by (vm_compute; reflexivity).
  assert (HV : forall p, table (rs_tab s) p -> p = [rx_kept 100 (rx_h ab 1 [1])]).
  { intros p (l & El & Hp). assert (El2 : bst_enum (rs_tab s) (fun (acc : list mctx) (_ : nat) (c : mctx) => (acc ++ [c], false)) [] = Ret [rx_kept 100 (rx_h ab 1 [1])]) by (vm_compute; reflexivity).
    rewrite El2 in El. assert (l = [rx_kept 100 (rx_h ab 1 [1])]) as -> by congruence. apply Permutation_length_1_inv. exact Hp. }
  split; [|split; [|split; [|split; [|split; [|split; [|split; [|split; [|split]]]]]]]].
  - exists 100%nat, rx_0, es. split; [exact rx_started|]. split; [exact HO|]. split; [exact HR|]. intros os1 os2 es1 s1 p E H1 Hp. destruct os1 as [|o os1].
    + cbn [rturns] in H1. assert (s1 = rx_0) as -> by congruence. destruct Hp as (l & El & Hp). assert (l = []) as -> by (vm_compute in El; congruence).
      apply Permutation_nil in Hp. subst p. exists (fun _ => 0). intros q [].
    + cbn [app] in E. assert (o = rx_ask 1 [1]) as -> by congruence. assert (E2 : [] = os1 ++ os2) by congruence. symmetry in E2. apply app_eq_nil in E2. destruct E2 as (-> & _). rewrite HR in H1. assert (s1 = s) as -> by congruence.
      apply HV in Hp. subst p. exists (fun _ => bkdr ab). intros q [<-|[]]. cbn [rx_kept stamped c_h h_hash rx_h]. rewrite Z.sub_diag. vm_compute. intuition congruence.
  - apply (rx_arr s). vm_compute. reflexivity.
  - split; [vm_compute; reflexivity|]. apply (rx_arr (mk_rst bst_init (mk_ctx (rx_h [] 0 []) (u_mem (rs_out s))) (rs_out s))). vm_compute. reflexivity.
  - eexists. split; [exact HE|]. left. reflexivity.
  - intros a' q' (l & El & Hin). rewrite HE in El. assert (l = [(0%nat, rx_kept 100 (rx_h ab 1 [1]))]) as -> by congruence. destruct Hin as [E|[]]. congruence.
  - exact rx_R_good.
  - exact rx_taken.
  - exact rx_chain.
  - apply Z.leb_le. vm_compute. reflexivity.
  - vm_compute. reflexivity.
Qed.

(** Two clients with the same identification, for the same name but different types: the reply to the second one's query goes to the first one. *)
Definition rx_R6 : message := mk_msg [9; 9; 129; 128] [mk_q (plain [[99]; [100]]) 28 1] [mk_rr (plain [[99]; [100]]) 28 1 40 [1; 2; 3; 4; 5; 6; 7; 8; 1; 2; 3; 4; 5; 6; 7; 8]] [] [].
Theorem C66_types_refuted : exists os s a q sn code s' R, rx_reached os s /\ holds (rs_tab s) a q /\ h_type (c_h q) = 28 /\ h_back (c_h q) = Some [2] /\
  rx_turn s (rx_reply R a) = Ret (RV_sent sn code, s') /\ m_an R = [mk_rr (plain [[99]; [100]]) 28 1 40 [1; 2; 3; 4; 5; 6; 7; 8; 1; 2; 3; 4; 5; 6; 7; 8]] /\
  s_to sn = Some [1] /\ In (rx_ask 1 [1]) os /\ holds (rs_tab s') a q.
Proof.
  set (os := [rx_ask 1 [1]; rx_ask 28 [2]]). set (s := rx_after os). assert (HR : exists es, rx_run rx_0 os = Ret (es, s)) by (eexists; vm_compute; reflexivity). destruct HR as (es & HR).
  assert (HT : exists sn code s', rx_turn s (rx_reply rx_R6 1) = Ret (RV_sent sn code, s') /\ s_to sn = Some [1] /\
     bst_enum (rs_tab s') (fun (acc : list (nat * mctx)) x c => (acc ++ [(x, c)], false)) [] = Ret [(1%nat, rx_kept 100 (rx_h ab 28 [2]))]).
  { eexists _, _, _. split; [vm_compute; reflexivity|]. split; [reflexivity|]. vm_compute. reflexivity. }
  destruct HT as (sn & code & s' & HT & Hto & HE'). exists os, s, 1%nat, (rx_kept 100 (rx_h ab 28 [2])), sn, code, s', rx_R6.
  split; [exists 100%nat, rx_0, es; split; [exact rx_started|split; [|exact HR]]; repeat (constructor; [apply rx_ok; split; [cbn; lia|reflexivity]|]); constructor|].
  split; [eexists; split; [vm_compute; reflexivity|right; left; reflexivity]|]. split; [reflexivity|]. split; [reflexivity|]. split; [exact HT|]. split; [reflexivity|]. split; [exact Hto|].
  split; [left; reflexivity|]. eexists. split; [exact HE'|left; reflexivity].
Qed.
Print Assumptions C66_types_refuted.

(** A reply for c.d that comes after the client has been given up and its place in the table has been taken by another client's query for a.c: that client is
    told that a.c is an alias of c.d, whereas the hosts file says e.f. *)
Theorem C66_late_refuted : exists os s a q sn code s' g, rx_reached os s /\ holds (rs_tab s) a q /\ h_domain (c_h q) = rx_ac /\ h_back (c_h q) = Some [2] /\
  says hx_fn ex_parse (Some [l_alias2]) rx_ac [Alias (dotted [[101]; [102]])] /\ In (RInner None (Some rx_dy2) (rx_h rx_ac 1 [2]) [1; 2] 778 104) os /\ table_is ex_parse (Some rx_dy2) (Some [l_alias2]) /\
  rx_turn s (rx_reply rx_R a) = Ret (RV_sent sn code, s') /\ s_to sn = Some [2] /\ s_bytes sn = enc_msg g /\ m_qs g = [mk_q (plain [[97]; [99]]) 1 1] /\
  exists r rs, m_an g = r :: rs /\ r_type r = 5 /\ r_data r = wire [[99]; [100]].
Proof.
  set (os := [rx_ask 1 [1]; RIdle 103; RInner None (Some rx_dy2) (rx_h rx_ac 1 [2]) [1; 2] 778 104]). set (s := rx_after os).
  assert (HR : exists es, rx_run rx_0 os = Ret (es, s)) by (eexists; vm_compute; reflexivity). destruct HR as (es & HR).
  set (g := mk_msg [1; 2; 129; 128] [mk_q (plain [[97]; [99]]) 1 1] [mk_rr (mk_ename [] (Some (192, 12))) 5 1 60 (wire [[99]; [100]]);
      mk_rr (mk_ename [] (Some (192, 33))) 5 1 30 (wire [[101]; [102]]); mk_rr (mk_ename [] (Some (192, 50))) 1 1 40 [1; 2; 3; 4]] [] []).
  assert (HT : exists code s', rx_turn s (rx_reply rx_R 0) = Ret (RV_sent (mk_sent 5 (Some [2]) (enc_msg g)) code, s')) by (eexists _, _; vm_compute; reflexivity). destruct HT as (code & s' & HT).
  exists os, s, 0%nat, (rx_kept 104 (rx_h rx_ac 1 [2])). eexists _, code, s', g.
  split; [exists 100%nat, rx_0, es; split; [exact rx_started|split; [|exact HR]]|].
  { constructor; [apply rx_ok; split; [cbn; lia|reflexivity]|]. constructor; [exact I|]. constructor; [apply rx_ok; split; [cbn; lia|reflexivity]|constructor]. }
  split; [eexists; split; [vm_compute; reflexivity|left; reflexivity]|]. split; [reflexivity|]. split; [reflexivity|]. split; [exact rx_says2|]. split; [right; right; left; reflexivity|]. split; [exact rx_table2|].
  split; [exact HT|]. split; [reflexivity|]. split; [reflexivity|]. split; [reflexivity|]. eexists _, _. split; [reflexivity|]. split; reflexivity.
Qed.
Print Assumptions C66_late_refuted.

(** The records of the reply in another order, the address of e.f before the alias: the client is told that the address is that of c.d. *)
Definition rx_Rx : message := mk_msg [9; 9; 129; 128] [mk_q (plain [[99]; [100]]) 1 1]
  [mk_rr (plain [[101]; [102]]) 1 1 40 [1; 2; 3; 4]; mk_rr (plain [[99]; [100]]) 5 1 30 (wire [[101]; [102]])] [] [].
Theorem C66_order_refuted : exists os s a q R r o code s' g v, rx_reached os s /\ holds (rs_tab s) a q /\ good_msg R /\ hd_error (m_an R) = Some r /\ r_type r = 1 /\
  denotes 63 (enc_msg R) (12 + qs_len (m_qs R)) [[101]; [102]] 5 /\
  rx_turn s (rx_reply R a) = Ret (RV_sent (mk_sent 5 (Some [1]) (enc_msg g)) code, s') /\ good_msg g /\
  nth_error (view_rrs P_answer (12 + qs_len (m_qs g)) (m_an g)) 1 = Some v /\ v_pos v = o /\ nth_error (m_an g) 1 = Some (mk_rr (mk_ename [] (Some (192, 33))) 1 1 40 (r_data r)) /\
  denotes 63 (enc_msg g) o [[99]; [100]] 2.
Proof.
  set (os := [rx_ask 1 [1]]). set (s := rx_after os).
  assert (HR : exists es, rx_run rx_0 os = Ret (es, s)) by (eexists; vm_compute; reflexivity). destruct HR as (es & HR).
  set (g := mk_msg [1; 2; 129; 128] [mk_q (plain [[97]; [98]]) 1 1] [mk_rr (mk_ename [] (Some (192, 12))) 5 1 60 (wire [[99]; [100]]);
      mk_rr (mk_ename [] (Some (192, 33))) 1 1 40 [1; 2; 3; 4]; mk_rr (mk_ename [] (Some (192, 33))) 5 1 30 (wire [[101]; [102]])] [] []).
  assert (HT : exists code s', rx_turn s (rx_reply rx_Rx 0) = Ret (RV_sent (mk_sent 5 (Some [1]) (enc_msg g)) code, s')) by (eexists _, _; vm_compute; reflexivity). destruct HT as (code & s' & HT).
  exists os, s, 0%nat, (rx_kept 100 (rx_h ab 1 [1])), rx_Rx. eexists _, _, code, s', g, _.
  split; [exists 100%nat, rx_0, es; split; [exact rx_started|split; [|exact HR]]; repeat (constructor; [apply rx_ok; split; [cbn; lia|reflexivity]|]); constructor|].
  split; [eexists; split; [vm_compute; reflexivity|left; reflexivity]|]. split; [unfold good_msg, rx_Rx; cbn [m_idflags m_qs m_an m_ns m_ar]; unfold good_q, good_rr, good_name; crush|].
  split; [reflexivity|]. split; [reflexivity|]. split; [apply rx_two_labels; reflexivity|]. split; [exact HT|].
  split; [unfold good_msg, g; cbn [m_idflags m_qs m_an m_ns m_ar]; unfold good_q, good_rr, good_name; crush|]. split; [reflexivity|]. split; [reflexivity|]. split; [reflexivity|].
  apply (Name_Spec.D_ptr 63 (enc_msg g) 38 192 33 _ 5); try reflexivity; try lia. apply rx_two_labels; reflexivity.
Qed.
Print Assumptions C66_order_refuted.
