(** C85: what is done with a query that the cache has something for. *)
From Verif Require Import Base BaseFacts ListFacts Name_Model Name_Spec Name_Proofs Hash_Model Chunk_Spec Filter_Model Filter_Props Mmgr_Model Mmgr_Props Cht_Model Cache_Model Cache_Spec Alias_Spec Cache_Props
  Cache2_Proofs Cache4_Proofs Alias_Proofs Alias_Props
  Parser_Model Parser_Spec Parser_Proofs Gen_Model Gen_Spec Gen_Proofs Compress_Spec Compress_Proofs Gen2_Proofs Gen_Props Fetch_Model Fetch_Spec Fetch_Proofs Fetch2_Proofs Fetch_Props Ns_Spec Ns_Proofs Ns_Props
  Hosts_Model Hosts_Spec Hosts_Props Mctx_Model Iheader_Spec Iheader_Model Iheader_Proofs Iheader_Props Udpm_Model Udpm_Spec Udpm_Props Hmsg_Model Hmsg_Spec Hmsg_Proofs Hmsg_Props Tcp_Model Tcp_Props Serve_Model Serve_Spec Serve_Proofs Serve_Props Kept_Spec.
Require Import ZifyBool ZifyNat.

Section P.
Context (fn : list Z -> list Z -> bool) (parse : list Z -> ipaddr) (good : list Z -> option (list Z)) (hdr : iheader -> list Z) (raw : list Z -> list cnode -> nat -> Z) (ignore : bool).

(** A query that is neither disabled nor in the hosts files gets to the cache. *)
Lemma serve_to_cache k m w q q0 ql a back sock c fuel nf time agent edns post : plain_query q q0 ql ->
  let name := map small (dotted ql) in
  loaded fn parse k w name -> k_cache k = Some m -> ~ disabled fn w (q_type q0) name -> verdict good (w_block6 w) (w_ts1 w) (w_ts2 w) (q_type q0) T_none ->
  c = mk_ctx (mk_ih None false time back sock name (bkdr name) (q_type q0) false edns (Z.of_nat (length (enc_msg q))) agent) (enc_msg q ++ post) ->
  serve fn good hdr raw ignore fuel nf k a c =
    let! r2 := fetch raw ignore nf (a_name a) fuel m (enc_msg q ++ post) (length (enc_msg q)) edns (a_now a) (a_sent a) in
    let '(code2, mem, len) := r2 in
    let c2 := with_entity c (Z.of_nat len) mem in
    if (code2 =? 0) || (code2 =? -861)
    then let! s := send_back hdr c2 (a_ret a) in if code2 =? 0 then Ret (mk_served [fst s] N_done) else to_group fn k a c2 [fst s]
    else to_group fn k a c2 [].
Proof.
  intros (Hg & Hq & Hqn & Ho & Hne & Hl & Hk & Han) name HL EK HN HV Hc.
  pose proof (small_nonempty ql Ho Hne) as Hnn. fold name in Hnn.
  destruct HL as ((n0 & items & ET & EWT & HTr) & (ds & files & ED & EWR & HFo) & EB & (l1 & T1 & S1) & (l2 & T2 & S2) & EM & ETU & EUT).
  assert (Hq0 : good_q q0) by (destruct Hg as (_ & _ & HQ & _); rewrite Hq in HQ; inversion HQ; assumption).
  assert (Hty : in_range (q_type q0)) by (destruct Hq0 as (_ & X & _); unfold in_range; clear - X; lia).
  destruct (disabled_type_ok n0 items (q_type q0) Hty HTr) as (t & x & ET' & EX & HX). rewrite ET in ET'. injection ET' as <-.
  destruct (disabled_domain_ok fn (a_stale1 a) ds files name Hnn HFo) as (kd & y & ED' & EY & HY). rewrite ED in ED'. injection ED' as <-.
  assert (Eent : c_entity c = enc_msg q ++ post) by (rewrite Hc; reflexivity).
  assert (Elen : h_len (c_h c) = Z.of_nat (length (enc_msg q))) by (rewrite Hc; reflexivity).
  assert (Edom : h_domain (c_h c) = name) by (rewrite Hc; reflexivity).
  assert (Ehash : h_hash (c_h c) = bkdr name) by (rewrite Hc; reflexivity).
  assert (Etype : h_type (c_h c) = q_type q0) by (rewrite Hc; reflexivity).
  assert (Eedns : h_edns (c_h c) = edns) by (rewrite Hc; reflexivity).
  unfold serve. rewrite Etype, EX. cbn [bind].
  assert (HD : (if x then Ret true else is_disabled_domain fn (a_stale1 a) (k_domains k) (h_domain (c_h c)) (h_hash (c_h c))) = Ret false).
  { rewrite Edom, Ehash. unfold disabled in HN. rewrite EWT, EWR in HN. destruct x; [exfalso; apply HN; left; apply HX; reflexivity|]. rewrite EY. destruct y; [exfalso; apply HN; right; apply HY; reflexivity|reflexivity]. }
  rewrite HD. cbn [bind]. rewrite <- Etype in HV. rewrite EB.
  rewrite (C65_nothing fn parse good hdr _ _ _ _ T1 T2 name _ _ S1 S2 (w_block6 w) fuel c (a_inner a) (a_ret a) Edom HV). cbn [bind Z.eqb]. rewrite EK, Elen.
  destruct (Z.of_nat (length (enc_msg q)) <? 0) eqn:E0; [clear - E0; lia|]. rewrite Nat2Z.id, Eent, Eedns. reflexivity.
Qed.

Lemma reply_id q edns L g h h' p p' : is_reply q edns L g -> ctx_id (mk_ctx h (enc_msg g ++ p)) = ctx_id (mk_ctx h' (enc_msg q ++ p')).
Proof. intros (_ & (i1 & i2 & f2 & f3 & f2' & f3' & E1 & E2 & _) & _). unfold enc_msg, header. rewrite E1, E2. reflexivity. Qed.

(** For every configuration, all hosts files, every history of the cache, all server groups and every query with one question that is neither disabled nor in the hosts files, and for which the cache
    has something (also under the types NS and PTR, and several CNAME records): the reply of C63 is sent.  If it can be sent then that is all.  If it cannot then the program goes on to the server group that
    the query should have gone to, with the reply in place of the query (or drops it if there are no groups). *)
Theorem C85_from_cache k m ops now parallel get : k_cache k = Some m -> cache_history ignore raw k ops now parallel get ->
  exists A, cache_holds ignore k ops parallel get (Some A) /\
  forall q q0 ql stack, plain_query q q0 ql -> length stack = 254%nat ->
  exists f0, forall fuel nf w a back sock c L, let name := map small (dotted ql) in
    (f0 <= nf)%nat -> (length (c_entity c) <= fuel)%nat -> Z.of_nat (length (c_entity c)) <= 16384 -> a_name a = stack -> a_now a = now ->
    loaded fn parse k w name -> labelled q (q_type q0) name back sock c ->
    ~ disabled fn w (q_type q0) name -> verdict good (w_block6 w) (w_ts1 w) (w_ts2 w) (q_type q0) T_none ->
    from_cache ignore A now q ql (q_type q0) (h_edns (c_h c)) (length (c_entity c) - length (enc_msg q)) L ->
    exists g, is_reply q (h_edns (c_h c)) L g /\
      let s := sent_to hdr (c_h c) (with_length (c_h c) (length (enc_msg g))) (enc_msg g) in
      (a_sent a = true -> serve fn good hdr raw ignore fuel nf k a c = Ret (mk_served [s] N_done)) /\
      (a_sent a = false -> w_groups w = [] -> serve fn good hdr raw ignore fuel nf k a c = Ret (mk_served [s] N_dropped)) /\
      (a_sent a = false -> w_groups w <> [] -> exists i c', serve fn good hdr raw ignore fuel nf k a c = Ret (mk_served [s] (N_group i c')) /\ carries c g c' /\
         group_for fn (w_groups w) (w_t2u w) (w_u2t w) (match h_back (c_h c) with None => true | Some _ => false end) name (ctx_id c) i).
Proof.
  intros EK HH. unfold cache_history, cache_holds in *. rewrite EK in HH |- *. destruct HH as (size & slots & t0 & H1 & H2 & H3 & H4 & H5 & H6).
  destruct (history _ _ _ _ _ _ _ _ _ _ H1 H2 H4 H5 H6) as (A & Hr & Hrep & Hgd). exists A. split; [exists A; split; [reflexivity|]; split; [exact Hr|exact (r_count _ _ Hrep)]|].
  pose proof (question_answered raw ignore m A now Hrep (run_data _ _ _ _ _ Hr (ops_data _ H3)) Hgd) as HQ.
  pose proof (ttl_in_range ignore A now m Hrep Hgd) as HT. pose proof (lookup_data _ _ _ _ _ now Hr HT) as HLk.
  assert (HQ' : forall fuel name ty g, ~ In 0 name -> (length name <= 253)%nat -> started g -> (length (g_buf g) <= fuel)%nat -> In ty [1; 2; 5; 12; 15; 16; 28; 65] ->
     exists e name' g', (ty = 5 -> e = 0 /\ name' = name /\ g' = g) /\ (ty <> 5 -> follow ignore A now name g e name' g') /\ started g' /\ length (g_buf g') = length (g_buf g) /\
       by_question raw ignore fuel m name ty 1 now g =
         if e =? 0 then let! y := Cache_Spec.serve name' ty 1 (a_lookup ignore A name' ty 1 now) (-100) g' in Ret (if fst y =? 0 then 0 else -6, snd y) else Ret (e, g')).
  { intros fuel name ty g G1 G2 G3 G4 G5. apply (HQ fuel name ty 1 g G1 G2 G3 G4); auto. }
  intros q q0 ql stack HP Hst. pose proof HP as (Hg & Hq & Hqn & Ho & Hne & Hl & Hk & Han).
  assert (HF : exists f0, forall nf fuel post edns sent L, (f0 <= nf)%nat -> (length (enc_msg q ++ post) <= fuel)%nat -> Forall is_byte post -> Z.of_nat (length post) <= 16384 ->
    from_cache ignore A now q ql (q_type q0) edns (length post) L ->
    exists g mem', fetch raw ignore nf stack fuel m (enc_msg q ++ post) (length (enc_msg q)) edns now sent = Ret (if sent then 0 else -861, enc_msg g ++ mem', length (enc_msg g)) /\ is_reply q edns L g).
  { assert (F1 : exists f1, In (q_type q0) cached_types -> forall nf fuel post edns sent als rs, (f1 <= nf)%nat -> (length (enc_msg q ++ post) <= fuel)%nat -> Forall is_byte post ->
      Z.of_nat (length post) <= 16384 -> Fetch_Spec.answers ignore A now ql (q_type q0) als rs -> (q_type q0 = 5 -> (length rs <= 1)%nat) -> (length (enc_msg (full_reply q edns (als ++ rs))) <= length post)%nat -> rs <> [] ->
      exists g mem', fetch raw ignore nf stack fuel m (enc_msg q ++ post) (length (enc_msg q)) edns now sent = Ret (if sent then 0 else -861, enc_msg g ++ mem', length (enc_msg g)) /\ is_reply q edns (als ++ rs) g).
    { destruct (in_dec Z.eq_dec (q_type q0) cached_types) as [Hin|Hin]; [|exists 0%nat; intros; contradiction].
      destruct (fetch_answers raw ignore m A now HT HLk HQ' q q0 [] ql stack Hg Hq Hqn Ho Hne Hl Han Hk Hin Hst) as (f1 & HX). exists f1. intros _ nf fuel post edns sent als rs P1 P2 P3 P4 P5 P6 P7 P8.
      destruct (HX nf fuel post edns sent als rs P1 P2 P3 P4 P5 P6 P7) as (_ & X2). destruct (X2 P8) as (g & mem' & E & _ & HI). eauto. }
    assert (F2 : exists f2, In (q_type q0) [2; 5; 12] -> forall nf fuel post edns sent als n hs, (f2 <= nf)%nat -> (length (enc_msg q ++ post) <= fuel)%nat -> Forall is_byte post ->
      Z.of_nat (length post) <= 16384 -> hosts_for ignore A now ql (q_type q0) als n hs -> (length (enc_msg (full_reply q edns (als ++ map (alias_to n) hs))) <= length post)%nat -> hs <> [] ->
      exists g mem', fetch raw ignore nf stack fuel m (enc_msg q ++ post) (length (enc_msg q)) edns now sent = Ret (if sent then 0 else -861, enc_msg g ++ mem', length (enc_msg g)) /\ is_reply q edns (als ++ chained n hs) g).
    { destruct (in_dec Z.eq_dec (q_type q0) [2; 5; 12]) as [Hin|Hin]; [|exists 0%nat; intros; contradiction].
      destruct (fetch_hosts raw ignore m A now HT HLk HQ' q q0 [] ql stack Hg Hq Hqn Ho Hne Hl Han Hk Hin Hst) as (f2 & HX). exists f2. intros _ nf fuel post edns sent als n hs P1 P2 P3 P4 P5 P6 P7.
      destruct (HX nf fuel post edns sent als n hs P1 P2 P3 P4 P5 P6) as (_ & X2). destruct (X2 P7) as (g & mem' & E & _ & HI). eauto. }
    destruct F1 as (f1 & F1), F2 as (f2 & F2). exists (f1 + f2)%nat. intros nf fuel post edns sent L P1 P2 P3 P4 HL. destruct HL as [als rs L1 L2 L3 L4 L5|als n hs L1 L2 L3 L4].
    - apply (F1 L1 nf fuel post edns sent als rs); auto; lia.
    - apply (F2 L1 nf fuel post edns sent als n hs); auto; lia. }
  destruct HF as (f0 & HF). exists f0. intros fuel nf w a back sock c L Hnf Hfu H14 Ea Et HL (time & agent & edns & post & Ec & Hp & _) HN HV HC. set (name := map small (dotted ql)) in *.
  assert (Eed : h_edns (c_h c) = edns) by (rewrite Ec; reflexivity). rewrite Eed in *.
  assert (Een : c_entity c = enc_msg q ++ post) by (rewrite Ec; reflexivity). rewrite Een, app_length in H14, HC. rewrite Een in Hfu. rewrite (Nat.add_comm (length (enc_msg q))), Nat.add_sub in HC.
  destruct (HF nf fuel post edns (a_sent a) L Hnf Hfu Hp ltac:(lia) HC) as (g & mem' & E & HR). exists g. split; [exact HR|]. cbv zeta.
  rewrite (serve_to_cache k m w q q0 ql a back sock c fuel nf time agent edns post HP HL EK HN HV Ec), Ea, Et, E. cbn [bind].
  set (c2 := with_entity c (Z.of_nat (length (enc_msg g))) (enc_msg g ++ mem')).
  assert (EC : c2 = mk_ctx (with_length (c_h c) (length (enc_msg g))) (enc_msg g ++ mem')) by reflexivity.
  destruct (send_back_ok hdr (with_length (c_h c) (length (enc_msg g))) (enc_msg g) mem' (a_ret a) eq_refl) as (code & ES). rewrite EC, ES. cbn [bind fst].
  destruct HL as (_ & _ & _ & _ & _ & EM & ETU & EUT). pose proof (small_nonempty ql Ho Hne) as Hnn.
  assert (Eid : forall h, ctx_id (mk_ctx h (enc_msg g ++ mem')) = ctx_id c) by (intros h; rewrite Ec; eapply reply_id; exact HR).
  destruct (to_group_ok fn k a w c2 [sent_to hdr (c_h c) (with_length (c_h c) (length (enc_msg g))) (enc_msg g)] name (w_t2u w) (w_u2t w) EM ETU EUT Hnn) as (G1 & G2); try (rewrite EC, Ec; reflexivity).
  { rewrite EC, Eid, Ec. apply ctx_id_nonneg, Forall_app. split; [now apply enc_msg_bytes|exact Hp]. }
  rewrite EC in G1, G2. split; [intros ->; reflexivity|]. split; intros ->.
  - intros HG. change (-861 =? 0) with false. change (-861 =? -861) with true. cbn [orb]. exact (G1 HG).
  - intros HG. change (-861 =? 0) with false. change (-861 =? -861) with true. cbn [orb]. destruct (G2 HG) as (i & EE & HI). rewrite Eid in HI. eexists i, _. split; [exact EE|]. split; [|exact HI].
    split; [reflexivity|]. cbn [c_entity]. rewrite firstn_app, Nat.sub_diag, firstn_all. apply app_nil_r.
Qed.

(** The same as [C85_served_partial] for the types NS and PTR when the cache has no hosts for them. *)
Theorem C85_no_hosts_partial k m ops now parallel get : k_cache k = Some m -> cache_history ignore raw k ops now parallel get ->
  exists A, cache_holds ignore k ops parallel get (Some A) /\
  forall q q0 ql stack, plain_query q q0 ql -> In (q_type q0) [2; 12] -> length stack = 254%nat ->
  exists f0, forall fuel nf w a back sock c als n, let name := map small (dotted ql) in
    (f0 <= nf)%nat -> (length (c_entity c) <= fuel)%nat -> a_name a = stack -> a_now a = now -> a_inner a = true -> a_sent a = true ->
    loaded fn parse k w name -> labelled q (q_type q0) name back sock c -> hosts_for ignore A now ql (q_type q0) als n [] ->
    room good w q ql (q_type q0) (h_edns (c_h c)) als [] (length (c_entity c) - length (enc_msg q)) ->
    exists s, serve fn good hdr raw ignore fuel nf k a c = Ret s /\ due fn good hdr w q ql (q_type q0) name als [] c s.
Proof.
  intros EK HH. unfold cache_history, cache_holds in *. rewrite EK in HH |- *. destruct HH as (size & slots & t0 & H1 & H2 & H3 & H4 & H5 & H6).
  destruct (C63_hosts_as_aliases raw ignore parallel get size slots ops m t0 now H1 H2 H3 H4 H5 H6) as (A & HA & HC & HF). exists A. split; [eauto|].
  intros q q0 ql stack HP Hty Hst. pose proof HP as (Hg & Hq & Hqn & Ho & Hne & Hl & Hk & Han). assert (Hin : In (q_type q0) [2; 5; 12]) by (cbn [In] in *; lia).
  destruct (HF q q0 [] ql stack Hg Hq Hqn Ho Hne Hl Han Hk Hin Hst) as (f0 & HX). exists f0. intros fuel nf w a back sock c als n Hnf Hfu Ea Et Ei Es HL (time & agent & edns & post & Ec & Hp & _) HK HR.
  rewrite Ec in Hfu, HR. cbn [c_entity c_h h_edns] in Hfu, HR. rewrite app_length, (Nat.add_comm (length (enc_msg q))), Nat.add_sub in HR.
  apply (serve_ok fn parse good hdr raw ignore k w q q0 ql a back sock c als [] fuel nf time agent edns post HP HL Ei Es Ec Hp Hfu HR).
  destruct HR as (R1 & R2 & _). unfold fetch_ok. rewrite EK, Ea, Et. split; [intros _|intros X; congruence].
  destruct (HX nf fuel post edns true als n [] Hnf Hfu Hp R2 HK R1) as (X1 & _). destruct (X1 eq_refl) as (mem' & E & _). exists (-3), mem'. split; [discriminate|]. split; [discriminate|exact E].
Qed.
End P.
Print Assumptions C85_from_cache.
Print Assumptions C85_no_hosts_partial.

(** The cache of C63's example: with a reply that cannot be sent, the reply goes to the group 1; the name servers of e. *)
Definition kx_k : holds := mk_holds (k_types vx_k) (k_domains vx_k) true (k_static vx_k) None (Some ns_cache) (k_map vx_k) false false.
Definition kx_sent : list Z := [18; 52; 129; 160; 0; 1; 0; 2; 0; 0; 0; 1; 1; 101; 0; 0; 2; 0; 1; 192; 12; 0; 5; 0; 1; 0; 0; 1; 34; 0; 5; 1; 98; 1; 101; 0; 192; 31; 0; 5; 0; 1; 0; 0; 1; 34; 0; 5; 1; 97; 1; 101; 0; 0; 0; 41; 5; 0; 0; 0; 0; 0; 0; 0].
Example C85_from_cache_nonvacuous : cache_history false no_raw kx_k ns_ops 1010 false no_rule /\ ~ disabled vx_fn (vx_w []) 2 [101] /\ verdict (fun _ => None) true [] [] 2 T_none /\
  from_cache false ns_A 1010 (vx_q [[101]] 2) [[101]] 2 true 100 ([] ++ chained ns_name ns_hosts) /\
  from_cache false fx_A 1010 fx_q [[119]; [101]] 1 true 200 (fx_als ++ fx_rs) /\
  vx_show (udp_serve vx_fn (fun _ => None) (fun _ => []) no_raw false 400 60 kx_k (vx_a true) vx_b (vx_d (vx_q [[101]] 2))) = Some ([mk_sent 5 (Some [77]) kx_sent], None) /\
  vx_show (udp_serve vx_fn (fun _ => None) (fun _ => []) no_raw false 400 60 kx_k (vx_a false) vx_b (vx_d (vx_q [[101]] 2))) = Some ([mk_sent 5 (Some [77]) kx_sent], Some 1%nat).
Proof.
  destruct C63_nonvacuous as (_ & _ & _ & _ & _ & _ & _ & X8 & _). destruct C63_hosts_nonvacuous as (Y1 & Y2 & Y3 & Y4 & Y5 & Y6 & _ & Y8 & _).
  split; [cbn [cache_history kx_k k_cache]; exists 500%nat, 7%nat, 0; auto 8|]. split; [intros [[X|[]]|(d & [<-|[]] & Hd)]; [discriminate|]|]. { destruct Hd as [(_ & H)|(_ & H)]; [|vm_compute in H; discriminate]. change (undot [46; 97; 100; 46; 99]) with [97; 100; 46; 99] in H. unfold encloses in H. destruct H as [H|(p & _ & H)]; [discriminate|]. apply (f_equal (@length Z)) in H. rewrite app_length in H. cbn [length] in H. lia. }
  split; [split; [split; [discriminate|intros (_ & X & _); discriminate]|split; [reflexivity|intros _ _; reflexivity]]|]. split; [apply FC_hosts; [cbn; auto|exact Y8|discriminate|apply Nat.leb_le; vm_compute; reflexivity]|].
  split; [apply FC_records; [cbn; auto|exact X8|discriminate|discriminate|apply Nat.leb_le; vm_compute; reflexivity]|].
  split; vm_compute; reflexivity.
Qed.
(** No name servers are stored for w.e, an alias of c.e: the question goes to the group 1. *)
Example C85_no_hosts_nonvacuous : hosts_for false fx_A 1010 [[119]; [101]] 2 fx_als [[99]; [101]] [] /\
  vx_show (vx_run true (vx_q [[119]; [101]] 2)) = Some ([], Some 1%nat).
Proof.
  split; [|vm_compute; reflexivity]. split; [|constructor]. change (2 =? 5) with false. cbv iota.
  eapply al_step with (e := mk_entry [119; 46; 101] 5 1 [99; 46; 101; 0] 300 1000); [reflexivity| |apply fx_name; lia|reflexivity|apply al_end; reflexivity].
  apply (wd_name 5 [[99]; [101]]); [cbn; auto|apply fx_name; lia|discriminate|cbn; lia].
Qed.
