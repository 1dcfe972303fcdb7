(** C88: a query that goes on to a group of TCP servers, and its reply. *)
From Verif Require Import Base BaseFacts ListFacts List2Facts Hash_Model Bst_Model Bst_Spec Bst_Proofs Cht_Model Cache_Model Cache_Spec Alias_Spec Name_Model Name_Spec Parser_Model Parser_Spec Parser_Proofs Gen_Model Gen_Spec Gen_Proofs Gen2_Proofs Gen_Props Compress_Spec Compress_Proofs
  Iheader_Model Iheader_Spec Iheader_Proofs Iheader_Props
  Ip_Model Ip_Spec Ip5_Proofs Ip_Props Rdata_Model Rdata_Spec Rdata_Proofs Arr_Model Mctx_Model Mctx_Spec Mctx_Proofs Mctx_Props Sock_Model Sock_Spec Fetch_Spec Fetch_Proofs Fetch2_Proofs Fetch_Props Hosts_Model Hosts_Spec Hmsg_Spec Udpm_Model Udpm_Spec Udpm_Proofs Udpm_Props
  Tcp_Model Tcp_Props Tcpm_Model Tcpm_Spec Tcpm_Proofs Tcpm2_Proofs Tcpm_Props Serve_Model Serve_Spec Serve_Props Trip_Spec Trip_Proofs Trip_Props Ttrip_Spec Ttrip_Proofs.
Require Import Permutation ZifyBool ZifyNat.
Set Default Proof Using "Type".

Lemma handed_bytes q q0 ql type name back sock c c' i : plain_query q q0 ql -> labelled q type name back sock c -> same_query c c' -> handed_over i c' -> i_query i = Some (c_h c, enc_msg q).
Proof.
  intros HP (time & agent & edns & post & Ec & _) (Eh & Ef) H. unfold handed_over in H. rewrite Eh in H. rewrite H. f_equal. f_equal. rewrite Ec in Ef |- *. cbn [c_h h_len c_entity] in *.
  rewrite Nat2Z.id in *. rewrite Ef, firstn_app, firstn_all, Nat.sub_diag. cbn [firstn]. apply app_nil_r.
Qed.
(** The id of the query that comes with [i]. *)
Lemma comes_id i q h bytes : comes_with i q -> i_query i = Some (h, bytes) -> (2 <= length bytes)%nat -> get16 bytes 0 = Some (ctx_id q) /\ h_hash (c_h q) = h_hash h.
Proof.
  intros (h' & bytes' & e & now & E & -> & Hf) E2 HL. rewrite E2 in E. assert (h' = h /\ bytes' = bytes) as (-> & ->) by (split; congruence). cbn [stamped c_h c_entity]. unfold ctx_id. cbn [stamped c_entity]. split; [|reflexivity].
  rewrite <- (get16_front e (length bytes)) by lia. rewrite Hf. destruct bytes as [|a [|b l]]; cbn [length] in HL; try lia. reflexivity.
Qed.
Lemma among_in {X} (l l' : list X) x : among l l' -> In x l -> In x l'.
Proof. induction 1 as [|y l l' H IH|y l l' H IH]; cbn [In]; intuition. Qed.
Lemma forall2_in {X Y} (R : X -> Y -> Prop) l l' y : Forall2 R l l' -> In y l' -> exists x, In x l /\ R x y.
Proof. induction 1 as [|a b l l' H1 H2 IH]; intros H; [destruct H|]. destruct H as [<-|H]; [exists a; split; [left; reflexivity|exact H1]|]. destruct (IH H) as (x & Hx & Hr). exists x. split; [right; exact Hx|exact Hr]. Qed.

(** What is known of the query that comes to the module, and of a response to it. *)
Lemma replies_facts q q0 ql type name back sock c c' i g : plain_query q q0 ql -> labelled q type name back sock c -> same_query c c' -> handed_over i c' -> type = q_type q0 -> name = map small (dotted ql) -> response_to g q ->
  i_query i = Some (c_h c, enc_msg q) /\ get16 (enc_msg q) 0 = Some (ctx_id c) /\ (2 <= length (enc_msg q))%nat /\
  h_back (c_h c) = back /\ h_sock (c_h c) = sock /\ h_rethdr (c_h c) = false /\ h_domain (c_h c) = name /\ h_hash (c_h c) = bkdr name /\
  Iheader_Spec.asked g name type /\ get16 (m_idflags g) 0 = Some (ctx_id c) /\ get16 (m_idflags q) 0 = Some (ctx_id c).
Proof.
  intros HP HL HQ HO -> -> HRes. destruct (handed_id _ _ _ _ _ _ _ _ _ HP HL HQ) as (Hid & Eid & _). split; [exact (handed_bytes _ _ _ _ _ _ _ _ _ _ HP HL HQ HO)|].
  assert (X3 : get16 (enc_msg q) 0 = get16 (m_idflags q) 0). { destruct HP as ((L4 & _) & _). unfold enc_msg, header. rewrite <- ?app_assoc. destruct (m_idflags q) as [|a [|b l]]; cbn in L4; try discriminate L4. reflexivity. }
  rewrite Eid in Hid. split; [congruence|]. split; [pose proof (enc_msg_length q (proj1 (proj1 HP))) as X; clear - X; lia|].
  assert (HLb : h_back (c_h c) = back /\ h_sock (c_h c) = sock /\ h_rethdr (c_h c) = false /\ h_domain (c_h c) = map small (dotted ql) /\ h_hash (c_h c) = bkdr (map small (dotted ql))) by (destruct HL as (? & ? & ? & ? & -> & _); cbn; auto 6).
  destruct HLb as (Lb & Ls & Lr & Ld & Lh). split; [exact Lb|]. split; [exact Ls|]. split; [exact Lr|]. split; [exact Ld|]. split; [exact Lh|].
  destruct HRes as (Rid & name2 & type2 & Rg & Rq). pose proof (asked_plain q q0 ql HP) as Rq'. destruct (C59_asked_unique q _ _ _ _ Rq Rq') as (-> & ->). split; [exact Rg|]. split; [|exact Hid].
  rewrite <- (get16_front (m_idflags g) 2), Rid, get16_front, Hid by lia. reflexivity.
Qed.

Section Props.
Context (v : tenv) (targets : list (list Z * list Z)) (nproxies : option nat) (par : bool) (keep incoming : Z) (stale : tctx).
Context (ap : bool) (misc : option (ipchunk * bool)) (raw : list Z -> list cnode -> nat -> Z) (ignore parallel : bool) (get : list Z -> option ctrl).
Context (hdr : iheader -> list Z) (arr : list Z -> list Z).
Notation nservers := (length targets).
Notation turn fuel nf := (t_turn v targets nproxies par keep incoming stale ap misc raw ignore parallel get hdr arr fuel nf).
Notation run fuel nf := (t_run v targets nproxies par keep incoming stale ap misc raw ignore parallel get hdr arr fuel nf).
Notation takes fuel nf := (cache_takes raw ignore parallel get nf fuel).
Notation reached fuel nf room m0 is es m := (env_ok v nservers nproxies /\ (room <= 4096)%nat /\ t_started nservers nproxies incoming room m0 /\ Forall (tin_ok room) is /\ run fuel nf m0 is = Ret (es, m) /\ t_alive m = true).

(** When the query comes to the module, all goes well from then on, and no attempt to connect fails, one of the servers, or in parallel mode each of them once, is sent the client's
    query, as it is, behind its length. *)
Theorem C88_sent fuel nf room m0 is es m i q q0 ql type name back sock c c' : reached fuel nf room m0 is es m -> tin_ok room i -> wakes v incoming (t_k m) incoming -> (0 < nservers)%nat ->
  plain_query q q0 ql -> labelled q type name back sock c -> same_query c c' -> handed_over i c' -> fair nproxies v (ticked (t_k m)) (framed (enc_msg q)) ->
  exists es' m' ss l, turn fuel nf m i = Ret (es', m') /\ t_alive m' = true /\ k_log (t_k m') = l ++ k_log (t_k m) /\ only_sends (framed (enc_msg q)) l /\ sent_to (k_log (t_k m')) = ss ++ sent_to (k_log (t_k m)) /\
    (no_conn v (t_k m) (t_k m') \/ if par then Permutation (map Some (seq 0 nservers)) ss else exists j, (j < nservers)%nat /\ ss = [Some j]).
Proof.
  intros HR HI HW HN HP HL HQ HO HF. pose proof (handed_bytes _ _ _ _ _ _ _ _ _ _ HP HL HQ HO) as HB.
  exact (C70_sent v targets nproxies par keep incoming stale ap misc raw ignore parallel get hdr arr fuel nf room m0 is es m i (c_h c) (enc_msg q) HR HI HW HB HN HF).
Qed.

Lemma turn_enters fuel nf room m1 w1 t1 i0 h bytes e1 m2 : env_ok v nservers nproxies -> (room <= 4096)%nat -> tinv targets nproxies incoming room m1 w1 t1 -> tin_ok room i0 -> wakes v incoming (t_k m1) incoming ->
  i_query i0 = Some (h, bytes) -> turn fuel nf m1 i0 = Ret (e1, m2) ->
  exists w2 t2 e, tinv targets nproxies incoming room m2 w2 t2 /\ firstn (length bytes) e = bytes /\ settles hdr t1 [stamped (mk_ctx h e) (v_time v (S (S (k_tick (t_k m1)))))] e1 t2 /\ (S (S (k_tick (t_k m1))) <= k_tick (t_k m2))%nat.
Proof.
  intros HE Hroom HT1 Hi0 HW1 HB E1. destruct HW1 as (r & Hsel & Hr & _ & Ho). assert (HT1' := HT1). destruct HT1' as (I1 & I2 & I3 & I4 & _). destruct (holds_select _ _ _ I3 (proj1 HE (k_tick (t_k m1)))) as (o & err & E & HOs). destruct o as [[s1 a]|].
    - destruct HOs as (d & Hd & _ & Hrs). assert (s1 = incoming) as ->.
      { apply Ho; [apply (wait_busy targets nproxies incoming _ _ _ _ _ HT1), (holds_watched _ _ I3); congruence|]. apply (Hrs [] r []); [exact Hsel|constructor]. }
      assert (ET : t_incoming v targets nproxies par keep incoming stale arr m1 a i0 = Ret (e1, m2)) by (unfold t_turn in E1; rewrite I1 in E1; cbn [negb] in E1; rewrite E in E1; cbn [bind fst snd] in E1; rewrite Z.eqb_refl in E1; exact E1).
      destruct (incoming_ok v targets nproxies par keep incoming stale hdr arr HE room m1 w1 t1 i0 a err Hroom HT1 Hi0 E) as (es4 & m4 & w2 & t2 & qs & ss & msg & ET2 & HT2 & HS2 & _ & HAd & _ & HC). rewrite ET in ET2. assert (es4 = e1 /\ m4 = m2) as (-> & ->) by (split; congruence).
      rewrite HB in HC. destruct HC as ((e & -> & He) & _). exists w2, t2, e. split; [exact HT2|]. split; [exact He|]. split; [exact HS2|].
      unfold t_incoming in ET. cbv zeta in ET. destruct (if 1024 <? t_cum m1 then _ else _) as [[[x1 x2] x3]| | |]; try discriminate. cbn [bind] in ET. rewrite HB in ET.
      destruct (mc_add _ _ _) as [r1| | |]; try discriminate. cbn [bind] in ET. destruct (deref _ _) as [n| | |]; try discriminate. cbn [bind] in ET. destruct (send_actual _ _ _ _ _ _ _ _ _ _ _ _ _) as [[[k3 q3] w3]| | |] eqn:ES; try discriminate. cbn [bind] in ET.
      apply send_actual_onward in ES. destruct (pl_del _ _ _) as [w4| | |]; try discriminate. cbn [bind] in ET. destruct (pl_data _ _) as [d4| | |]; try discriminate. cbn [bind] in ET. destruct (pl_add _ _ _) as [w5| | |]; try discriminate. cbn [bind] in ET.
      match type of ET with Ret (_, ?y) = _ => assert (m2 = y) as -> by congruence end. cbn [t_k]. clear - ES. unfold onward, ticked in ES. cbn [k_tick] in ES. lia.
    - exfalso. destruct (HOs r Hsel) as (_ & HXX). destruct (at_ w1 PWait incoming) as [d|] eqn:Ew; [rewrite (HXX _ _ Ew) in Hr; discriminate|]. assert (Hin : watched (t_wait m1) incoming) by (apply (wait_busy targets nproxies incoming _ _ _ _ _ HT1); auto). apply (holds_watched _ _ I3) in Hin. congruence.
Qed.
(** The query is answered or still pending, alone with its identification and hash. *)
Lemma goes_on fuel nf room m0 is1 i0 is2 es1 m1 es m h bytes id : reached fuel nf room m0 (is1 ++ i0 :: is2) es m -> run fuel nf m0 is1 = Ret (es1, m1) -> wakes v incoming (t_k m1) incoming ->
  i_query i0 = Some (h, bytes) -> get16 bytes 0 = Some id -> (2 <= length bytes)%nat -> soon v (t_k m1) (t_k m) ->
  (forall i h2 bytes2, In i (is1 ++ is2) -> i_query i = Some (h2, bytes2) -> get16 bytes2 0 <> Some id \/ h_hash h2 <> h_hash h) ->
  exists t3 e now, let p := stamped (mk_ctx h e) now in known (t_u m) t3 /\ ctx_id p = id /\
    ((exists r msg code, In (VReplied (to_client hdr p r msg) code) (skipn (length es1) es) /\ forall w, get16 msg 0 = Some w -> w = id) \/
     In p (map snd (elems t3)) /\ forall p2, In p2 (map snd (elems t3)) -> ctx_id p2 = id -> h_hash (c_h p2) = h_hash h -> p2 = p).
Proof.
  intros (HE & Hroom & HSt & HFi & HR & Hal) R1' HW1 HB Hid0 Hlen HS HA.
  apply Forall_app in HFi. destruct HFi as (HF1 & HF2). pose proof (Forall_inv HF2) as Hi0. pose proof (Forall_inv_tail HF2) as HF2'. clear HF2.
  destruct (trun_app v targets nproxies par keep incoming stale ap misc raw ignore parallel get hdr arr fuel nf is1 _ m0 es m HR) as (es1' & m1' & es2 & R1 & R2 & Ees). rewrite R1 in R1'. assert (es1' = es1 /\ m1' = m1) as (-> & ->) by (split; congruence). clear R1'.
  destruct (started_inv targets nproxies incoming room m0 HSt) as (w0 & HT0).
  destruct (run_ok v targets nproxies par keep incoming stale hdr arr HE ap misc raw ignore parallel get fuel nf room is1 Hroom m0 w0 Leaf es1 m1 HT0 HF1 R1) as (t1 & qs1 & ch1 & K1 & S1 & _ & A1 & C1 & [(Al1 & w1 & HT1)|(D1 & _)]).
  2:{ exfalso. rewrite (dead_run v targets nproxies par keep incoming stale hdr arr ap misc raw ignore parallel get fuel nf m1 _ D1) in R2. congruence. }
  cbn [t_run] in R2. destruct (turn fuel nf m1 i0) as [[e1 m2]| | |] eqn:E1; try discriminate. cbn [bind fst snd] in R2. destruct (run fuel nf m2 is2) as [[es3 m3]| | |] eqn:R3; try discriminate. cbn [bind fst snd] in R2. assert (es2 = e1 ++ es3 /\ m3 = m) as (-> & ->) by (split; congruence). clear R2.
  destruct (turn_enters fuel nf room m1 w1 t1 i0 h bytes e1 m2 HE Hroom HT1 Hi0 HW1 HB E1) as (w2 & t2 & e & HT2 & He & S2 & Tk2). set (now := v_time v (S (S (k_tick (t_k m1))))) in *.
  destruct (run_ok v targets nproxies par keep incoming stale hdr arr HE ap misc raw ignore parallel get fuel nf room is2 Hroom m2 w2 t2 es3 m HT2 HF2' R3) as (t3 & qs3 & ch3 & K3 & S3 & _ & A3 & C3 & _).
  pose proof (turn_late v targets nproxies par keep incoming stale ap misc raw ignore parallel get hdr arr fuel nf m1 i0 t1 e1 m2 K1 E1) as L1.
  pose proof (run_late v targets nproxies par keep incoming stale ap misc raw ignore parallel get hdr arr fuel nf HE room is2 Hroom m2 w2 t2 es3 m HT2 HF2' R3) as L2. pose proof (late_app v _ _ _ _ _ L1 L2) as (On & HLate).
  exists t3, e, now. intros p. assert (Pid : ctx_id p = id /\ h_hash (c_h p) = h_hash h).
  { destruct (comes_id i0 p h bytes) as (X1 & X2); [exists h, bytes, e; eexists; split; [exact HB|]; split; [reflexivity|exact He]|exact HB|exact Hlen|]. split; [congruence|exact X2]. }
  destruct Pid as (P1 & P2). split; [exact K3|]. split; [exact P1|].
  assert (Hsk : skipn (length es1) (es1 ++ e1 ++ es3) = e1 ++ es3) by (rewrite skipn_app, skipn_all, Nat.sub_diag; reflexivity).
  rewrite Ees, Hsk. pose proof (settles_trans _ _ _ _ _ _ _ _ S2 S3) as S23. destruct (settles_end _ _ _ _ _ S23) as (d & tt & HFt & HPm). fold p in HPm, S23.
  assert (HIn : In p (d ++ tt ++ map snd (elems t3))) by (eapply Permutation_in; [exact HPm|]; apply in_or_app; right; left; reflexivity).
  apply in_app_or in HIn. destruct HIn as [HIn|HIn].
  { left. destruct (fates_delivered _ _ _ _ _ HFt HIn) as (r & msg & code & X1 & _ & X2). exists r, msg, code. split; [exact X1|]. intros w E. rewrite (X2 w E). exact P1. }
  apply in_app_or in HIn. destruct HIn as [HIn|HIn].
  { exfalso. destruct (fates_timeout _ _ _ _ _ HFt HIn) as (l & X1 & X2). destruct (HLate l X1) as (b & Hb & HX4). rewrite Forall_forall in HX4. specialize (HX4 p X2). unfold expired in HX4. cbn [p stamped c_h h_time] in HX4.
    assert (HSo := HS (S (S (k_tick (t_k m1)))) b). destruct L2 as (O2 & _). unfold onward in O2. subst now. clear - HX4 HSo Hb O2 Tk2. lia. }
  right. split; [exact HIn|]. intros p2 H2 I2 I2h. pose proof (settles_trans _ _ _ _ _ _ _ _ S1 S23) as S123. destruct (settles_end _ _ _ _ _ S123) as (d' & tt' & _ & HPm'). cbn [elems map app] in HPm'.
  assert (Hq : In p2 (qs1 ++ p :: qs3)) by (eapply Permutation_in; [symmetry; exact HPm'|]; apply in_or_app; right; apply in_or_app; right; exact H2).
  assert (HNo : forall ch qs isx, among ch isx -> Forall2 comes_with ch qs -> In p2 qs -> incl isx (is1 ++ is2) -> Forall (tin_ok room) isx -> False).
  { intros ch qs isx HAm HCo Hin Hincl HFx. destruct (forall2_in _ _ _ _ HCo Hin) as (ix & Hix & Hcw). pose proof (among_in _ _ _ HAm Hix) as Hix2. rewrite Forall_forall in HFx. destruct (HFx ix Hix2) as (HTi & _).
    pose proof Hcw as (h2 & bytes2 & _ & _ & Eq & _). destruct (HTi h2 bytes2 Eq) as (_ & _ & (Hb4 & _) & _). destruct (comes_id ix p2 h2 bytes2 Hcw Eq) as (X1 & X2); [clear - Hb4; lia|]. destruct (HA ix h2 bytes2 (Hincl ix Hix2) Eq) as [X|X]; [apply X; rewrite X1, I2; reflexivity|apply X; congruence]. }
  apply in_app_or in Hq. destruct Hq as [Hq|[<-|Hq]]; [exfalso|reflexivity|exfalso].
  - apply (HNo ch1 qs1 is1 A1 C1 Hq); [intros x Hx; apply in_or_app; auto|exact HF1].
  - apply (HNo ch3 qs3 is2 A3 C3 Hq); [intros x Hx; apply in_or_app; auto|exact HF2'].
Qed.

(** Whatever the module did before and does meanwhile, for this and for other clients, and whatever arrives on its connections: when a well-formed response to the query arrives, in one
    piece, on any connection on which one is awaited, and it is not to be discarded, and not more than two seconds have passed since the query, then either the client has been sent a reply since the query or it
    is sent this one now - the message as it arrived but for the configured addresses - at the address and the socket of its query, and the cache gets to see it as a first response to the name.
    What is missing from the full statement: as in C86 other pending queries with the same identification and hash, and hashes that are far apart; replies in several pieces (C46). *)
Theorem C88_reply_partial rules room : filter_from rules misc -> (forall d, length (arr d) = 256%nat) ->
  exists look, policy rules look /\
  (orderly rules -> forall a o, address a -> (forall r, In r rules -> single r -> ~ rule_covers a r) -> Ip_Spec.first (rule_covers a) rules o -> look a = option_map ru_act o) /\
  forall g, acceptable g -> Forall address_ok (m_an g) -> (length (enc_msg g) <= room)%nat ->
  exists blocked an' f0, filtered look (m_an g) blocked an' /\
  forall fuel nf m0 is1 i0 is2 es1 m1 es m q q0 ql back sock c c' i s, (f0 <= fuel)%nat -> (f0 <= nf)%nat ->
    let name := map small (dotted ql) in
    let is := is1 ++ i0 :: is2 in
    plain_query q q0 ql -> labelled q (q_type q0) name back sock c -> same_query c c' -> handed_over i0 c' ->
    run fuel nf m0 is1 = Ret (es1, m1) -> wakes v incoming (t_k m1) incoming -> reached fuel nf room m0 is es m ->
    tame_run (run fuel nf m0) is -> alone_in c (is1 ++ is2) -> soon v (t_k m1) (t_k m) ->
    response_to g q -> tin_ok room i -> wakes v incoming (t_k m) s -> s <> incoming -> in_one_piece (i_net i) (enc_msg g) -> ~ to_discard (no_negative misc) blocked ap g ->
    let g' := with_an g an' in
    let response := mk_response true g' (skipn (length (enc_msg g)) (u_mem (u_rb (t_u m)))) name (x_clk (i_rx i)) (x_host (i_rx i)) (x_buf (i_rx i)) in
    (exists msg code, In (VReplied (at_client back sock msg) code) (skipn (length es1) es) /\ (forall w, get16 msg 0 = Some w -> get16 (m_idflags q) 0 = Some w)) \/
    exists code f, (code = 0 <-> x_ret (i_rx i) = Z.of_nat (length (s_bytes (at_client back sock (enc_msg g'))))) /\
      turn fuel nf m i = (let! k := takes fuel nf (u_cache (t_u m)) response in Ret ([VReplied (at_client back sock (enc_msg g')) code], f k)) /\
      forall k, takes fuel nf (u_cache (t_u m)) response = Ret k -> u_cache (t_u (f k)) = k.
Proof.
  intros HFF Harr. destruct (C71_reply_partial v targets nproxies par keep incoming stale ap misc raw ignore parallel get hdr arr rules room HFF Harr) as (look & HPol & HOrd & HX). exists look. split; [exact HPol|]. split; [exact HOrd|].
  intros g Hg Hga Hgr. destruct (HX g Hg Hga Hgr) as (blocked & an' & f0 & HFil & HY). exists blocked, an', f0. split; [exact HFil|].
  intros fuel nf m0 is1 i0 is2 es1 m1 es m q q0 ql back sock c c' i s Hf Hn name is HP HL HQ HO HR1 HW1 HRe HT HA HS HRes Hi HW Ns HOne HD. cbv zeta.
  specialize (HY fuel nf m0 is es m i s Hf Hn HRe Hi HW Ns HOne). clear HX HOrd.
  destruct (replies_facts q q0 ql (q_type q0) name back sock c c' i0 g HP HL HQ HO eq_refl eq_refl HRes) as (HB & Hid & Hlen & Lb & Ls & Lr & Ld & Lh & Rg & Gid).
  destruct (goes_on fuel nf room m0 is1 i0 is2 es1 m1 es m (c_h c) (enc_msg q) (ctx_id c) HRe HR1 HW1 HB Hid Hlen HS HA) as (t3 & e & now & K3 & P1 & [(r & msg & code & X1 & X2)|(HIn & HU)]).
  { left. exists msg, code. rewrite <- (client_of hdr (stamped (mk_ctx (c_h c) e) now) r msg back sock) by assumption. split; [exact X1|]. intros w E. rewrite (X2 w E). exact (proj2 Gid). }
  right. set (p := stamped (mk_ctx (c_h c) e) now) in *. pose proof K3 as ((fl3 & HB3) & _).
  destruct HY as [(X & _)|[(_ & p2 & rest & r & tab' & code & f & Ht & Hans & _ & _ & _ & Hcode & Est & Hk)|(_ & HN & _)]]; [contradiction| |].
  - assert (p2 = p) as ->.
    { destruct Hans as (n3 & t3' & B1 & B2 & B3). destruct (C59_asked_unique g _ _ _ _ B1 Rg) as (-> & _). apply HU; [|rewrite (proj1 Gid) in B2; congruence|congruence].
      apply (table_vals _ t3 fl3 HB3) in Ht. eapply Permutation_in; [symmetry; exact Ht|left; reflexivity]. }
    rewrite (client_of hdr p r (enc_msg (with_an g an')) back sock) in Hcode, Est by assumption.
    assert (Ed : h_domain (c_h p) = name) by exact Ld. rewrite Ed in Est, Hk. exists code, f. split; [exact Hcode|]. split; [exact Est|]. intros k Ek. apply (Hk k Ek).
  - exfalso. apply (HN (map snd (elems t3)) p HT); [apply (table_vals _ t3 fl3 HB3); reflexivity|exact HIn|]. exists name, (q_type q0). split; [exact Rg|]. split; [rewrite (proj1 Gid), P1; reflexivity|exact Lh].
Qed.
End Props.
Print Assumptions C88_sent.
Print Assumptions C88_reply_partial.

(** The condition on the hashes holds if the queries that come have it: for each identification the hashes lie in one half of the range. *)
Lemma tame_inputs v targets nproxies par keep incoming stale ap misc raw ignore parallel get hdr arr fuel nf room m0 is lo : env_ok v (length targets) nproxies -> (room <= 4096)%nat -> t_started (length targets) nproxies incoming room m0 ->
  Forall (tin_ok room) is -> (forall i h bytes id, In i is -> i_query i = Some (h, bytes) -> get16 bytes 0 = Some id -> (h_hash h - lo id) mod 4294967296 < 2147483648) ->
  tame_run (t_run v targets nproxies par keep incoming stale ap misc raw ignore parallel get hdr arr fuel nf m0) is.
Proof.
  intros HE Hroom HSt HF HQ is1 j is2 es1 m1 p1 qs -> HR Hp Hq. destruct (started_inv targets nproxies incoming room m0 HSt) as (w0 & HT0). assert (HF1 := proj1 (proj1 (Forall_app _ _ _) HF)).
  destruct (run_ok v targets nproxies par keep incoming stale hdr arr HE ap misc raw ignore parallel get fuel nf room is1 Hroom m0 w0 Leaf es1 m1 HT0 HF1 HR) as (t1 & qs1 & ch1 & K1 & S1 & _ & A1 & C1 & _).
  destruct K1 as ((fl & HB) & _). apply (table_vals _ t1 fl HB) in Hp. destruct (settles_end _ _ _ _ _ S1) as (d & tt & _ & HPm). cbn [elems map app] in HPm.
  assert (HX : forall q, In q (p1 ++ qs) -> exists i, In i (is1 ++ j :: is2) /\ comes_with i q).
  { intros q H. apply in_app_or in H. destruct H as [H|H].
    - assert (H2 : In q qs1) by (eapply Permutation_in; [symmetry; exact HPm|]; apply in_or_app; right; apply in_or_app; right; eapply Permutation_in; [symmetry; exact Hp|exact H]).
      destruct (forall2_in _ _ _ _ C1 H2) as (ix & Hix & Hcw). exists ix. split; [apply in_or_app; left; exact (among_in _ _ _ A1 Hix)|exact Hcw].
    - destruct Hq as [->|(q' & -> & Hc)]; [destruct H|]. destruct H as [<-|[]]. exists j. split; [apply in_or_app; right; left; reflexivity|exact Hc]. }
  exists lo. intros q H. destruct (HX q H) as (i & Hi & Hc). rewrite Forall_forall in HF. destruct (HF i Hi) as (HTi & _). pose proof Hc as (h & bytes & _ & _ & Eq & _).
  destruct (HTi h bytes Eq) as (Hh & _ & (Hl & _) & _). destruct (comes_id i q h bytes Hc Eq) as (X1 & X2); [clear - Hl; lia|]. unfold hash_ok. rewrite X2. split; [exact Hh|]. exact (HQ i h bytes _ Hi Eq X1).
Qed.

(** * Examples *)
(** The query of C86 comes to a module with two TCP servers, after another one, and goes out on a third connection; the reply to the other one is first. *)
Definition over (c : mctx) : tin := mk_tin (Some (c_h c, firstn (Z.to_nat (h_len (c_h c))) (c_entity c))) [] rx70.
Definition got88 (g : message) (n : Z) : tin := mk_tin None [Seg (framed (enc_msg g))] (mk_rx [] (P_unknown, 0, 0, 0) [] [] (fun _ => 0) n).
Definition sel88 (t : nat) : list selret := [SelReady (fun s => if (t =? 14)%nat then s =? 900 else if (t =? 28)%nat then s =? 5 else if (t =? 30)%nat then s =? 7 else true)].
Definition env88 : tenv := env70 sel88 3 (fun t => if (t <? 20)%nat then 100 else 102).
Definition c88 : mctx := mk_ctx (mk_ih None false 0 (Some [77]) 5 [120; 46; 99] (bkdr [120; 46; 99]) 1 false true 32 [49]) (enc_msg tx_q ++ []).
Lemma over_ok c msg : h_len (c_h c) = Z.of_nat (length msg) -> firstn (length msg) (c_entity c) = msg -> 0 <= h_hash (c_h c) < 4294967296 -> (4 <= length msg <= 120)%nat -> Forall is_byte msg -> tin_ok 120 (over c).
Proof.
  intros HL HM HH Hl HB. split; [|intros e []]. intros h bytes E. unfold over in E. cbn [i_query] in E. rewrite HL, Nat2Z.id, HM in E. assert (h = c_h c /\ bytes = msg) as (-> & ->) by (split; congruence). auto.
Qed.
Example C88_nonvacuous : exists es1 m1 es m m2, plain_query tx_q (mk_q (plain [[120]; [99]]) 1 1) [[120]; [99]] /\ labelled tx_q 1 (map small (dotted [[120]; [99]])) (Some [77]) 5 c88 /\ same_query c88 tx_c' /\ handed_over (over tx_c') tx_c' /\
  acceptable tx_g /\ Forall address_ok (m_an tx_g) /\ filter_from [] None /\ env_ok env88 2 None /\ t_started 2 None 900 120 (start70 2) /\ Forall (tin_ok 120) [in70 7 1 5; over tx_c'; got70 (enc_msg (reply64 7 77))] /\ tin_ok 120 (got88 tx_g 37) /\
  run70 env88 two false (start70 2) [in70 7 1 5] = Ret (es1, m1) /\ wakes env88 900 (t_k m1) 900 /\ run70 env88 two false (start70 2) [in70 7 1 5; over tx_c'; got70 (enc_msg (reply64 7 77))] = Ret (es, m) /\ t_alive m = true /\
  tame_run (run70 env88 two false (start70 2)) [in70 7 1 5; over tx_c'; got70 (enc_msg (reply64 7 77))] /\ alone_in c88 [in70 7 1 5; got70 (enc_msg (reply64 7 77))] /\ soon env88 (t_k m1) (t_k m) /\ response_to tx_g tx_q /\
  wakes env88 900 (t_k m) 7 /\ in_one_piece (i_net (got88 tx_g 37)) (enc_msg tx_g) /\ ~ to_discard false false false tx_g /\
  run70 env88 two false m [got88 tx_g 37] = Ret ([VReplied (mk_sent 5 (Some [77]) (enc_msg tx_g)) 0], m2).
Proof.
  assert (Eh : c_h tx_c' = mk_ih None false 0 (Some [77]) 5 [120; 46; 99] (bkdr [120; 46; 99]) 1 false true 32 [49]) by (vm_compute; reflexivity).
  assert (Ef : firstn 32 (c_entity tx_c') = enc_msg tx_q) by (vm_compute; reflexivity).
  assert (H1 : exists es1 m1, run70 env88 two false (start70 2) [in70 7 1 5] = Ret (es1, m1) /\ k_tick (t_k m1) = 14%nat /\ (forall x, busy (k_log (t_k m1)) x -> x <> 900)).
  { eexists _, _. split; [vm_compute; reflexivity|]. split; [reflexivity|]. intros x (via & j & H) ->. vm_compute in H. discriminate H. }
  destruct H1 as (es1 & m1 & E1 & T1 & B1).
  assert (H2 : exists es m, run70 env88 two false (start70 2) [in70 7 1 5; over tx_c'; got70 (enc_msg (reply64 7 77))] = Ret (es, m) /\ t_alive m = true /\ k_tick (t_k m) = 30%nat /\ busy (k_log (t_k m)) 7 /\
    exists m2, run70 env88 two false m [got88 tx_g 37] = Ret ([VReplied (mk_sent 5 (Some [77]) (enc_msg tx_g)) 0], m2)).
  { eexists _, _. split; [vm_compute; reflexivity|]. split; [reflexivity|]. split; [reflexivity|]. split; [exists None, 1%nat; reflexivity|]. eexists. vm_compute. reflexivity. }
  destruct H2 as (es & m & E2 & A2 & T2 & B2 & m2 & E3). exists es1, m1, es, m, m2.
  assert (HE : env_ok env88 2 None) by (apply env70_ok; [|lia|lia]; intros t; eexists [], _, []; split; [reflexivity|]; split; [constructor|discriminate]).
  assert (HF : Forall (tin_ok 120) [in70 7 1 5; over tx_c'; got70 (enc_msg (reply64 7 77))]).
  { constructor; [apply in70_ok; lia|]. constructor; [|constructor; [apply got70_ok; vm_compute; repeat constructor; discriminate|constructor]].
    apply (over_ok tx_c' (enc_msg tx_q)); [rewrite Eh; vm_compute; reflexivity|exact Ef|rewrite Eh; vm_compute; split; [discriminate|reflexivity]|vm_compute; lia|apply enc_msg_bytes, tx_plain]. }
  split; [exact tx_plain|]. split. { exists 0, [49], true, []. split; [reflexivity|]. split; [constructor|]. split; [|reflexivity]. intros _. exists opt_record. split; [left; reflexivity|reflexivity]. }
  split; [split; [exact Eh|vm_compute; reflexivity]|]. split; [reflexivity|]. split; [exact tx_acceptable|]. split; [constructor; [|constructor]; intros _; split; [reflexivity|discriminate]|]. split; [constructor|].
  split; [exact HE|]. split; [apply start70_ok|]. split; [exact HF|]. split. { split; [discriminate|]. intros e [<-|[]]. split; [discriminate|]. unfold framed. apply Forall_app. split; [apply BaseFacts.be16_bytes|apply enc_msg_bytes, tx_acceptable]. }
  split; [exact E1|]. split. { eexists. rewrite T1. split; [reflexivity|]. split; [reflexivity|]. split; [left; reflexivity|]. intros x _ H. apply Z.eqb_eq. exact H. }
  split; [exact E2|]. split; [exact A2|]. split.
  { refine (tame_inputs env88 two None false 30 900 tctx0 false None no_raw64 false false (fun _ => None) (fun _ => []) arr64 30 30 120 (start70 2) _ (fun _ => 0) HE _ (start70_ok 2) HF _); [lia|].
    intros i h bytes id Hi Eq _. cbn [In] in Hi. destruct Hi as [<-|[<-|[<-|[]]]]; [| |discriminate Eq].
    - assert (h = h70 7 1 5) as -> by (unfold in70 in Eq; cbn [i_query] in Eq; congruence). vm_compute. reflexivity.
    - assert (h = c_h tx_c') as -> by (unfold over in Eq; cbn [i_query] in Eq; congruence). rewrite Eh. vm_compute. reflexivity. }
  split. { intros i h bytes Hi Eq. cbn [In] in Hi. destruct Hi as [<-|[<-|[]]]; [|discriminate Eq]. left. assert (bytes = enc_msg (msg64 7)) as -> by (unfold in70 in Eq; cbn [i_query] in Eq; congruence). vm_compute. discriminate. }
  split. { intros a b _ _. cbn [env88 env70 v_time]. destruct (a <? 20)%nat, (b <? 20)%nat; lia. }
  split; [exact tx_response|]. split. { eexists. rewrite T2. split; [reflexivity|]. split; [reflexivity|]. split; [right; exact B2|]. intros x _ H. apply Z.eqb_eq. exact H. }
  split; [exists [], []; left; rewrite app_nil_r; reflexivity|]. split; [intros [(H & _)|[H|(H & _)]]; discriminate H|exact E3].
Qed.

(** Not true with the option -ap: h.com is asked with no OPT record, the servers of the group are asked with the query as it is, so that a proper reply has no OPT record either (RFC 6891), and every
    such reply is discarded. *)
Definition run88 (v : tenv) := t_run v two None false 30 900 tctx0 true None no_raw64 false false (fun _ => None) (fun _ => []) arr64 30 30.
Theorem C88_ap_refuted : exists v c i0 es1 m1 i m2, plain_query (lx_q [104]) (mk_q (plain [[104]; [99; 111; 109]]) 1 1) [[104]; [99; 111; 109]] /\ labelled (lx_q [104]) 1 (map small (dotted [[104]; [99; 111; 109]])) (Some [3]) 5 c /\
  handed_over i0 c /\ env_ok v 2 None /\ t_started 2 None 900 120 (start70 2) /\ Forall (tin_ok 120) [i0; i] /\ wakes v 900 (t_k (start70 2)) 900 /\ run88 v (start70 2) [i0] = Ret (es1, m1) /\ t_alive m1 = true /\
  soon v (t_k (start70 2)) (t_k m1) /\ In (TSent 5 (framed (enc_msg (lx_q [104]))) (framed (enc_msg (lx_q [104]))) true) (k_log (t_k m1)) /\
  response_to (lx_g [104]) (lx_q [104]) /\ m_ar (lx_q [104]) = [] /\ m_ar (lx_g [104]) = [] /\ wakes v 900 (t_k m1) 5 /\ in_one_piece (i_net i) (enc_msg (lx_g [104])) /\
  run88 v m1 [i] = Ret ([VDiscarded misc_nothing], m2).
Proof.
  assert (HP : plain_query (lx_q [104]) (mk_q (plain [[104]; [99; 111; 109]]) 1 1) [[104]; [99; 111; 109]]).
  { assert (HN : name_ok [[104]; [99; 111; 109]]) by (unfold name_ok; repeat (constructor; [repeat split; cbn; try lia; repeat (constructor; [lia|]); constructor|]); constructor).
    split; [|split; [reflexivity|]; split; [reflexivity|]; split; [exact HN|]; split; [discriminate|]; split; [cbn; lia|]; split; reflexivity].
    unfold good_msg, lx_q. cbn [m_idflags m_qs m_an m_ns m_ar]. split; [reflexivity|]. split; [bytes_ok|].
    split; [constructor; [split; [apply Compress_Proofs.name_ok_good; exact HN|cbn; lia]|constructor]|]. split; [constructor|]. split; [constructor|]. split; [constructor|cbn [length]; lia]. }
  set (v := env70 sel70 3 (fun _ => 100)). set (i := got88 (lx_g [104]) 37).
  assert (H1 : exists es1 m1, run88 v (start70 2) [over (lx_c [104] 3)] = Ret (es1, m1) /\ t_alive m1 = true /\ k_tick (t_k m1) = 14%nat /\
      k_log (t_k m1) = [TSent 5 (framed (enc_msg (lx_q [104]))) (framed (enc_msg (lx_q [104]))) true; TOpen 6 false 0; TOpen 5 false 1; TListen 900] /\
    exists m2, run88 v m1 [i] = Ret ([VDiscarded misc_nothing], m2)).
  { eexists _, _. split; [vm_compute; reflexivity|]. split; [reflexivity|]. split; [reflexivity|]. split; [vm_compute; reflexivity|]. eexists. vm_compute. reflexivity. }
  destruct H1 as (es1 & m1 & E1 & A1 & T1 & L1 & m2 & E2). exists v, (lx_c [104] 3), (over (lx_c [104] 3)), es1, m1, i, m2.
  split; [exact HP|]. split; [exists 0, [], false, []; split; [reflexivity|]; split; [constructor|]; split; [discriminate|intros (r0 & [] & _)]|]. split; [reflexivity|].
  split; [apply env70_ok; [|lia|lia]; intros t; eexists [], _, []; split; [reflexivity|]; split; [constructor|discriminate]|]. split; [apply start70_ok|].
  split. { constructor; [|constructor; [|constructor]].
    - apply (over_ok _ (enc_msg (lx_q [104]))); [reflexivity|reflexivity|vm_compute; split; [discriminate|reflexivity]|vm_compute; lia|apply enc_msg_bytes, HP].
    - split; [discriminate|]. intros e [<-|[]]. split; [discriminate|]. vm_compute. repeat constructor; discriminate. }
  split. { eexists. split; [reflexivity|]. split; [reflexivity|]. split; [left; reflexivity|]. intros x [->|(via & j & H)] _; [reflexivity|]. cbn [start70 t_k k_log state_of] in H. destruct (900 =? x); discriminate. }
  split; [exact E1|]. split; [exact A1|]. split; [intros a b _ _; cbn [v env70 v_time]; lia|]. split; [rewrite L1; left; reflexivity|]. split.
  { split; [reflexivity|]. exists [104; 46; 99; 111; 109], 1. split; [|exact (asked_plain _ _ _ HP)].
    exists [[104]; [99; 111; 109]], 7%nat, [104; 46; 99; 111; 109], (mk_q (plain [[104]; [99; 111; 109]]) 1 1), []. split; [reflexivity|]. split; [reflexivity|]. split; [|split; [split; [cbn; lia|left; reflexivity]|reflexivity]].
    apply (Name_Spec.D_label 63 _ 12 1 [104] [[99; 111; 109]] 5); [reflexivity|lia|reflexivity|]. apply (Name_Spec.D_label 63 _ 14 3 [99; 111; 109] [] 1); [reflexivity|lia|reflexivity|apply Name_Spec.D_root; reflexivity]. }
  split; [reflexivity|]. split; [reflexivity|]. split.
  { eexists. rewrite T1. split; [reflexivity|]. split; [reflexivity|]. split; [right; rewrite L1; exists None, 1%nat; reflexivity|]. intros x _ H. apply Z.eqb_eq. exact H. }
  split; [exists [], []; left; rewrite app_nil_r; reflexivity|exact E2].
Qed.
Print Assumptions C88_ap_refuted.
