(** C86: a query that goes on to a group of UDP servers, and its reply. *)
From Verif Require Import Base BaseFacts ListFacts Hash_Model Bst_Model Bst_Spec Bst_Proofs Cht_Model Cache_Model Cache_Spec Alias_Spec Name_Model Name_Spec Parser_Model Parser_Spec Parser_Proofs Gen_Model Gen_Spec Gen_Proofs Gen2_Proofs Gen_Props Compress_Spec Compress_Proofs
  Iheader_Model Iheader_Spec Iheader_Proofs Iheader_Props
  Ip_Model Ip_Spec Ip5_Proofs Ip_Props Rdata_Model Rdata_Spec Rdata_Proofs Arr_Model Mctx_Model Mctx_Spec Mctx_Proofs Mctx_Props Fetch_Spec Fetch_Proofs Fetch2_Proofs Fetch_Props Hosts_Model Hosts_Spec Hmsg_Spec Udpm_Model Udpm_Spec Udpm_Proofs Udpm_Props
  Serve_Model Serve_Spec Serve_Props Trip_Spec Trip_Proofs.
Require Import Permutation ZifyBool ZifyNat.
Set Default Proof Using "Type".

(** What C85 hands to a group is the query as the client sent it, and the client has got nothing yet. *)
Theorem C86_handed fn good hdr w q ql type name als rs c s i c' : due fn good hdr w q ql type name als rs c s -> v_next s = N_group i c' ->
  v_sent s = [] /\ same_query c c'.
Proof. intros HD HN. destruct HD as [| | | | |i' c2 ? ? ? HS ?|]; cbn [v_next v_sent] in *; try discriminate. assert (c' = c2) as -> by congruence. auto. Qed.

(** What is known of the query as the module gets it. *)
Lemma handed_id q q0 ql type name back sock c c' : plain_query q q0 ql -> labelled q type name back sock c -> same_query c c' ->
  get16 (m_idflags q) 0 = Some (ctx_id c') /\ ctx_id c' = ctx_id c /\ c_h c' = c_h c /\ hash_ok c' /\ 4 <= h_len (c_h c').
Proof.
  intros (Hg & _) (time & agent & edns & post & Ec & _) (Eh & Ef). pose proof (enc_msg_length q (proj1 Hg)) as L. destruct Hg as (L4 & Hg).
  rewrite Ec in Ef, Eh. cbn [c_h h_len c_entity] in *. rewrite Nat2Z.id, firstn_app, firstn_all, Nat.sub_diag in Ef. cbn [firstn] in Ef. rewrite app_nil_r in Ef.
  assert (E1 : get16 (c_entity c') 0 = get16 (m_idflags q) 0).
  { rewrite <- (get16_front (c_entity c') (length (enc_msg q))) by lia. rewrite Ef. unfold enc_msg, header. rewrite <- ?app_assoc.
    destruct (m_idflags q) as [|a [|b l]]; cbn in L4; try discriminate L4. reflexivity. }
  assert (E2 : get16 (m_idflags q) 0 <> None) by (destruct (m_idflags q) as [|a [|b l]]; cbn in L4; try discriminate L4; discriminate).
  split; [unfold ctx_id; rewrite E1; destruct (get16 (m_idflags q) 0); congruence|]. split.
  - unfold ctx_id. rewrite Ec, E1. cbn [c_entity]. unfold enc_msg, header. rewrite <- ?app_assoc. destruct (m_idflags q) as [|a [|b l]]; cbn in L4; try discriminate L4. reflexivity.
  - split; [rewrite Eh, Ec; reflexivity|]. unfold hash_ok. rewrite Eh. cbn [h_hash h_len]. split; [apply bkdr_word|lia].
Qed.

Section Props.
Context {A : Type} (ap : bool) (misc : option (ipchunk * bool)) (par : option (list A)).
Context (raw : list Z -> list cnode -> nat -> Z) (ignore parallel : bool) (get : list Z -> option ctrl).
Context (hdr : iheader -> list Z) (arr : list Z -> list Z).
Notation step fuel nf := (u_step ap misc par raw ignore parallel get hdr arr fuel nf).
Notation run fuel nf := (u_run ap misc par raw ignore parallel get hdr arr fuel nf).
Notation takes fuel nf := (cache_takes raw ignore parallel get nf fuel).

Lemma client_of q r msg back sock : h_back (c_h q) = back -> h_sock (c_h q) = sock -> h_rethdr (c_h q) = false -> to_client hdr q r msg = at_client back sock msg.
Proof. intros <- <- E. unfold to_client, at_client. rewrite E. reflexivity. Qed.

(** The servers that are to be asked get the client's query as it is, or, with -ap, with an OPT record in addition. *)
Theorem C86_sent_partial fuel nf room s0 os es s q q0 ql type name back sock c c' now ok msg :
  u_started room s0 -> Forall uop_ok os -> run fuel nf s0 os = Ret (es, s) -> (4 <= fuel)%nat -> has_servers par s -> u_open s = true ->
  plain_query q q0 ql -> labelled q type name back sock c -> same_query c c' ->
  (ap = false \/ offers_edns q) /\ msg = enc_msg q \/
  ap = true /\ m_ar q = [] /\ (length (enc_msg q) + 11 <= length (c_entity c'))%nat /\ msg = enc_msg (add_rr P_additional (mk_rr (plain []) 41 1280 0 []) q) ->
  exists to code s', servers par s to /\ (code = 0 <-> exists a, In a to /\ ok a = true) /\
    step fuel nf s (UQuery c' now ok) = Ret (VQueued (map (fun a => (a, msg)) to) code, s').
Proof.
  intros HS HO HR Hf Hsv Hop HP HL HQ HM. destruct (handed_id _ _ _ _ _ _ _ _ _ HP HL HQ) as (_ & _ & Eh & Hh & Hlen).
  assert (HG : goes_out ap c' msg).
  { destruct HL as (time & agent & edns & post & Ec & Hp & He). destruct HQ as (_ & Ef). rewrite Ec in Ef, Eh. cbn [c_h h_len c_entity] in *.
    rewrite Nat2Z.id, firstn_app, firstn_all, Nat.sub_diag in Ef. cbn [firstn] in Ef. rewrite app_nil_r in Ef.
    destruct HM as [(Ho & ->)|(Hap & Har & Hlt & ->)].
    - apply go_same; [|exact Ef|rewrite Eh; reflexivity]. destruct Ho as [->|Ho]; [left; reflexivity|right; rewrite Eh; cbn [h_edns]; apply He, Ho].
    - apply (go_edns ap c' q (skipn (length (enc_msg q)) (c_entity c'))); auto.
      + rewrite Eh. cbn [h_edns]. destruct edns; [|reflexivity]. destruct (proj1 He eq_refl) as (r & Hr & _). rewrite Har in Hr. destruct Hr.
      + apply HP.
      + destruct HP as (_ & -> & _). discriminate.
      + rewrite skipn_length. lia.
      + rewrite <- Ef at 1. symmetry. apply firstn_skipn.
      + rewrite Eh. reflexivity. }
  destruct (C64_query_partial ap misc par raw ignore parallel get hdr arr fuel nf room s0 os es s c' now ok msg HS HO HR Hf Hsv Hh Hlen HG) as (q' & tab' & to & code & _ & _ & _ & _ & Hto & Hc & E).
  rewrite Hop in E. exists to, code. eexists. split; [exact Hto|]. split; [|exact E]. rewrite Hc. intuition.
Qed.

(** Whatever the module did before and does meanwhile, for this and for other clients, whatever datagrams arrive: when a well-formed response to the query arrives that
    is not to be discarded, within two seconds of the query, then either the client has been sent a reply since the query or it is sent this one now - the message as it
    arrived but for the configured addresses - at the address and the socket of its query, and the cache gets to see it as a first response to the name.
    What is missing from the full statement: other pending queries with the same identification and the same hash of the name ([alone]; they are served in the order in which they
    are found, C22); pending queries with one identification whose hashes are more than half of the range apart ([C86_lost_refuted]); a reply from before that was no reply (C64). *)
Theorem C86_reply_partial rules room : filter_from rules misc -> (forall d, length (arr d) = 256%nat) ->
  exists look, policy rules look /\
  (orderly rules -> forall a o, address a -> (forall r, In r rules -> single r -> ~ rule_covers a r) -> Ip_Spec.first (rule_covers a) rules o -> look a = option_map ru_act o) /\
  forall g, acceptable g -> Forall address_ok (m_an g) -> (length (enc_msg g) <= room)%nat ->
  exists blocked an' f0, filtered look (m_an g) blocked an' /\
  forall fuel nf s0 os1 os2 es s q q0 ql back sock c c' now ok x b, (f0 <= fuel)%nat -> (f0 <= nf)%nat ->
    let name := map small (dotted ql) in
    let os := os1 ++ UQuery c' now ok :: os2 in
    plain_query q q0 ql -> labelled q (q_type q0) name back sock c -> same_query c c' ->
    u_started room s0 -> Forall uop_ok (os1 ++ os2) -> run fuel nf s0 os = Ret (es, s) -> u_alive s = true -> u_open s = true ->
    (forall oa ob ea sa p, os = oa ++ ob -> run fuel nf s0 oa = Ret (ea, sa) -> table (u_tab sa) p -> tame p) -> alone c (os1 ++ os2) -> in_time now os2 ->
    response_to g q -> x_bytes x = enc_msg g -> ~ to_discard (no_negative misc) blocked ap g ->
    let g' := with_an g an' in
    let post := skipn (length (enc_msg g)) (u_mem (u_rb s)) in
    (exists msg code, In (VReplied (at_client back sock msg) code) (skipn (S (length os1)) es) /\ (forall v, get16 msg 0 = Some v -> get16 (m_idflags q) 0 = Some v)) \/
    exists code tab' buf',
      (code = 0 <-> x_ret x = Z.of_nat (length (s_bytes (at_client back sock (enc_msg g'))))) /\
      step fuel nf s (UTurn b (SelData (Some x))) =
        let! k := takes fuel nf (u_cache s) (mk_response true g' post name (x_clk x) (x_host x) (x_buf x)) in
        Ret (VReplied (at_client back sock (enc_msg g')) code, mk_udpm tab' buf' k true 0 (u_addrs s) true).
Proof.
  intros HFF Harr. destruct (C64_reply_partial ap misc par raw ignore parallel get hdr arr rules room HFF Harr) as (look & HPol & HOrd & HX). exists look. split; [exact HPol|]. split; [exact HOrd|].
  intros g Hg Hga Hgr. destruct (HX g Hg Hga Hgr) as (blocked & an' & f0 & HFil & HY). exists blocked, an', f0. split; [exact HFil|].
  intros fuel nf s0 os1 os2 es s q q0 ql back sock c c' now ok x b Hf Hn name os HP HL HQ HS HO HR Hal Hop HT HA HI HRes Hx HD. cbv zeta.
  destruct (handed_id _ _ _ _ _ _ _ _ _ HP HL HQ) as (Hid & Eid & Eh & Hh & Hlen).
  assert (HLb : h_back (c_h c) = back /\ h_sock (c_h c) = sock /\ h_rethdr (c_h c) = false /\ h_domain (c_h c) = name /\ h_hash (c_h c) = bkdr name) by (destruct HL as (? & ? & ? & ? & -> & _); cbn; auto 6).
  destruct HLb as (Lb & Ls & Lr & Ld & Lh).
  apply Forall_app in HO. destruct HO as (HO1 & HO2). assert (Ho : uop_ok (UQuery c' now ok)) by (split; assumption).
  assert (HOs : Forall uop_ok os) by (apply Forall_app; split; [exact HO1|constructor; assumption]).
  destruct (run_app ap misc par raw ignore parallel get hdr arr fuel nf os1 _ s0 es s HR) as (es1 & s1 & es2 & R1 & R2 & -> & L1).
  destruct (run_keeps ap misc par raw ignore parallel get hdr arr fuel nf os1 s0 Leaf es1 s1 (started_known room s0 HS) HO1 R1) as (t1 & K1 & _ & F1).
  cbn [u_run] in R2. destruct (step fuel nf s1 (UQuery c' now ok)) as [[e s2]| | |] eqn:E1; try discriminate. cbn [bind fst snd] in R2.
  destruct (run fuel nf s2 os2) as [[es3 s3]| | |] eqn:R3; try discriminate. cbn [bind fst snd] in R2. assert (es2 = e :: es3 /\ s3 = s) as (-> & ->) by (split; congruence).
  destruct (step_keeps ap misc par raw ignore parallel get hdr arr fuel nf s1 (UQuery c' now ok) e s2 t1 K1 Ho E1) as (t2 & K2 & _ & F2 & Q2).
  destruct (Q2 c' now ok eq_refl) as (p & Ep & Hp & HU2). clear Q2. destruct (entered_id _ _ _ _ Ep) as (P1 & P2 & P3 & P4 & P5 & P6 & P7). rewrite Eh in P2, P4, P5, P6, P7.
  destruct (run_keeps ap misc par raw ignore parallel get hdr arr fuel nf os2 s2 t2 es3 s K2 HO2 R3) as (t3 & K3 & G3 & F3).
  assert (Hsk : skipn (S (length os1)) (es1 ++ e :: es3) = es3) by (rewrite <- L1, skipn_app, skipn_all2, Nat.sub_succ_l, Nat.sub_diag by lia; reflexivity).
  rewrite Hsk. destruct (G3 p Hp) as [Hp3|(e3 & He3 & r & msg & code & -> & Hm & Hv)].
  { intros n Hn' HE. unfold expired in HE. rewrite P3 in HE. specialize (HI n Hn'). lia. }
  2:{ left. exists msg, code. rewrite <- (client_of p r msg back sock) by congruence. split; [exact He3|]. intros v E. rewrite Hid. f_equal. rewrite (Hv v E), P1. reflexivity. }
  right.
  assert (HU : forall p2, In p2 (vals t3) -> ctx_id p2 = ctx_id c -> h_hash (c_h p2) = h_hash (c_h c) -> p2 = p).
  { intros p2 H2 I2 H2h. destruct (F3 p2 H2) as [H3|(c2 & n2 & k2 & Hc2 & He2)].
    2:{ exfalso. destruct (entered_id _ _ _ _ He2) as (X1 & X2 & _). destruct (HA c2 n2 k2); [apply in_or_app; right; exact Hc2|congruence|congruence]. }
    destruct (HU2 p2 H3) as [->|H4]; [reflexivity|].
    exfalso. destruct (F1 p2 H4) as [[]|(c2 & n2 & k2 & Hc2 & He2)]. destruct (entered_id _ _ _ _ He2) as (X1 & X2 & _). destruct (HA c2 n2 k2); [apply in_or_app; left; exact Hc2|congruence|congruence]. }
  destruct HRes as (Rid & name2 & type2 & Rg & Rq). pose proof (asked_plain q q0 ql HP) as Rq'. destruct (C59_asked_unique q _ _ _ _ Rq Rq') as (-> & ->). fold name in Rg.
  assert (Gid : get16 (m_idflags g) 0 = Some (ctx_id c)) by (rewrite <- (get16_front (m_idflags g) 2), Rid, get16_front, Hid, Eid by lia; reflexivity).
  pose proof K3 as ((fl3 & HB3) & _).
  destruct (HY fuel nf s0 os (es1 ++ e :: es3) s x b Hf Hn HS HOs HR Hal Hop Hx) as [(X & _)|[(_ & p2 & rest & r & tab' & buf' & code & Ht & Hans & _ & _ & _ & Hcode & Est)|(_ & HN & _)]]; [contradiction| |].
  - assert (p2 = p) as ->.
    { destruct Hans as (n3 & t3' & A1 & A2 & A3). destruct (C59_asked_unique g _ _ _ _ A1 Rg) as (-> & _). apply HU; [|congruence|congruence].
      apply (table_vals _ t3 fl3 HB3) in Ht. eapply Permutation_in; [symmetry; exact Ht|left; reflexivity]. }
    rewrite (client_of p r (enc_msg (with_an g an')) back sock) in Hcode, Est by congruence. rewrite P7, Ld in Est. exists code, tab', buf'. split; [exact Hcode|exact Est].
  - exfalso. apply (HN (vals t3) p HT); [apply (table_vals _ t3 fl3 HB3); reflexivity|exact Hp3|]. exists name, (q_type q0). split; [exact Rg|]. split; [rewrite Gid, P1, Eid; reflexivity|congruence].
Qed.
End Props.
Print Assumptions C86_handed.
Print Assumptions C86_sent_partial.
Print Assumptions C86_reply_partial.

(** The condition on the hashes holds if the queries of the history have it: for each identification the hashes lie in one half of the range. *)
Lemma tame_queries {A} ap misc (par : option (list A)) raw ignore parallel get hdr arr fuel nf room s0 os lo : u_started room s0 -> Forall uop_ok os ->
  (forall c n ok, In (UQuery c n ok) os -> (h_hash (c_h c) - lo (ctx_id c)) mod 4294967296 < 2147483648) ->
  forall oa ob ea sa p, os = oa ++ ob -> u_run ap misc par raw ignore parallel get hdr arr fuel nf s0 oa = Ret (ea, sa) -> table (u_tab sa) p -> tame p.
Proof.
  intros HS HO HQ oa ob ea sa p -> HR Hp. apply Forall_app in HO. destruct HO as (HO & _).
  destruct (run_keeps ap misc par raw ignore parallel get hdr arr fuel nf oa s0 Leaf ea sa (started_known room s0 HS) HO HR) as (t & K & _ & F). pose proof K as ((fl & HB) & HH & _).
  apply (table_vals _ t fl HB) in Hp. exists lo. intros q Hq. assert (Hq' : In q (vals t)) by (eapply Permutation_in; [symmetry; exact Hp|exact Hq]). split; [exact (HH q Hq')|].
  destruct (F q Hq') as [[]|(c & n & ok & Hc & He)]. destruct (entered_id _ _ _ _ He) as (-> & -> & _). apply (HQ c n ok). apply in_or_app. left. exact Hc.
Qed.

(** * Examples *)
(** The query of C85 that goes to the group 0, after and before other queries; its reply, 1.3 seconds later. *)
Definition tx_q : message := vx_q [[120]; [99]] 1.
Definition tx_g : message := mk_msg [18; 52; 129; 160] [mk_q (plain [[88]; [99]]) 1 1] [mk_rr (mk_ename [] (Some (192, 12))) 1 1 60 [10; 0; 0; 7]] [] [].
Definition tx_c' : mctx := match vx_run true tx_q with Ret (mk_served _ (N_group _ c')) => c' | _ => mk_ctx (mk_ih None false 0 None 0 [] 0 0 false false 0 []) [] end.
Definition tx_start : @udpm nat := mk_udpm bst_init (mk_ubuf (mk_ih None false 0 None 0 [] 0 0 false false 0 []) (repeat 0 256) (repeat 0 120)) None true 0 (mk_al [0%nat; 1%nat] 0) true.
Definition tx_before : list (@uop nat) := [UQuery (query64 7 1 5) 98 (fun _ => true); UQuery (query64 9 2 6) 99 (fun _ => true); UTurn true (rx64 (enc_msg (reply64 9 77)) 35)].
Definition tx_after : list (@uop nat) := [UTurn true (rx64 [1; 2; 3] 0); USweep 101; UTurn true (rx64 (enc_msg (reply64 8 78)) 35); USweep 102].
Notation tx_run := (u_run false None None no_raw64 false false (fun _ => None) (fun _ => []) arr64 30 30).
Definition tx_os : list (@uop nat) := tx_before ++ UQuery tx_c' 100 (fun _ => true) :: tx_after.
Definition tx_x : rx := mk_rx (enc_msg tx_g) (P_unknown, 0, 0, 0) [] [] (fun _ => 0) 37.

Ltac bytes_ok := repeat (constructor; [unfold is_byte; lia|]); constructor.
Lemma tx_plain : plain_query tx_q (mk_q (plain [[120]; [99]]) 1 1) [[120]; [99]].
Proof.
  split; [|split; [reflexivity|]; split; [reflexivity|]; split; [apply fx_name; lia|]; split; [discriminate|]; split; [cbn; lia|]; split; reflexivity].
  unfold good_msg, tx_q, vx_q. cbn [m_idflags m_qs m_an m_ns m_ar]. split; [reflexivity|]. split; [bytes_ok|].
  split; [constructor; [split; [apply Compress_Proofs.name_ok_good, fx_name; lia|cbn; lia]|constructor]|]. split; [constructor|]. split; [constructor|]. split; [|cbn [length]; lia].
  constructor; [|constructor]. apply (sop_rr_good (SEDns 1280)); [cbn; lia|reflexivity].
Qed.
Lemma tx_acceptable : acceptable tx_g.
Proof.
  split; [unfold good_msg, tx_g; cbn [m_idflags m_qs m_an m_ns m_ar]|split; [discriminate|]].
  - split; [reflexivity|]. split; [bytes_ok|]. split; [constructor; [split; [apply Compress_Proofs.name_ok_good, fx_name; lia|cbn; lia]|constructor]|].
    split; [constructor; [|constructor]; unfold good_rr, good_name; cbn; repeat split; try lia; try bytes_ok; constructor|]. split; [constructor|]. split; [constructor|cbn [length]; lia].
  - cbn [readable tx_g m_qs]. split; [reflexivity|]. split; [|exact I]. exists [[88]; [99]], 5%nat. split; [|cbn; lia].
    apply (Name_Spec.D_label 63 _ 12 1 [88] [[99]] 3); [reflexivity|lia|reflexivity|]. apply (Name_Spec.D_label 63 _ 14 1 [99] [] 1); [reflexivity|lia|reflexivity|apply Name_Spec.D_root; reflexivity].
Qed.
Lemma tx_started : u_started 120 tx_start.
Proof. split; [reflexivity|]. split; [|cbn; lia]. split; [reflexivity|]. split; [reflexivity|]. apply Forall_forall. intros z Hz. apply repeat_spec in Hz. subst z. unfold is_byte. lia. Qed.
Lemma tx_response : response_to tx_g tx_q.
Proof.
  split; [reflexivity|]. exists [120; 46; 99], 1. split; [|exact (asked_plain _ _ _ tx_plain)].
  exists [[88]; [99]], 5%nat, [88; 46; 99], (mk_q (plain [[88]; [99]]) 1 1), []. split; [reflexivity|]. split; [reflexivity|]. split; [|split; [split; [cbn; lia|left; reflexivity]|reflexivity]].
  apply (Name_Spec.D_label 63 _ 12 1 [88] [[99]] 3); [reflexivity|lia|reflexivity|]. apply (Name_Spec.D_label 63 _ 14 1 [99] [] 1); [reflexivity|lia|reflexivity|apply Name_Spec.D_root; reflexivity].
Qed.
Example C86_nonvacuous : exists c, plain_query tx_q (mk_q (plain [[120]; [99]]) 1 1) [[120]; [99]] /\ labelled tx_q 1 (map small (dotted [[120]; [99]])) (Some [77]) 5 c /\ same_query c tx_c' /\
  acceptable tx_g /\ Forall address_ok (m_an tx_g) /\ filter_from [] None /\ u_started 120 tx_start /\ Forall uop_ok (tx_before ++ tx_after) /\ alone c (tx_before ++ tx_after) /\ in_time 100 tx_after /\ response_to tx_g tx_q /\
  (forall oa ob ea sa p, tx_os = oa ++ ob -> tx_run tx_start oa = Ret (ea, sa) -> table (u_tab sa) p -> tame p) /\ ~ to_discard false false false tx_g /\
  match tx_run tx_start tx_os with
  | Ret (es, s) => u_alive s = true /\ u_open s = true /\
      (forall msg code, ~ In (VReplied (at_client (Some [77]) 5 msg) code) es) /\
      match u_step false None None no_raw64 false false (fun _ => None) (fun _ => []) arr64 30 30 s (UTurn true (SelData (Some tx_x))) with
      | Ret (e, _) => e = VReplied (mk_sent 5 (Some [77]) (enc_msg tx_g)) 0
      | _ => False
      end
  | _ => False
  end.
Proof.
  assert (HU : Forall uop_ok tx_os).
  { unfold tx_os, tx_before, tx_after. cbn [app]. constructor; [split; [vm_compute; split; [discriminate|reflexivity]|vm_compute; discriminate]|]. constructor; [split; [vm_compute; split; [discriminate|reflexivity]|vm_compute; discriminate]|].
    constructor; [cbn; bytes_ok|]. constructor; [split; [vm_compute; split; [discriminate|reflexivity]|vm_compute; discriminate]|]. constructor; [cbn; bytes_ok|]. constructor; [exact I|]. constructor; [cbn; bytes_ok|]. constructor; [exact I|constructor]. }
  assert (Eh : c_h tx_c' = mk_ih None false 0 (Some [77]) 5 [120; 46; 99] (bkdr [120; 46; 99]) 1 false true 32 [49]) by (vm_compute; reflexivity).
  exists (mk_ctx (mk_ih None false 0 (Some [77]) 5 [120; 46; 99] (bkdr [120; 46; 99]) 1 false true 32 [49]) (enc_msg tx_q ++ [])). split; [exact tx_plain|]. split.
  { exists 0, [49], true, []. split; [reflexivity|]. split; [constructor|]. split; [|reflexivity]. intros _. exists opt_record. split; [left; reflexivity|reflexivity]. }
  split; [split; [exact Eh|vm_compute; reflexivity]|]. split; [exact tx_acceptable|]. split; [constructor; [|constructor]; intros _; split; [reflexivity|discriminate]|]. split; [constructor|]. split; [exact tx_started|].
  split; [apply Forall_app; unfold tx_os in HU; apply Forall_app in HU; destruct HU as (H1 & H2); inversion H2; auto|].
  split.
  { intros c2 t ok H. left. unfold tx_before, tx_after in H. cbn [app In] in H. destruct H as [H|[H|[H|[H|[H|[H|[H|[]]]]]]]]; try discriminate H; assert (H2 := f_equal (fun o => match o with UQuery c _ _ => ctx_id c | _ => -1 end) H); cbv beta iota in H2; rewrite <- H2; vm_compute; discriminate. }
  split; [intros t H; unfold tx_after in H; cbn [In] in H; destruct H as [H|[H|[H|[H|[]]]]]; try discriminate H; assert (t = 101 \/ t = 102) by (first [left; congruence|right; congruence]); lia|].
  split; [exact tx_response|]. split.
  { apply (tame_queries false None None no_raw64 false false (fun _ => None) (fun _ => []) arr64 30 30 120 tx_start tx_os (fun id => 0) tx_started HU).
    intros c2 n ok H. unfold tx_os, tx_before, tx_after in H. cbn [app In] in H. destruct H as [H|[H|[H|[H|[H|[H|[H|[H|[]]]]]]]]]; [| |discriminate H| |discriminate H|discriminate H|discriminate H|discriminate H];
      assert (H2 := f_equal (fun o => match o with UQuery c _ _ => h_hash (c_h c) | _ => -1 end) H); cbv beta iota in H2; rewrite <- H2; [vm_compute; reflexivity|vm_compute; reflexivity|rewrite Eh; vm_compute; reflexivity]. }
  split; [intros [(H & _)|[H|(H & _)]]; discriminate H|].
  set (r := tx_run tx_start tx_os). vm_compute in r. subst r. split; [reflexivity|]. split; [reflexivity|]. split; [|vm_compute; reflexivity].
  intros msg code H. cbn [In] in H. repeat destruct H as [H|H]; try discriminate H; try contradiction.
Qed.

(** Not true if queries with the same identification and far apart hashes are pending: google.com, github.com and h.com are asked with the identification 7, all within a second; when the reply for
    google.com has come, the reply for h.com is not recognised. *)
Definition lx_q (n : list Z) : message := mk_msg [0; 7; 1; 0] [mk_q (plain [n; [99; 111; 109]]) 1 1] [] [] [].
Definition lx_g (n : list Z) : message := mk_msg [0; 7; 129; 128] [mk_q (plain [n; [99; 111; 109]]) 1 1] [mk_rr (mk_ename [] (Some (192, 12))) 1 1 60 [10; 0; 0; 7]] [] [].
Definition lx_c (n : list Z) (k : Z) : mctx := mk_ctx (mk_ih None false 0 (Some [k]) 5 (dotted [n; [99; 111; 109]]) (bkdr (dotted [n; [99; 111; 109]])) 1 false false (Z.of_nat (length (enc_msg (lx_q n)))) []) (enc_msg (lx_q n) ++ []).
Theorem C86_lost_refuted : exists os1 c now ok os2 es s x s', plain_query (lx_q [104]) (mk_q (plain [[104]; [99; 111; 109]]) 1 1) [[104]; [99; 111; 109]] /\
  labelled (lx_q [104]) 1 (map small (dotted [[104]; [99; 111; 109]])) (Some [3]) 5 c /\ u_started 120 tx_start /\ Forall uop_ok (os1 ++ os2) /\ alone c (os1 ++ os2) /\ in_time now os2 /\
  tx_run tx_start (os1 ++ UQuery c now ok :: os2) = Ret (es, s) /\ u_alive s = true /\ u_open s = true /\ response_to (lx_g [104]) (lx_q [104]) /\ x_bytes x = enc_msg (lx_g [104]) /\ ~ to_discard false false false (lx_g [104]) /\
  (forall msg code, ~ In (VReplied (at_client (Some [3]) 5 msg) code) es) /\
  u_step false None None no_raw64 false false (fun _ => None) (fun _ => []) arr64 30 30 s (UTurn true (SelData (Some x))) = Ret (VUnmatched, s').
Proof.
  assert (HP : plain_query (lx_q [104]) (mk_q (plain [[104]; [99; 111; 109]]) 1 1) [[104]; [99; 111; 109]]).
  { assert (HN : name_ok [[104]; [99; 111; 109]]) by (unfold name_ok; repeat (constructor; [repeat split; cbn; try lia; repeat (constructor; [lia|]); constructor|]); constructor).
    split; [|split; [reflexivity|]; split; [reflexivity|]; split; [exact HN|]; split; [discriminate|]; split; [cbn; lia|]; split; reflexivity].
    unfold good_msg, lx_q. cbn [m_idflags m_qs m_an m_ns m_ar]. split; [reflexivity|]. split; [bytes_ok|].
    split; [constructor; [split; [apply Compress_Proofs.name_ok_good; exact HN|cbn; lia]|constructor]|]. split; [constructor|]. split; [constructor|]. split; [constructor|cbn [length]; lia]. }
  exists [UQuery (lx_c [103; 111; 111; 103; 108; 101] 1) 100 (fun _ => true); UQuery (lx_c [103; 105; 116; 104; 117; 98] 2) 100 (fun _ => true)], (lx_c [104] 3), 100, (fun _ => true),
    [UTurn true (rx64 (enc_msg (lx_g [103; 111; 111; 103; 108; 101])) 44)].
  set (r := tx_run tx_start _). vm_compute in r. match goal with r := Ret (?e, ?y) |- _ => exists e, y end. exists (mk_rx (enc_msg (lx_g [104])) (P_unknown, 0, 0, 0) [] [] (fun _ => 0) 0).
  eexists. split; [exact HP|]. split; [exists 0, [], false, []; split; [reflexivity|]; split; [constructor|]; split; [discriminate|intros (r0 & [] & _)]|]. split; [exact tx_started|].
  split; [cbn [app]; constructor; [split; [vm_compute; split; [discriminate|reflexivity]|vm_compute; discriminate]|]; constructor; [split; [vm_compute; split; [discriminate|reflexivity]|vm_compute; discriminate]|]; constructor; [cbn; bytes_ok|constructor]|].
  split; [intros c2 t ok H; right; cbn [app In] in H; destruct H as [H|[H|[H|[]]]]; try discriminate H; assert (H2 := f_equal (fun o => match o with UQuery c _ _ => h_hash (c_h c) | _ => -1 end) H); cbv beta iota in H2; rewrite <- H2; vm_compute; discriminate|].
  split; [intros t [H|[]]; discriminate H|]. split; [reflexivity|]. split; [reflexivity|]. split; [reflexivity|]. split.
  { split; [reflexivity|]. exists [104; 46; 99; 111; 109], 1. split; [|exact (asked_plain _ _ _ HP)].
    exists [[104]; [99; 111; 109]], 7%nat, [104; 46; 99; 111; 109], (mk_q (plain [[104]; [99; 111; 109]]) 1 1), []. split; [reflexivity|]. split; [reflexivity|]. split; [|split; [split; [cbn; lia|left; reflexivity]|reflexivity]].
    apply (Name_Spec.D_label 63 _ 12 1 [104] [[99; 111; 109]] 5); [reflexivity|lia|reflexivity|]. apply (Name_Spec.D_label 63 _ 14 3 [99; 111; 109] [] 1); [reflexivity|lia|reflexivity|apply Name_Spec.D_root; reflexivity]. }
  split; [reflexivity|]. split; [intros [(H & _)|[H|(H & _)]]; discriminate H|]. split; [|vm_compute; reflexivity].
  intros msg code H. cbn [In] in H. repeat destruct H as [H|H]; try discriminate H; try contradiction.
Qed.
Print Assumptions C86_lost_refuted.
