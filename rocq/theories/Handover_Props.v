(** C85: an alias from the hosts files that cannot be handed over to the thread that follows it. *)
From Verif Require Import Base BaseFacts ListFacts Name_Model Name_Spec Name_Proofs Hash_Model Chunk_Spec Filter_Model Filter_Props Mmgr_Model Mmgr_Props Cht_Model Cache_Model Cache_Spec Alias_Spec Cache_Props
  Parser_Model Parser_Spec Parser_Proofs Gen_Model Gen_Spec Gen_Proofs Compress_Spec Compress_Proofs Gen2_Proofs Gen_Props Fetch_Model Fetch_Spec Fetch_Proofs Fetch2_Proofs Fetch_Props
  Hosts_Model Hosts_Spec Hosts_Props Mctx_Model Iheader_Spec Iheader_Model Iheader_Proofs Iheader_Props Udpm_Model Udpm_Spec Udpm_Props Hmsg_Model Hmsg_Spec Hmsg_Proofs Hmsg_Props Tcp_Model Tcp_Props Serve_Model Serve_Spec Serve_Proofs Serve_Props.
Require Import ZifyBool ZifyNat.

(** The program without its hosts files; the configuration without them; the same surroundings in which the handing over succeeds. *)
Definition without_hosts (k : holds) : holds := mk_holds (k_types k) (k_domains k) (k_block6 k) None None (k_cache k) (k_map k) (k_t2u k) (k_u2t k).
Definition without_targets (w : world) : world := mk_world (w_types w) (w_rules w) (w_block6 w) [] [] (w_groups w) (w_t2u w) (w_u2t w).
Definition handing_over (a : around) : around := mk_around (a_stale1 a) (a_stale2 a) (a_name a) (a_now a) (a_rnd a) true (a_sent a) (a_ret a).

Section P.
Context (fn : list Z -> list Z -> bool) (parse : list Z -> ipaddr) (good : list Z -> option (list Z)) (hdr : iheader -> list Z) (raw : list Z -> list cnode -> nat -> Z) (ignore : bool).

(** For every configuration, all hosts files, every cache and every query with one question for a name that has an alias in the hosts files: if the query cannot be handed over to the thread that follows
    the alias then it is served as if the hosts files said nothing, to which [C85_served_partial] applies (so the client gets what the cache or a server says about the name itself). *)
Theorem C85_alias_lost k w q q0 ql a back sock c fuel nf : plain_query q q0 ql -> let name := map small (dotted ql) in
  loaded fn parse k w name -> labelled q (q_type q0) name back sock c -> a_inner a = false ->
  ~ disabled fn w (q_type q0) name -> verdict good (w_block6 w) (w_ts1 w) (w_ts2 w) (q_type q0) T_recursed ->
  serve fn good hdr raw ignore fuel nf k a c = serve fn good hdr raw ignore fuel nf (without_hosts k) (handing_over a) c /\
  loaded fn parse (without_hosts k) (without_targets w) name /\ ~ disabled fn (without_targets w) (q_type q0) name /\ verdict good (w_block6 w) [] [] (q_type q0) T_none.
Proof.
  intros (Hg & Hq & Hqn & Ho & Hne & Hl & Hk & Han) name HL (time & agent & edns & post & Hc & Hp & _) Hin HN HV.
  pose proof (small_nonempty ql Ho Hne) as Hnn. fold name in Hnn.
  assert (VN : verdict good (w_block6 w) [] [] (q_type q0) T_none).
  { assert (HR : result good [] (q_type q0) = T_none) by (unfold result; cbn [first]; destruct (q_type q0 =? 5), (q_type q0 =? 1), (q_type q0 =? 28); reflexivity).
    split; [split; [discriminate|]|split; [reflexivity|intros _ _; rewrite HR; reflexivity]]. intros (_ & _ & [(t & [] & _)|(t & [] & _)]). }
  destruct HL as ((n0 & items & ET & EWT & HTr) & (ds & files & ED & EWR & HFo) & EB & (l1 & T1 & S1) & (l2 & T2 & S2) & EM & ETU & EUT).
  assert (Hq0 : good_q q0) by (destruct Hg as (_ & _ & HQ & _); rewrite Hq in HQ; inversion HQ; assumption).
  assert (Hty : in_range (q_type q0)) by (destruct Hq0 as (_ & X & _); unfold in_range; clear - X; lia).
  split; [|split; [|split; [exact HN|exact VN]]].
  - destruct (disabled_type_ok n0 items (q_type q0) Hty HTr) as (t & x & ET' & EX & HX). rewrite ET in ET'. injection ET' as <-.
    destruct (disabled_domain_ok fn (a_stale1 a) ds files name Hnn HFo) as (kd & y & ED' & EY & HY). rewrite ED in ED'. injection ED' as <-.
    assert (H4 : (4 <= length (enc_msg q))%nat) by (rewrite enc_msg_length by exact (proj1 Hg); clear; lia).
    assert (Edom : h_domain (c_h c) = name) by (rewrite Hc; reflexivity).
    assert (Ehash : h_hash (c_h c) = bkdr name) by (rewrite Hc; reflexivity).
    assert (Etype : h_type (c_h c) = q_type q0) by (rewrite Hc; reflexivity).
    assert (Eent : c_entity c = enc_msg q ++ post) by (rewrite Hc; reflexivity).
    destruct (enc_msg q) as [|i1 [|i2 m]] eqn:Eq; cbn in H4; [clear - H4; lia|clear - H4; lia|]. cbn [app] in Eent.
    unfold serve. cbn [k_types k_domains k_block6 k_static k_dynamic k_cache without_hosts a_stale1 a_inner a_ret handing_over]. rewrite Etype, EX. cbn [bind].
    assert (HD : (if x then Ret true else is_disabled_domain fn (a_stale1 a) (k_domains k) (h_domain (c_h c)) (h_hash (c_h c))) = Ret false).
    { rewrite Edom, Ehash. unfold disabled in HN. rewrite EWT, EWR in HN. destruct x; [exfalso; apply HN; left; apply HX; reflexivity|]. rewrite EY. destruct y; [exfalso; apply HN; right; apply HY; reflexivity|reflexivity]. }
    rewrite HD. cbn [bind]. rewrite <- Etype in HV, VN. rewrite EB.
    rewrite (C65_alias fn parse good hdr _ _ _ _ T1 T2 name _ _ S1 S2 (w_block6 w) i1 i2 (m ++ post) fuel c (a_inner a) (a_ret a) Edom HV Eent), Hin.
    rewrite (C65_nothing fn parse good hdr None None None None I I name [] [] eq_refl eq_refl (w_block6 w) fuel c true (a_ret a) Edom VN). cbn [bind Z.eqb]. reflexivity.
  - unfold loaded, without_hosts, without_targets. cbn [k_types k_domains k_block6 k_static k_dynamic k_map k_t2u k_u2t w_types w_rules w_block6 w_ts1 w_ts2 w_groups w_t2u w_u2t].
    split; [exists n0, items; auto|]. split; [exists ds, files; auto|]. split; [exact EB|]. split; [exists None; split; [exact I|reflexivity]|]. split; [exists None; split; [exact I|reflexivity]|]. auto.
Qed.
End P.
Print Assumptions C85_alias_lost.

(** "c.d a.b" in the hosts file: the question for a.b itself goes to the group 1. *)
Definition ox_k : holds := mk_holds (k_types vx_k) (k_domains vx_k) true (Some hx_dy) None (Some fx_cache) (k_map vx_k) false false.
Definition ox_a (inner : bool) : around := mk_around [9] [8] (repeat 0 254) 1010 0 inner true 0.
Definition ox_w : world := vx_w [Alias [99; 46; 100]].
Definition ox_next (o : outcome served) : option next := match o with Ret (mk_served [] n) => Some n | _ => None end.
Example C85_alias_lost_nonvacuous : plain_query hx_q (mk_q (plain [[97]; [98]]) 1 1) [[97]; [98]] /\ loaded hx_fn ex_parse ox_k ox_w ab /\ ~ disabled hx_fn ox_w 1 ab /\
  verdict (fun _ => None) true [Alias [99; 46; 100]] [] 1 T_recursed /\
  (exists h id, ox_next (udp_serve hx_fn (fun _ => None) (fun _ => []) no_raw false 400 60 ox_k (ox_a true) vx_b (vx_d hx_q)) = Some (N_alias h id)) /\
  exists c', ox_next (udp_serve hx_fn (fun _ => None) (fun _ => []) no_raw false 400 60 ox_k (ox_a false) vx_b (vx_d hx_q)) = Some (N_group 0 c').
Proof.
  split.
  { split; [|split; [reflexivity|]; split; [reflexivity|]; split; [apply fx_name; lia|]; split; [discriminate|]; split; [cbn; lia|]; split; reflexivity].
    unfold good_msg, hx_q. cbn [m_idflags m_qs m_an m_ns m_ar]. split; [reflexivity|]. split; [repeat (constructor; [unfold is_byte; lia|]); constructor|].
    split; [constructor; [split; [apply Compress_Proofs.name_ok_good, fx_name; lia|cbn; lia]|constructor]|]. split; [constructor|]. split; [constructor|]. split; [|cbn [length]; lia].
    constructor; [|constructor]. apply (sop_rr_good (SEDns 1280)); [cbn; lia|reflexivity]. }
  split.
  { split; [exists 7, [[49; 54]]; split; [vm_compute; reflexivity|]; split; [vm_compute; reflexivity|]; constructor; [|constructor]; vm_compute; intuition congruence|].
    split; [exists [[46; 97; 100; 46; 99]], []; split; [vm_compute; reflexivity|]; split; [reflexivity|constructor]|]. split; [reflexivity|].
    split; [exists (Some [l_alias]); split; [exact hx_table2|exact hx_says2]|].
    split; [exists None; split; [exact I|reflexivity]|]. split; [reflexivity|]. split; reflexivity. }
  split.
  { intros [[X|[]]|(d & [<-|[]] & [(_ & H)|(_ & H)])]; [discriminate| |discriminate]. change (undot [46; 97; 100; 46; 99]) with [97; 100; 46; 99] in H. unfold encloses, ab in H.
    destruct H as [H|(p & _ & H)]; [discriminate|]. apply (f_equal (@length Z)) in H. rewrite app_length in H. cbn [length] in H. lia. }
  split.
  { split; [split; [discriminate|intros (_ & X & _); discriminate]|]. split; [intros _ (t & [<-|[]] & X); exfalso; apply X; reflexivity|reflexivity]. }
  split; [eexists _, _; vm_compute; reflexivity|eexists; vm_compute; reflexivity].
Qed.
