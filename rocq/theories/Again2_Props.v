(** C83 with C85: asking again, from the bytes of the query to the bytes of the answer. *)
From Verif Require Import Base BaseFacts ListFacts Name_Model Name_Spec Name_Proofs Hash_Model Chunk_Spec Filter_Model Filter_Props Mmgr_Model Mmgr_Props Cht_Model Cache_Model Cache_Spec Alias_Spec Cache_Props
  Parser_Model Parser_Spec Parser_Proofs Gen_Model Gen_Spec Gen_Proofs Compress_Spec Compress_Proofs Gen2_Proofs Gen_Props Fetch_Model Fetch_Spec Fetch_Proofs Fetch2_Proofs Fetch_Props
  Hosts_Model Hosts_Spec Hosts_Props Mctx_Model Iheader_Spec Iheader_Model Iheader_Proofs Iheader_Props Udpm_Model Udpm_Spec Udpm_Props Hmsg_Model Hmsg_Spec Hmsg_Proofs Hmsg_Props Tcp_Model Tcp_Props
  Rdata_Model Rdata_Spec Rdata_Props Serve_Model Serve_Spec Serve_Proofs Serve_Props Again_Spec Again_Props.
Require Import ZifyBool ZifyNat.

Section A.
Context (fn : list Z -> list Z -> bool) (parse : list Z -> ipaddr) (good : list Z -> option (list Z)) (hdr : iheader -> list Z) (raw : list Z -> list cnode -> nat -> Z).

(** The response [p], whose records are [recs], came after [es] and before [es'], as C83 has it. *)
Definition heard (parallel : bool) (get : list Z -> option ctrl) (size slots : nat) (es : list event) (p : response) (es' : list event) (recs : list crec) (t0 now : Z) : Prop :=
  (128 <= slots)%nat /\ (128 + 4 * slots + 544 * received parallel (es ++ [Got p]) <= size)%nat /\
  Forall event_ok (es ++ Got p :: es') /\ Forall plain_event (es ++ Got p :: es') /\ ascending t0 (flat_map (event_times parallel) (es ++ Got p :: es')) now /\
  p_first p || parallel = true /\ Forall2 (stored_as (p_msg p)) (to_cache (p_msg p)) recs /\ Forall storable recs /\ (forall rec, In rec recs -> life get p rec <> 0) /\ ForallOrdPairs unlike recs /\ level get parallel p recs /\
  (forall rec' t l, arrived get parallel es rec' t l -> forall rec x, In rec recs -> In x (to_cache (p_msg p)) -> Cache_Model.r_name rec' = Cache_Model.r_name rec -> t + l <= p_clk p (num x)) /\
  (forall rec' t l, arrived get parallel es' rec' t l -> forall rec, In rec recs -> Cache_Model.r_name rec' <> Cache_Model.r_name rec).

Lemma due_cached w q ql type name als rs c s : due fn good hdr w q ql type name als rs c s -> rs <> [] -> ~ disabled fn w type name -> verdict good (w_block6 w) (w_ts1 w) (w_ts2 w) type T_none ->
  exists g, is_reply q (h_edns (c_h c)) (als ++ rs) g /\ s = mk_served [sent_to hdr (c_h c) (with_length (c_h c) (length (enc_msg g))) (enc_msg g)] N_done.
Proof.
  intros HD Hr Hd HV. destruct HD as [m X|m _ V|a r g _ V|i1 i2 m _ V|g _ _ _ HR|i c' _ _ E|_ _ E]; try contradiction;
    try (pose proof (verdict_unique _ _ _ _ _ _ _ V HV); discriminate). exists g. auto.
Qed.

(** After the response, a datagram with a query that the response answers gets, at its address and from the socket that it came in at, the records of the response, and no server is asked; unless the
    configuration has something about the name. *)
Theorem C83_datagram_partial parallel get size slots es p es' recs t0 now : heard parallel get size slots es p es' recs t0 now ->
  exists f0, forall nf fuel, (f0 <= nf)%nat -> (f0 <= fuel)%nat -> exists m, do_events raw false parallel get nf fuel (cache_init size slots) (es ++ Got p :: es') = Ret m /\
  forall q q0 ql stack edns, plain_query q q0 ql -> In (q_type q0) cached_types -> (edns = true <-> offers_edns q) -> length stack = 254%nat ->
  exists f1, forall nf fuel k w a b d n als rs, let name := map small (dotted ql) in
    (f1 <= nf)%nat -> (f1 + n <= fuel)%nat -> k_cache k = Some m -> a_name a = stack -> a_now a = now -> a_inner a = true -> a_sent a = true ->
    loaded fn parse k w name -> ~ disabled fn w (q_type q0) name -> verdict good (w_block6 w) (w_ts1 w) (w_ts2 w) (q_type q0) T_none ->
    ubuf_ok n b -> d_bytes d = enc_msg q -> (length (enc_msg q) <= n)%nat ->
    Fetch_Spec.answers false (rev (arrivals get p recs)) now ql (q_type q0) als rs -> rs <> [] -> (q_type q0 = 5 -> (length rs <= 1)%nat) -> room good w q ql (q_type q0) edns als rs (n - length (enc_msg q)) ->
    exists g, is_reply q edns (als ++ rs) g /\ udp_serve fn good hdr raw false fuel nf k a b d = Ret (mk_served [mk_sent (d_sock d) (Some (d_addr d)) (enc_msg g)] N_done).
Proof.
  intros (H1 & H2 & H3 & H4 & H5 & H6 & H7 & H8 & H9 & H10 & H11 & H12 & H13).
  destruct (C83_again_partial raw parallel get size slots es p es' recs t0 now H1 H2 H3 H4 H5 H6 H7 H8 H9 H10 H11 H12 H13) as (f0 & HC). exists f0. intros nf0 fuel0 Hn0 Hf0. destruct (HC nf0 fuel0 Hn0 Hf0) as (m & Em & HX). exists m. split; [exact Em|].
  intros q q0 ql stack edns HP Hin He Hst. pose proof HP as (Hg & Hq & Hqn & Ho & Hne & Hl & Hk & Han).
  destruct (HX q q0 [] ql stack Hg Hq Hqn Ho Hne Hl Han Hk Hin Hst) as (f1 & HF1). destruct (fill_plain fn parse good hdr raw q q0 ql edns HP He) as (f2 & HF).
  exists (f1 + f2)%nat. intros nf fuel k w a b d n als rs name Hnf Hfu EK Ea Et Ei Es HL Hd HV (B1 & B2 & B3) Ed Hn HA Hr Hc HR.
  unfold udp_serve, udp_turn. rewrite Ed. assert (Ef : firstn (length (u_mem b)) (enc_msg q) = enc_msg q) by (apply firstn_all2; rewrite B2; exact Hn). rewrite Ef.
  set (post := skipn (length (enc_msg q)) (u_mem b)).
  assert (Hp : Forall is_byte post) by (rewrite <- (firstn_skipn (length (enc_msg q)) (u_mem b)) in B3; apply Forall_app in B3; exact (proj2 B3)).
  assert (Lp : length post = (n - length (enc_msg q))%nat) by (unfold post; rewrite skipn_length, B2; reflexivity).
  destruct (HF post fuel nf (u_h b) (u_dom b) (Some (d_addr d)) (d_sock d) (d_agent d) Hp ltac:(clear - Hfu; lia) ltac:(clear - Hnf; lia) B1) as (h' & dom' & EF & Hlab & Hed).
  rewrite EF. cbn [bind fst]. destruct Hlab as (time & agent & edns' & post' & Ec & Hp' & _).
  assert (Eh : h' = mk_ih None false time (Some (d_addr d)) (d_sock d) (map small (dotted ql)) (bkdr (map small (dotted ql))) (q_type q0) false edns' (Z.of_nat (length (enc_msg q))) agent) by congruence.
  assert (edns' = edns) as -> by (rewrite Eh in Hed; exact Hed).
  assert (Lq : (length (enc_msg q ++ post) <= fuel)%nat) by (rewrite app_length, Lp; clear - Hfu Hn; lia).
  rewrite <- Lp in HR.
  destruct (serve_ok fn parse good hdr raw false k w q q0 ql a (Some (d_addr d)) (d_sock d) (mk_ctx h' (enc_msg q ++ post)) als rs fuel nf time agent edns post HP HL Ei Es ltac:(now rewrite Eh) Hp Lq HR) as (s & E & HDue).
  { destruct HR as (R1 & R2 & _). unfold fetch_ok. rewrite EK, Ea, Et. split; [intros X; contradiction|]. intros _.
    destruct (HF1 nf fuel post edns true als rs ltac:(clear - Hnf; lia) Lq Hp R2 HA Hr Hc R1) as (g & mem' & EE & _ & HI). exists g, mem'. split; [exact EE|exact HI]. }
  rewrite E. destruct (due_cached _ _ _ _ _ _ _ _ _ HDue Hr Hd HV) as (g & HG & ->). cbn [c_h] in *. rewrite Hed in HG. exists g. split; [exact HG|]. rewrite Eh. reflexivity.
Qed.

(** The same for a query on a TCP connection, whole after its length or together with it (C57). *)
Theorem C83_connection_partial parallel get size slots es p es' recs t0 now : heard parallel get size slots es p es' recs t0 now ->
  exists f0, forall nf fuel, (f0 <= nf)%nat -> (f0 <= fuel)%nat -> exists m, do_events raw false parallel get nf fuel (cache_init size slots) (es ++ Got p :: es') = Ret m /\
  forall q q0 ql stack edns, plain_query q q0 ql -> In (q_type q0) cached_types -> (edns = true <-> offers_edns q) -> length stack = 254%nat ->
  exists f1, forall nf fuel k w a b net sock agent x more n als rs, let name := map small (dotted ql) in
    (f1 <= nf)%nat -> (f1 + n <= fuel)%nat -> k_cache k = Some m -> a_name a = stack -> a_now a = now -> a_inner a = true -> a_sent a = true ->
    loaded fn parse k w name -> ~ disabled fn w (q_type q0) name -> verdict good (w_block6 w) (w_ts1 w) (w_ts2 w) (q_type q0) T_none ->
    ubuf_ok n b -> (length (enc_msg q) <= n)%nat -> Z.of_nat (length (enc_msg q)) < 65536 ->
    net_ok net -> segs net = (framed (enc_msg q) ++ x) :: more \/ segs net = be16 (Z.of_nat (length (enc_msg q))) :: (enc_msg q ++ x) :: more ->
    Fetch_Spec.answers false (rev (arrivals get p recs)) now ql (q_type q0) als rs -> rs <> [] -> (q_type q0 = 5 -> (length rs <= 1)%nat) -> room good w q ql (q_type q0) edns als rs (n - length (enc_msg q)) ->
    exists g, is_reply q edns (als ++ rs) g /\
      tcp_serve fn good hdr raw false fuel nf k a b net sock agent = Ret (mk_served [mk_sent sock None (be16 (Z.of_nat (length (enc_msg g)) mod 65536) ++ enc_msg g)] N_done).
Proof.
  intros (H1 & H2 & H3 & H4 & H5 & H6 & H7 & H8 & H9 & H10 & H11 & H12 & H13).
  destruct (C83_again_partial raw parallel get size slots es p es' recs t0 now H1 H2 H3 H4 H5 H6 H7 H8 H9 H10 H11 H12 H13) as (f0 & HC). exists f0. intros nf0 fuel0 Hn0 Hf0. destruct (HC nf0 fuel0 Hn0 Hf0) as (m & Em & HX). exists m. split; [exact Em|].
  intros q q0 ql stack edns HP Hin He Hst. pose proof HP as (Hg & Hq & Hqn & Ho & Hne & Hl & Hk & Han).
  destruct (HX q q0 [] ql stack Hg Hq Hqn Ho Hne Hl Han Hk Hin Hst) as (f1 & HF1). destruct (fill_plain fn parse good hdr raw q q0 ql edns HP He) as (f2 & HF).
  exists (f1 + f2)%nat. intros nf fuel k w a b net sock agent x more n als rs name Hnf Hfu EK Ea Et Ei Es HL Hd HV (B1 & B2 & B3) Hn H16 HN HG HA Hr Hc HR.
  assert (Hnil : enc_msg q <> []) by (intros X; apply (f_equal (@length Z)) in X; rewrite enc_msg_length in X by exact (proj1 Hg); cbn [length] in X; clear - X; lia).
  destruct (C57_whole_partial net (u_mem b) (enc_msg q) x more HN Hnil ltac:(rewrite B2; exact Hn) H16 HG) as (net' & EQ & _).
  unfold tcp_serve. rewrite EQ. cbn [bind]. rewrite Nat2Z.id.
  set (post := skipn (length (enc_msg q)) (u_mem b)).
  assert (Hp : Forall is_byte post) by (rewrite <- (firstn_skipn (length (enc_msg q)) (u_mem b)) in B3; apply Forall_app in B3; exact (proj2 B3)).
  assert (Lp : length post = (n - length (enc_msg q))%nat) by (unfold post; rewrite skipn_length, B2; reflexivity).
  destruct (HF post fuel nf (u_h b) (u_dom b) None sock agent Hp ltac:(clear - Hfu; lia) ltac:(clear - Hnf; lia) B1) as (h' & dom' & EF & Hlab & Hed).
  rewrite EF. cbn [bind fst]. destruct Hlab as (time & agent' & edns' & post' & Ec & Hp' & _).
  assert (Eh : h' = mk_ih None false time None sock (map small (dotted ql)) (bkdr (map small (dotted ql))) (q_type q0) false edns' (Z.of_nat (length (enc_msg q))) agent') by congruence.
  assert (edns' = edns) as -> by (rewrite Eh in Hed; exact Hed).
  assert (Lq : (length (enc_msg q ++ post) <= fuel)%nat) by (rewrite app_length, Lp; clear - Hfu Hn; lia).
  rewrite <- Lp in HR.
  destruct (serve_ok fn parse good hdr raw false k w q q0 ql a None sock (mk_ctx h' (enc_msg q ++ post)) als rs fuel nf time agent' edns post HP HL Ei Es ltac:(now rewrite Eh) Hp Lq HR) as (s & E & HDue).
  { destruct HR as (R1 & R2 & _). unfold fetch_ok. rewrite EK, Ea, Et. split; [intros X; contradiction|]. intros _.
    destruct (HF1 nf fuel post edns true als rs ltac:(clear - Hnf; lia) Lq Hp R2 HA Hr Hc R1) as (g & mem' & EE & _ & HI). exists g, mem'. split; [exact EE|exact HI]. }
  rewrite E. destruct (due_cached _ _ _ _ _ _ _ _ _ HDue Hr Hd HV) as (g & HG' & ->). cbn [c_h] in *. rewrite Hed in HG'. exists g. split; [exact HG'|]. rewrite Eh. reflexivity.
Qed.
End A.
Print Assumptions C83_datagram_partial.
Print Assumptions C83_connection_partial.

(** The program of C85 without hosts, with the cache of C83; the query comes at 1030 as a datagram, and on a connection. *)
Definition k83 : holds := mk_holds (k_types vx_k) (k_domains vx_k) true None None (match do_events no_raw false false no_rule 30 30 (cache_init 4000 128) all83 with Ret m => Some m | _ => None end)
  (map_of mmap_init vx_groups) false false.
Definition a83 : around := mk_around [9] [8] (repeat 0 254) 1030 0 true true 0.
Definition reply83 : list Z := [18; 52; 129; 160; 0; 1; 0; 2; 0; 0; 0; 1; 1; 97; 1; 98; 0; 0; 1; 0; 1;
       192; 12; 0; 5; 0; 1; 0; 0; 0; 32; 0; 5; 1; 99; 1; 98; 0;
       192; 33; 0; 1; 0; 1; 0; 0; 0; 33; 0; 4; 10; 0; 0; 1;
       0; 0; 41; 5; 0; 0; 0; 0; 0; 0; 0].
Example C83_served_nonvacuous : heard false no_rule 4000 128 before83 (resp83 true 1000) after83 recs61 0 1030 /\ plain_query q83 (mk_q (plain [[97]; [98]]) 1 1) [[97]; [98]] /\
  loaded vx_fn ex_parse k83 (vx_w []) [97; 46; 98] /\ ~ disabled vx_fn (vx_w []) 1 [97; 46; 98] /\ verdict (fun _ => None) (w_block6 (vx_w [])) (w_ts1 (vx_w [])) (w_ts2 (vx_w [])) 1 T_none /\ ubuf_ok 300 vx_b /\
  room (fun _ => None) (vx_w []) q83 [[97]; [98]] 1 true als83 rs83 (300 - length (enc_msg q83)) /\
  udp_serve vx_fn (fun _ => None) (fun _ => []) no_raw false 400 60 k83 a83 vx_b (vx_d q83) = Ret (mk_served [mk_sent 5 (Some [77]) reply83] N_done) /\
  tcp_serve vx_fn (fun _ => None) (fun _ => []) no_raw false 400 60 k83 a83 vx_b [Seg [0; 32]; Seg (enc_msg q83)] 9 [49] = Ret (mk_served [mk_sent 9 None (0 :: 65 :: reply83)] N_done).
Proof.
  destruct C83_nonvacuous as (X1 & X2 & X3 & X4 & X5 & X6 & X7 & X8 & X9 & X10 & X11 & X12 & X13).
  split; [unfold heard; split; [apply Nat.leb_le; reflexivity|]; split; [exact X1|]; split; [exact X2|]; split; [exact X3|]; split; [exact X4|]; split; [reflexivity|]; repeat (split; [assumption|]); split; [discriminate|]; auto|].
  split.
  { split; [|split; [reflexivity|]; split; [reflexivity|]; split; [apply fx_name; lia|]; split; [discriminate|]; split; [cbn; lia|]; split; reflexivity].
    unfold good_msg, q83. cbn [m_idflags m_qs m_an m_ns m_ar]. split; [reflexivity|]. split; [repeat (constructor; [unfold is_byte; lia|]); constructor|].
    split; [constructor; [split; [apply Compress_Proofs.name_ok_good, fx_name; lia|cbn; lia]|constructor]|]. split; [constructor|]. split; [constructor|]. split; [|cbn [length]; lia].
    constructor; [|constructor]. apply (sop_rr_good (SEDns 1280)); [cbn; lia|reflexivity]. }
  split.
  { split; [exists 7, [[49; 54]]; split; [vm_compute; reflexivity|]; split; [vm_compute; reflexivity|]; constructor; [|constructor]; vm_compute; intuition congruence|].
    split; [exists [[46; 97; 100; 46; 99]], []; split; [vm_compute; reflexivity|]; split; [reflexivity|constructor]|]. split; [reflexivity|].
    split; [exists None; split; [exact I|reflexivity]|]. split; [exists None; split; [exact I|reflexivity]|]. split; [reflexivity|]. split; reflexivity. }
  split.
  { intros [[X|[]]|(d & [<-|[]] & X)]; [discriminate|]. destruct X as [(_ & [X|(p & _ & X)])|(_ & X)]; [discriminate| |discriminate]. apply (f_equal (@length Z)) in X. rewrite app_length in X. cbn [length] in X. change (length (undot [46; 97; 100; 46; 99])) with 4%nat in X. lia. }
  split; [split; [intuition discriminate|split; [reflexivity|intros; reflexivity]]|].
  split; [split; [reflexivity|]; split; [reflexivity|]; apply Forall_forall; intros x Hx; apply repeat_spec in Hx; subst x; unfold is_byte; lia|].
  split.
  { split; [apply Nat.leb_le; vm_compute; reflexivity|]. split; [apply Z.leb_le; vm_compute; reflexivity|]. intros a (V1 & V2 & V3). specialize (V3 ltac:(discriminate)). cbn in V3. unfold has in V3. cbn in V3. discriminate V3. intros (t & [] & _). }
  split; vm_compute; reflexivity.
Qed.

(** With CacheParallel: the same response, now not the first to its question, is kept as well. *)
Definition kept83 : outcome cache := do_events no_raw false true no_rule 30 30 (cache_init 4000 128) (before83 ++ Got (resp83 false 1000) :: [Swept 1020]).
Example C83_parallel_nonvacuous : heard true no_rule 4000 128 before83 (resp83 false 1000) [Swept 1020] recs61 0 1030 /\
  (match kept83 with Ret c => fx_get (fetch no_raw false 50 (repeat 0 254) 200 c (enc_msg q83 ++ repeat 0 100) (length (enc_msg q83)) true 1030 true) | _ => (98, []) end) = (0, reply83).
Proof.
  destruct C83_nonvacuous as (X1 & X2 & X3 & X4 & X5 & X6 & X7 & X8 & X9 & X10 & _).
  assert (Eto : map num (to_cache ex61) = [2; 3; 6]) by (vm_compute; reflexivity).
  split; [|vm_compute; reflexivity].
  split; [apply Nat.leb_le; reflexivity|]. split; [apply Nat.leb_le; vm_compute; reflexivity|].
  split; [repeat (constructor; [first [apply resp83_ok|exact I]|]); constructor|]. split; [repeat (constructor; [first [apply plain83|exact I]|]); constructor|].
  split; [vm_compute; repeat split; discriminate|]. split; [reflexivity|]. split; [exact X5|]. split; [exact X6|]. split; [exact X7|]. split; [exact X8|].
  split.
  { intros _ x rec x' rec' H H' _ Ht _. change (p_msg (resp83 false 1000)) with ex61 in H, H'. assert (HK : forall y r, In (y, r) (combine (to_cache ex61) recs61) -> num y = 2 /\ r = nth 0 recs61 r \/ num y = 3 /\ r = nth 1 recs61 r \/ num y = 6 /\ r = nth 2 recs61 r).
    { clear - Eto. destruct (to_cache ex61) as [|a [|b [|c [|d l]]]]; cbn [map] in Eto; try discriminate. injection Eto as E1 E2 E3. cbn [combine recs61 In nth]. intros y r [X|[X|[X|[]]]]; injection X as <- <-; auto. }
    pose proof (HK _ _ H) as K. pose proof (HK _ _ H') as K'. cbn [nth recs61] in K, K'. change (p_clk (resp83 false 1000)) with (fun k => 1000 + k). cbv beta.
    destruct K as [(K1 & K2)|[(K1 & K2)|(K1 & K2)]]; destruct K' as [(K3 & K4)|[(K3 & K4)|(K3 & K4)]]; rewrite K1, K3; split; try reflexivity; rewrite K2, K4 in *; try discriminate Ht; reflexivity. }
  split.
  { intros rec' t l H rec x Hr Hx _. destruct H as [p y rec' Hp Hf Hy Hs]. destruct Hp as [Hp|[Hp|[]]]; [|discriminate]. assert (p = resp83 true 100) by congruence. subst p. change (p_msg (resp83 true 100)) with ex61 in Hy, Hs. change (p_msg (resp83 false 1000)) with ex61 in Hx.
    pose proof (stored61 y rec' Hy Hs) as Hi. apply (in_map num) in Hy. apply (in_map num) in Hx. rewrite Eto in Hy, Hx. change (p_clk (resp83 true 100) (num y)) with (100 + num y). change (p_clk (resp83 false 1000) (num x)) with (1000 + num x).
    assert (life no_rule (resp83 true 100) rec' <= 90) by (destruct Hi as [<-|[<-|[<-|[]]]]; vm_compute; discriminate). cbn [In] in Hx, Hy. lia. }
  intros rec' t l H. exfalso. destruct H as [p y rec' Hp Hf Hy Hs]. destruct Hp as [Hp|[]]. discriminate.
Qed.
