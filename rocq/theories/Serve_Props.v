(** C85: from the query to what its client gets. *)
From Verif Require Import Base BaseFacts ListFacts Name_Model Name_Spec Name_Proofs Hash_Model Chunk_Spec Filter_Model Filter_Props Mmgr_Model Mmgr_Props Cht_Model Cache_Model Cache_Spec Alias_Spec Cache_Props
  Parser_Model Parser_Spec Parser_Proofs Gen_Model Gen_Spec Gen_Proofs Compress_Spec Compress_Proofs Gen2_Proofs Gen_Props Fetch_Model Fetch_Spec Fetch_Proofs Fetch2_Proofs Fetch_Props
  Hosts_Model Hosts_Spec Hosts_Props Mctx_Model Iheader_Spec Iheader_Model Iheader_Proofs Iheader_Props Udpm_Model Udpm_Spec Udpm_Props Hmsg_Model Hmsg_Spec Hmsg_Proofs Hmsg_Props Tcp_Model Tcp_Props Serve_Model Serve_Spec Serve_Proofs.
Require Import ZifyBool ZifyNat.

Section P.
Context (fn : list Z -> list Z -> bool) (parse : list Z -> ipaddr) (good : list Z -> option (list Z)) (hdr : iheader -> list Z) (raw : list Z -> list cnode -> nat -> Z) (ignore : bool).

(** The records in the cache of [k] after the history [ops]. *)
Definition cache_holds (k : holds) (ops : list op) (parallel : bool) (get : list Z -> option ctrl) (A : option (list entry)) : Prop :=
  match k_cache k with
  | None => A = None
  | Some m => exists A', A = Some A' /\ a_run ignore parallel get [] ops A' /\ c_count m = Z.of_nat (length A')
  end.

(** For every configuration, all hosts files, every history of the cache, all server groups, and every query with one question: what the program does with it is what
    its client is due.
    What is missing from the full statement: NS and PTR questions, replies for which there is no room and several CNAME records for one name with a cache (C63), a cached reply that cannot
    be sent ([C85_unsent_refuted]), queries for the root, queries with another number of questions (C59, C65), and an alias that cannot be handed over (the sendto to the program itself fails). *)
Theorem C85_served_partial k ops now parallel get : cache_history ignore raw k ops now parallel get ->
  exists A, cache_holds k ops parallel get A /\
  forall q q0 ql stack, plain_query q q0 ql -> length stack = 254%nat ->
  exists f0, forall fuel nf w a back sock c als rs, let name := map small (dotted ql) in
    (f0 <= nf)%nat -> (length (c_entity c) <= fuel)%nat -> a_name a = stack -> a_now a = now -> a_inner a = true -> a_sent a = true ->
    loaded fn parse k w name -> labelled q (q_type q0) name back sock c ->
    kept_for ignore A now ql (q_type q0) als rs -> (q_type q0 = 5 -> (length rs <= 1)%nat) ->
    room good w q ql (q_type q0) (h_edns (c_h c)) als rs (length (c_entity c) - length (enc_msg q)) ->
    exists s, serve fn good hdr raw ignore fuel nf k a c = Ret s /\ due fn good hdr w q ql (q_type q0) name als rs c s.
Proof.
  intros HH. unfold cache_history, cache_holds in *. destruct (k_cache k) as [m|] eqn:EK.
  - destruct HH as (size & slots & t0 & H1 & H2 & H3 & H4 & H5 & H6).
    destruct (C63_cached_answer_partial raw ignore parallel get size slots ops m t0 now H1 H2 H3 H4 H5 H6) as (A & HA & HC & HF). exists (Some A). split; [eauto|].
    intros q q0 ql stack HP Hst. pose proof HP as (Hg & Hq & Hqn & Ho & Hne & Hl & Hk & Han).
    destruct (in_dec Z.eq_dec (q_type q0) cached_types) as [Hin|Hin].
    + destruct (HF q q0 [] ql stack Hg Hq Hqn Ho Hne Hl Han Hk Hin Hst) as (f0 & HX). exists f0. intros fuel nf w a back sock c als rs Hnf Hfu Ea Et Ei Es HL (time & agent & edns & post & Ec & Hp & _) HK H5' HR.
      rewrite Ec in Hfu, HR. cbn [c_entity c_h h_edns] in Hfu, HR. rewrite app_length, (Nat.add_comm (length (enc_msg q))), Nat.add_sub in HR. rewrite app_length in Hfu.
      apply (serve_ok fn parse good hdr raw ignore k w q q0 ql a back sock c als rs fuel nf time agent edns post HP HL Ei Es Ec Hp); [rewrite app_length; exact Hfu|exact HR|].
      destruct HR as (R1 & R2 & _). unfold fetch_ok. rewrite EK, Ea, Et. destruct HK as [(_ & HK)|(HK & _)]; [|contradiction].
      destruct (HX nf fuel post edns true als rs Hnf ltac:(rewrite app_length; exact Hfu) Hp R2 HK H5' R1) as (X1 & X2). split.
      * intros Hr. destruct (X1 Hr) as (mem' & E & _). exists (-3), mem'. split; [discriminate|]. split; [discriminate|exact E].
      * intros Hr. destruct (X2 Hr) as (g & mem' & E & _ & HI). exists g, mem'. split; [exact E|exact HI].
    + destruct (in_dec Z.eq_dec (q_type q0) other_cached_types) as [Hin2|Hin2].
      { exists 0%nat. intros fuel nf w a back sock c als rs _ _ _ _ _ _ _ _ HK. destruct HK as [(HK & _)|(_ & HK & _)]; contradiction. }
      assert (HN : m_an q <> [] \/ q_class q0 <> 1 \/ ~ In (q_type q0) [1; 2; 5; 12; 15; 16; 28; 65]).
      { right. right. unfold cached_types, other_cached_types in *. cbn [In] in *. intuition congruence. }
      destruct (C63_not_cached raw ignore m now q q0 [] ql stack Hg Hq Hqn Ho Hl Hst HN) as (f0 & HX). exists f0. intros fuel nf w a back sock c als rs Hnf Hfu Ea Et Ei Es HL (time & agent & edns & post & Ec & Hp & _) HK H5' HR.
      rewrite Ec in Hfu, HR. cbn [c_entity c_h h_edns] in Hfu, HR. rewrite app_length, (Nat.add_comm (length (enc_msg q))), Nat.add_sub in HR. rewrite app_length in Hfu.
      apply (serve_ok fn parse good hdr raw ignore k w q q0 ql a back sock c als rs fuel nf time agent edns post HP HL Ei Es Ec Hp); [rewrite app_length; exact Hfu|exact HR|].
      destruct HR as (R1 & R2 & _). unfold fetch_ok. rewrite EK, Ea, Et. destruct HK as [(HK & _)|(_ & _ & _ & ->)]; [contradiction|].
      split; [intros _|intros X; congruence]. pose proof (stripped_fits q edns (als ++ []) Hg Han) as SF.
      destruct (HX nf fuel post edns true Hnf ltac:(rewrite app_length; exact Hfu) Hp ltac:(clear - SF R1; lia)) as (mem' & E & _). rewrite Han in E. exists (-3), mem'. split; [discriminate|]. split; [discriminate|exact E].
  - exists None. split; [reflexivity|]. intros q q0 ql stack HP Hst. exists 0%nat. intros fuel nf w a back sock c als rs Hnf Hfu Ea Et Ei Es HL (time & agent & edns & post & Ec & Hp & _) HK H5' HR. destruct HK as (_ & HK).
    rewrite Ec in Hfu, HR. cbn [c_entity c_h h_edns] in Hfu, HR. rewrite app_length, (Nat.add_comm (length (enc_msg q))), Nat.add_sub in HR.
    apply (serve_ok fn parse good hdr raw ignore k w q q0 ql a back sock c als rs fuel nf time agent edns post HP HL Ei Es Ec Hp Hfu HR). unfold fetch_ok. rewrite EK. exact HK.
Qed.

(** A plain query can be read; the name and the type that it asks for. *)
Lemma plain_asked q q0 ql : plain_query q q0 ql -> acceptable q /\ asked q (map small (dotted ql)) (q_type q0).
Proof.
  intros HP. pose proof HP as (Hg & Hq & Hqn & Ho & Hne & Hl & Hk & Han).
  assert (HD : exists w, denotes 63 (enc_msg q) 12 ql w).
  { destruct (denotes_plain ql (header q) (be16 (q_type q0) ++ be16 (q_class q0) ++ concat (map enc_item (map IQ [] ++ map (IR P_answer) (m_an q) ++ map (IR P_nameserver) (m_ns q) ++ map (IR P_additional) (m_ar q))))) as [w Hw]; [now apply Compress_Proofs.name_ok_good|].
    exists w. rewrite header_length in Hw by exact (proj1 Hg). rewrite enc_msg_items. unfold items_of. rewrite Hq. cbn [map concat enc_item app]. unfold enc_q. rewrite Hqn, <- !app_assoc. exact Hw. }
  destruct HD as (w0 & HD).
  assert (Hac : acceptable q).
  { split; [exact Hg|]. rewrite Hq. split; [discriminate|]. cbn [readable]. split; [exact Hk|]. split; [|exact I]. exists ql, w0. split; [exact HD|]. clear - Hl. lia. }
  assert (Hnz : ~ In 0 (dotted ql)) by (pose proof (dotted_nonzero ql Ho) as HZ; rewrite Forall_forall in HZ; intros X; exact (HZ 0 X eq_refl)).
  assert (Has : asked q (map small (dotted ql)) (q_type q0)).
  { exists ql, w0, (dotted ql), q0, []. split; [exact Hq|]. split; [reflexivity|]. split; [unfold last_question_at; rewrite Hq; exact HD|]. split; [|reflexivity]. split; [exact Hnz|left; reflexivity]. }
  split; [exact Hac|exact Has].
Qed.
Lemma asked_plain q q0 ql : plain_query q q0 ql -> asked q (map small (dotted ql)) (q_type q0).
Proof. intros HP. apply plain_asked, HP. Qed.
(** How the front ends label the query. *)
Lemma fill_plain q q0 ql edns : plain_query q q0 ql -> (edns = true <-> offers_edns q) ->
  exists f2, forall post fuel nf h dom back sock agent, Forall is_byte post -> (f2 <= fuel)%nat -> (f2 <= nf)%nat -> length dom = 256%nat ->
    exists h' dom', ih_fill fuel nf h dom false (enc_msg q ++ post) (length (enc_msg q)) back sock (Some agent) = Ret (0, h', dom') /\
      labelled q (q_type q0) (map small (dotted ql)) back sock (mk_ctx h' (enc_msg q ++ post)) /\ h_edns h' = edns.
Proof.
  intros HP He. destruct (plain_asked q q0 ql HP) as (Hac & Has).
  destruct (C59_labelled q Hac) as (f2 & HF). exists f2. intros post fuel nf h dom back sock agent Hp Hfu Hnf Hd.
  destruct (HF post fuel nf h dom false back sock (Some agent) Hp Hfu Hnf Hd) as (name' & type & edns' & dom' & HA' & HE' & _ & _ & EF).
  destruct (C59_asked_unique q _ _ _ _ HA' Has) as (-> & ->). assert (edns' = edns) as -> by (destruct edns, edns'; intuition congruence).
  eexists _, dom'. split; [exact EF|]. split; [|reflexivity]. unfold labelled. do 4 eexists. split; [reflexivity|]. split; [exact Hp|exact He].
Qed.

(** The query as a datagram: whatever the front end's buffer has in it from before, what is due goes to the address that the datagram came from, at the socket that it came in at. *)
Theorem C85_datagram_partial k ops now parallel get : cache_history ignore raw k ops now parallel get ->
  exists A, cache_holds k ops parallel get A /\
  forall q q0 ql stack edns, plain_query q q0 ql -> (edns = true <-> offers_edns q) -> length stack = 254%nat ->
  exists f0, forall fuel nf w a b d n als rs, let name := map small (dotted ql) in
    (f0 <= nf)%nat -> (f0 + n <= fuel)%nat -> a_name a = stack -> a_now a = now -> a_inner a = true -> a_sent a = true ->
    loaded fn parse k w name -> ubuf_ok n b -> d_bytes d = enc_msg q -> (length (enc_msg q) <= n)%nat ->
    kept_for ignore A now ql (q_type q0) als rs -> (q_type q0 = 5 -> (length rs <= 1)%nat) -> room good w q ql (q_type q0) edns als rs (n - length (enc_msg q)) ->
    exists c s, labelled q (q_type q0) name (Some (d_addr d)) (d_sock d) c /\ h_edns (c_h c) = edns /\ udp_serve fn good hdr raw ignore fuel nf k a b d = Ret s /\ due fn good hdr w q ql (q_type q0) name als rs c s.
Proof.
  intros HH. destruct (C85_served_partial k ops now parallel get HH) as (A & HA & HS). exists A. split; [exact HA|].
  intros q q0 ql stack edns HP He Hst. destruct (HS q q0 ql stack HP Hst) as (f1 & HX). destruct (fill_plain q q0 ql edns HP He) as (f2 & HF).
  exists (f1 + f2)%nat. intros fuel nf w a b d n als rs name Hnf Hfu Ea Et Ei Es HL (B1 & B2 & B3) Ed Hn HK H5 HR.
  unfold udp_serve, udp_turn. rewrite Ed. assert (Ef : firstn (length (u_mem b)) (enc_msg q) = enc_msg q) by (apply firstn_all2; rewrite B2; exact Hn). rewrite Ef.
  set (post := skipn (length (enc_msg q)) (u_mem b)).
  assert (Hp : Forall is_byte post) by (rewrite <- (firstn_skipn (length (enc_msg q)) (u_mem b)) in B3; apply Forall_app in B3; exact (proj2 B3)).
  assert (Lp : length post = (n - length (enc_msg q))%nat) by (unfold post; rewrite skipn_length, B2; reflexivity).
  destruct (HF post fuel nf (u_h b) (u_dom b) (Some (d_addr d)) (d_sock d) (d_agent d) Hp ltac:(clear - Hfu; lia) ltac:(clear - Hnf; lia) B1) as (h' & dom' & EF & Hlab & Hed).
  rewrite EF. cbn [bind fst].
  destruct (HX fuel nf w a (Some (d_addr d)) (d_sock d) (mk_ctx h' (enc_msg q ++ post)) als rs) as (s & E & HDue); auto.
  - clear - Hnf. lia.
  - cbn [c_entity]. rewrite app_length, Lp. clear - Hfu Hn. lia.
  - cbn [c_entity c_h]. rewrite Hed, app_length, (Nat.add_comm (length (enc_msg q))), Nat.add_sub, Lp. exact HR.
  - eexists _, s. split; [exact Hlab|]. split; [exact Hed|]. split; [exact E|exact HDue].
Qed.

(** The query on a TCP connection, whole after its length or together with it (C57: a query that comes in other parts is not read): what is due goes to that connection. *)
Theorem C85_connection_partial k ops now parallel get : cache_history ignore raw k ops now parallel get ->
  exists A, cache_holds k ops parallel get A /\
  forall q q0 ql stack edns, plain_query q q0 ql -> (edns = true <-> offers_edns q) -> length stack = 254%nat ->
  exists f0, forall fuel nf w a b net sock agent x more n als rs, let name := map small (dotted ql) in
    (f0 <= nf)%nat -> (f0 + n <= fuel)%nat -> a_name a = stack -> a_now a = now -> a_inner a = true -> a_sent a = true ->
    loaded fn parse k w name -> ubuf_ok n b -> (length (enc_msg q) <= n)%nat -> Z.of_nat (length (enc_msg q)) < 65536 ->
    net_ok net -> segs net = (framed (enc_msg q) ++ x) :: more \/ segs net = be16 (Z.of_nat (length (enc_msg q))) :: (enc_msg q ++ x) :: more ->
    kept_for ignore A now ql (q_type q0) als rs -> (q_type q0 = 5 -> (length rs <= 1)%nat) -> room good w q ql (q_type q0) edns als rs (n - length (enc_msg q)) ->
    exists c s, labelled q (q_type q0) name None sock c /\ h_edns (c_h c) = edns /\ tcp_serve fn good hdr raw ignore fuel nf k a b net sock agent = Ret s /\ due fn good hdr w q ql (q_type q0) name als rs c s.
Proof.
  intros HH. destruct (C85_served_partial k ops now parallel get HH) as (A & HA & HS). exists A. split; [exact HA|].
  intros q q0 ql stack edns HP He Hst. destruct (HS q q0 ql stack HP Hst) as (f1 & HX). destruct (fill_plain q q0 ql edns HP He) as (f2 & HF). pose proof HP as (Hg & _).
  exists (f1 + f2)%nat. intros fuel nf w a b net sock agent x more n als rs name Hnf Hfu Ea Et Ei Es HL (B1 & B2 & B3) Hn H16 HN HG HK H5 HR.
  assert (Hnil : enc_msg q <> []) by (intros X; apply (f_equal (@length Z)) in X; rewrite enc_msg_length in X by exact (proj1 Hg); cbn [length] in X; clear - X; lia).
  destruct (C57_whole_partial net (u_mem b) (enc_msg q) x more HN Hnil ltac:(rewrite B2; exact Hn) H16 HG) as (net' & EQ & _).
  unfold tcp_serve. rewrite EQ. cbn [bind]. rewrite Nat2Z.id.
  set (post := skipn (length (enc_msg q)) (u_mem b)).
  assert (Hp : Forall is_byte post) by (rewrite <- (firstn_skipn (length (enc_msg q)) (u_mem b)) in B3; apply Forall_app in B3; exact (proj2 B3)).
  assert (Lp : length post = (n - length (enc_msg q))%nat) by (unfold post; rewrite skipn_length, B2; reflexivity).
  destruct (HF post fuel nf (u_h b) (u_dom b) None sock agent Hp ltac:(clear - Hfu; lia) ltac:(clear - Hnf; lia) B1) as (h' & dom' & EF & Hlab & Hed).
  rewrite EF. cbn [bind fst].
  destruct (HX fuel nf w a None sock (mk_ctx h' (enc_msg q ++ post)) als rs) as (s & E & HDue); auto.
  - clear - Hnf. lia.
  - cbn [c_entity]. rewrite app_length, Lp. clear - Hfu Hn. lia.
  - cbn [c_entity c_h]. rewrite Hed, app_length, (Nat.add_comm (length (enc_msg q))), Nat.add_sub, Lp. exact HR.
  - eexists _, s. split; [exact Hlab|]. split; [exact Hed|]. split; [exact E|exact HDue].
Qed.

(** What is due is one message to the client and nothing else, or no message and the query goes on; a message goes to the client's address and, over UDP, is the bytes of the message
    and over TCP these behind their length. *)
Theorem C85_one_message w q ql type name als rs back sock c s : labelled q type name back sock c -> due fn good hdr w q ql type name als rs c s ->
  (v_next s = N_done /\ exists m, v_sent s = [mk_sent sock back (match back with None => be16 (Z.of_nat (length m) mod 65536) ++ m | Some _ => m end)] /\ firstn 2 m = firstn 2 (enc_msg q)) \/
  (v_sent s = [] /\ v_next s <> N_done).
Proof.
  intros (time & agent & edns & post & -> & _) H.
  assert (HI : forall x rs' g, is_reply q x rs' g -> firstn 2 (enc_msg g) = firstn 2 (enc_msg q)).
  { intros x rs' g (_ & (i1 & i2 & f2 & f3 & f2' & f3' & E1 & E2 & _) & _). unfold enc_msg. rewrite E1, E2. reflexivity. }
  assert (HF : forall m, refused (enc_msg q) m -> firstn 2 m = firstn 2 (enc_msg q)).
  { intros m (Hl & Hn & _). pose proof (Hn 0%nat ltac:(discriminate) ltac:(discriminate)) as N0. pose proof (Hn 1%nat ltac:(discriminate) ltac:(discriminate)) as N1.
    destruct m as [|x [|y m]], (enc_msg q) as [|x' [|y' m']]; cbn in *; congruence. }
  destruct H as [m ? HR|m ? ? HR|a r g ? ? ? HR|i1 i2 m ? ?|g ? ? ? HR|i c' ? ? ?|? ? ? ?].
  1,2: left; split; [reflexivity|]; exists m; (split; [|now apply HF]); unfold sent_to; cbn; destruct back; reflexivity.
  1,3: left; split; [reflexivity|]; exists (enc_msg g); (split; [|eapply HI; eassumption]); unfold sent_to; cbn; destruct back; reflexivity.
  all: right; split; [reflexivity|discriminate].
Qed.
End P.
Print Assumptions C85_served_partial.
Print Assumptions C85_datagram_partial.
Print Assumptions C85_connection_partial.
Print Assumptions C85_one_message.

(** * Examples *)
(** DisabledType 16; DisabledDomain .ad.c; "1.1 a.b" in the hosts file; the cache of C63 (w.e is an alias of c.e, which has two addresses); "UDP ... .c ..." and "TCP ... * ...". *)
Definition vx_groups : list (proto * list (list Z)) := [(UDP, [[46; 99]]); (UDP, [[42]])].
Definition vx_fn (p s : list Z) : bool := match p with [42] => true | _ => false end.
Definition vx_k : holds :=
  mk_holds (match types_init 7 [[49; 54]] with Ret t => t | _ => None end) (match domains_init [[46; 97; 100; 46; 99]] [] with Ret t => t | _ => None end) true (Some hx_st) None (Some fx_cache)
    (map_of mmap_init vx_groups) false false.
Definition vx_w (ts : list target) : world := mk_world [16] [[46; 97; 100; 46; 99]] true ts [] vx_groups false false.
Definition vx_a (ok : bool) : around := mk_around [9] [8] (repeat 0 254) 1010 0 true ok 0.
Definition vx_b : ubuf := mk_ubuf (mk_ih None false 0 None 0 [] 0 0 false false 0 []) (repeat 0 256) (repeat 0 300).
Definition vx_q (ql : list (list Z)) (type : Z) : message := mk_msg [18; 52; 1; 32] [mk_q (plain ql) type 1] [] [] [opt_record].
Definition vx_d (q : message) : dgram := mk_dgram (enc_msg q) [77] 5 [49].
Definition vx_run (ok : bool) (q : message) : outcome served := udp_serve vx_fn (fun _ => None) (fun _ => []) no_raw false 400 60 vx_k (vx_a ok) vx_b (vx_d q).
(** What is sent, and where the query goes. *)
Definition vx_show (o : outcome served) : option (list sent * option nat) :=
  match o with Ret (mk_served s N_done) => Some (s, None) | Ret (mk_served s (N_group i _)) => Some (s, Some i) | _ => None end.
Example C85_nonvacuous :
  cache_history false no_raw vx_k fx_ops 1010 false no_rule /\ plain_query fx_q (mk_q (plain [[119]; [101]]) 1 1) [[119]; [101]] /\ offers_edns fx_q /\
  loaded vx_fn ex_parse vx_k (vx_w []) (map small (dotted [[119]; [101]])) /\ ubuf_ok 300 vx_b /\
  kept_for false (Some fx_A) 1010 [[119]; [101]] 1 fx_als fx_rs /\ room (fun _ => None) (vx_w []) fx_q [[119]; [101]] 1 true fx_als fx_rs (300 - length (enc_msg fx_q)) /\
  (* x.c with the type 16; b.ad.c; a.b; w.e; x.c; z *)
  vx_show (vx_run true (vx_q [[120]; [99]] 16)) = Some ([mk_sent 5 (Some [77]) [18; 52; 129; 160; 0; 1; 0; 0; 0; 0; 0; 1; 1; 120; 1; 99; 0; 0; 16; 0; 1; 0; 0; 41; 5; 0; 0; 0; 0; 0; 0; 0]], None) /\
  vx_show (vx_run true (vx_q [[66]; [97; 100]; [99]] 1)) = Some ([mk_sent 5 (Some [77]) [18; 52; 129; 160; 0; 1; 0; 0; 0; 0; 0; 1; 1; 66; 2; 97; 100; 1; 99; 0; 0; 1; 0; 1; 0; 0; 41; 5; 0; 0; 0; 0; 0; 0; 0]], None) /\
  vx_show (vx_run true (vx_q [[65]; [98]] 1)) = Some ([mk_sent 5 (Some [77]) [18; 52; 129; 160; 0; 1; 0; 1; 0; 0; 0; 1; 1; 65; 1; 98; 0; 0; 1; 0; 1; 192; 12; 0; 1; 0; 1; 0; 0; 0; 60; 0; 4; 49; 46; 49; 0; 0; 0; 41; 5; 0; 0; 0; 0; 0; 0; 0]], None) /\
  vx_show (vx_run true fx_q) = Some ([mk_sent 5 (Some [77]) [18; 52; 129; 160; 0; 1; 0; 3; 0; 0; 0; 1; 1; 119; 1; 101; 0; 0; 1; 0; 1;
       192; 12; 0; 5; 0; 1; 0; 0; 1; 34; 0; 5; 1; 99; 1; 101; 0; 192; 33; 0; 1; 0; 1; 0; 0; 0; 45; 0; 4; 5; 6; 7; 8; 192; 33; 0; 1; 0; 1; 0; 0; 0; 50; 0; 4; 1; 2; 3; 4; 0; 0; 41; 5; 0; 0; 0; 0; 0; 0; 0]], None) /\
  vx_show (tcp_serve vx_fn (fun _ => None) (fun _ => []) no_raw false 400 60 vx_k (vx_a true) vx_b [Seg [0; 32]; Seg (enc_msg (vx_q [[120]; [99]] 16))] 9 [49]) =
    Some ([mk_sent 9 None [0; 32; 18; 52; 129; 160; 0; 1; 0; 0; 0; 0; 0; 1; 1; 120; 1; 99; 0; 0; 16; 0; 1; 0; 0; 41; 5; 0; 0; 0; 0; 0; 0; 0]], None) /\
  vx_show (vx_run true (vx_q [[120]; [99]] 1)) = Some ([], Some 0%nat) /\ vx_show (vx_run true (vx_q [[122]] 1)) = Some ([], Some 1%nat).
Proof.
  destruct C63_nonvacuous as (X1 & X2 & X3 & X4 & X5 & X6 & _ & X8 & _).
  split; [cbn [cache_history vx_k k_cache]; exists 500%nat, 7%nat, 0; auto 8|]. split.
  { split; [|split; [reflexivity|]; split; [reflexivity|]; split; [apply fx_name; lia|]; split; [discriminate|]; split; [cbn; lia|]; split; reflexivity].
    unfold good_msg, fx_q. cbn [m_idflags m_qs m_an m_ns m_ar]. split; [reflexivity|]. split; [repeat (constructor; [unfold is_byte; lia|]); constructor|].
    split; [constructor; [split; [apply Compress_Proofs.name_ok_good, fx_name; lia|cbn; lia]|constructor]|]. split; [constructor|]. split; [constructor|]. split; [|cbn [length]; lia].
    constructor; [|constructor]. apply (sop_rr_good (SEDns 1280)); [cbn; lia|reflexivity]. }
  split; [exists opt_record; split; [left; reflexivity|reflexivity]|]. split.
  { split; [exists 7, [[49; 54]]; split; [vm_compute; reflexivity|]; split; [vm_compute; reflexivity|]; constructor; [|constructor]; vm_compute; intuition congruence|].
    split; [exists [[46; 97; 100; 46; 99]], []; split; [vm_compute; reflexivity|]; split; [reflexivity|constructor]|]. split; [reflexivity|].
    split; [exists (Some [l_v4]); split; [exact hx_table|]|].
    { exists [(ab, V4 (ex_parse [49; 46; 49]))]. split; [eapply L_item; [exact l_v4_words|exact reads_11|apply L_nil]|].
      exists None. split; [|reflexivity]. split; [intros _ t [H|[]]; discriminate|intros i [<-|[]] _; reflexivity]. }
    split; [exists None; split; [exact I|reflexivity]|]. split; [reflexivity|]. split; reflexivity. }
  split; [split; [reflexivity|]; split; [reflexivity|]; apply Forall_forall; intros x Hx; apply repeat_spec in Hx; subst x; unfold is_byte; lia|].
  split; [left; split; [cbn; auto|exact X8]|]. split.
  { split; [apply Nat.leb_le; vm_compute; reflexivity|]. split; [apply Z.leb_le; vm_compute; reflexivity|]. intros a (V1 & V2 & V3). specialize (V3 ltac:(discriminate)). cbn in V3. unfold has in V3. cbn in V3. discriminate V3. intros (t & [] & _). }
  vm_compute. repeat split; reflexivity.
Qed.

(** A cached reply that cannot be sent: the query goes on to a server group, and what goes there is the reply. *)
Theorem C85_unsent_refuted : exists k a b d s i c', plain_query fx_q (mk_q (plain [[119]; [101]]) 1 1) [[119]; [101]] /\ d_bytes d = enc_msg fx_q /\
  udp_serve vx_fn (fun _ => None) (fun _ => []) no_raw false 400 60 k a b d = Ret (mk_served [s] (N_group i c')) /\
  firstn (Z.to_nat (h_len (c_h c'))) (c_entity c') = s_bytes s /\ s_bytes s <> enc_msg fx_q /\ Z.testbit (nth 2 (s_bytes s) 0) 7 = true.
Proof.
  destruct C85_nonvacuous as (_ & HP & _).
  exists vx_k, (vx_a false), vx_b, (vx_d fx_q). eexists _, _, _. split; [exact HP|]. split; [reflexivity|]. split; [vm_compute; reflexivity|]. split; [vm_compute; reflexivity|]. split; [vm_compute; discriminate|vm_compute; reflexivity].
Qed.
Print Assumptions C85_unsent_refuted.
