(** C64: what the UDP upstream module does with queries and replies. *)
From Verif Require Import Base BaseFacts ListFacts List2Facts Hash_Model Bst_Model Bst_Spec Bst_Proofs Cht_Model Cache_Model Name_Model Name_Proofs Parser_Model Parser_Spec Parser_Proofs Gen_Model Gen_Spec Gen_Props Compress_Proofs
  Iheader_Model Iheader_Spec Iheader_Proofs Iheader_Props
  Ip_Model Ip_Spec Ip_Proofs Ip3_Proofs Ip5_Proofs Ip_Props Rdata_Model Rdata_Spec Rdata_Proofs Arr_Model Queue_Props Mctx_Model Mctx_Spec Mctx_Proofs Udpm_Model Udpm_Spec Udpm_Proofs Udpm2_Proofs.
Require Import Permutation ZifyBool ZifyNat.
Set Default Proof Using "Type".

Section Props.
Context {A : Type} (ap : bool) (misc : option (ipchunk * bool)) (par : option (list A)).
Context (raw : list Z -> list cnode -> nat -> Z) (ignore parallel : bool) (get : list Z -> option ctrl).
Context (hdr : iheader -> list Z) (arr : list Z -> list Z).
Notation step fuel nf := (u_step ap misc par raw ignore parallel get hdr arr fuel nf).
Notation run fuel nf := (u_run ap misc par raw ignore parallel get hdr arr fuel nf).
Notation takes fuel nf := (cache_takes raw ignore parallel get nf fuel).

Lemma slice_app0 (a b : list Z) : slice (a ++ b) 0 (length a) = Some a.
Proof. exact (slice_app [] a b). Qed.
Lemma started_known room (s : @udpm A) : u_started room s -> known s Leaf.
Proof. intros (H1 & _ & H3). split; [exists []; rewrite H1; apply binv_init|]. split; [intros q []|exact H3]. Qed.

(** Whatever datagrams arrive, in whatever order the threads run: every query that was passed to the module has got one reply, has timed out, or is
    still pending, and no query more than one of these; each reply went to the client of the query that it was matched with, and has that query's id. *)
Theorem C64_one_reply fuel nf room os s es s' : u_started room s -> Forall uop_ok os -> run fuel nf s os = Ret (es, s') ->
  exists qs delivered timedout pending, all_entered ap os qs /\ fates hdr es delivered timedout /\ table (u_tab s') pending /\
    Permutation qs (delivered ++ timedout ++ pending).
Proof.
  intros HS HO H. destruct (run_known ap misc par raw ignore parallel get hdr arr fuel nf os s Leaf es s' (started_known room s HS) HO H) as (t' & qs & d & tt & ((fl & HB) & _) & HA & HF & HP).
  exists qs, d, tt, (vals t'). split; [exact HA|]. split; [exact HF|]. split; [|exact HP]. apply (table_vals _ t' fl HB). reflexivity.
Qed.

(** What a well-formed reply comes to, in a state with the pending queries of [t]. *)
Lemma receive_cases look room g blocked an' : misc_look misc look -> acceptable g -> Forall address_ok (m_an g) -> (length (enc_msg g) <= room)%nat -> filtered look (m_an g) blocked an' ->
  exists f0, forall fuel nf (s : @udpm A) t x, (f0 <= fuel)%nat -> (f0 <= nf)%nat -> known s t -> ubuf_ok room (u_rb s) -> x_bytes x = enc_msg g ->
    let g' := with_an g an' in
    let post := skipn (length (enc_msg g)) (u_mem (u_rb s)) in
    let response first domain := mk_response first g' post domain (x_clk x) (x_host x) (x_buf x) in
    let receive := u_receive ap misc raw ignore parallel get hdr arr fuel nf s x in
    (to_discard (no_negative misc) blocked ap g /\
     exists why buf', receive = Ret (VDiscarded why, mk_udpm (u_tab s) buf' (u_cache s) (u_open s) 0 (u_addrs s) (u_alive s))) \/
    (~ to_discard (no_negative misc) blocked ap g /\
     exists q rest r tab' buf' code, table (u_tab s) (q :: rest) /\ answers g q /\ table tab' rest /\
       h_len (c_h r) = Z.of_nat (length (enc_msg g')) /\ (h_edns (c_h r) = true <-> offers_edns g) /\
       (code = 0 <-> x_ret x = Z.of_nat (length (s_bytes (to_client hdr q r (enc_msg g'))))) /\
       receive = let! k := takes fuel nf (u_cache s) (response true (h_domain (c_h q))) in
                 Ret (VReplied (to_client hdr q r (enc_msg g')) code, mk_udpm tab' buf' k (u_open s) 0 (u_addrs s) (u_alive s))) \/
    (~ to_discard (no_negative misc) blocked ap g /\
     (forall t2 q, known s t2 -> ord ctx_cmp t2 -> In q (vals t2) -> ~ answers g q) /\
     exists name type buf', asked g name type /\ receive =
       let! k := takes fuel nf (u_cache s) (response false name) in
       Ret (VUnmatched, mk_udpm (u_tab s) buf' k (u_open s) 0 (u_addrs s) (u_alive s))).
Proof.
  intros HM Ha HA Hr HF. destruct (receive_good (A := A) ap misc raw ignore parallel get hdr arr look room g blocked an' HM Ha HA Hr HF) as (f0 & HG). exists f0.
  intros fuel nf s t x Hf Hn HK HB HX. cbv zeta. set (g' := with_an g an'). set (post := skipn (length (enc_msg g)) (u_mem (u_rb s))).
  destruct (HG fuel nf s x Hf Hn HB HX) as (name & type & edns & dom & H1 & H2 & H3). cbv zeta in H3. fold post g' in H3. rewrite H3. clear H3.
  assert (HD : to_discard (no_negative misc) blocked ap g <-> no_negative misc && negb (nth 3 (m_idflags g) 0 mod 16 =? 0) || blocked || ap && negb edns = true).
  { unfold to_discard. rewrite <- H2. split.
    - intros [(-> & H)|[->|(-> & H)]]; [|rewrite orb_true_r; reflexivity|destruct edns; [tauto|rewrite orb_true_r; reflexivity]]. destruct (Z.eqb_spec (nth 3 (m_idflags g) 0 mod 16) 0); [contradiction|reflexivity].
    - intros H. apply orb_true_iff in H. destruct H as [H|H]; [apply orb_true_iff in H; destruct H as [H|H]|]; [left|auto|right; right].
      + apply andb_true_iff in H. destruct H as (? & H). split; [assumption|]. apply negb_true_iff, Z.eqb_neq in H. exact H.
      + apply andb_true_iff in H. destruct H as (? & H). apply negb_true_iff in H. split; [assumption|congruence]. }
  destruct (no_negative misc && negb (nth 3 (m_idflags g) 0 mod 16 =? 0)); [left; split; [apply HD; reflexivity|eauto]|].
  destruct blocked; [left; split; [apply HD; reflexivity|eauto]|]. destruct (ap && negb edns); [left; split; [apply HD; reflexivity|eauto]|]. right.
  assert (HN : ~ to_discard (no_negative misc) false ap g) by (rewrite HD; discriminate). clear HD.
  set (r := mk_ctx (mk_ih None false (h_time (u_h (u_rb s))) None (-1) name (bkdr name) type false edns (Z.of_nat (length (enc_msg g))) []) (enc_msg g' ++ post)).
  destruct Ha as (Hg & Hq & _). assert (HGa : Forall good_rr (m_an g)) by apply Hg. destruct (filtered_sizes misc look _ _ _ HM HGa HA HF) as (HL & _).
  assert (HLg : length (enc_msg g') = length (enc_msg g)).
  { subst g'. unfold enc_msg. cbn [with_an m_idflags m_qs m_an m_ns m_ar]. destruct (filtered_length look _ _ _ HF) as []. rewrite !app_length, !be16_length. lia. }
  assert (Hid : get16 (m_idflags g) 0 = Some (ctx_id r)).
  { unfold ctx_id, r. cbn [c_entity]. subst g'. unfold enc_msg. cbn [with_an m_idflags]. destruct Hg as (Hid & _). destruct (m_idflags g) as [|z0 [|z1 l0]]; try discriminate. reflexivity. }
  assert (Hm : forall q, matches q r <-> answers g q).
  { intros q. unfold matches, answers. cbn [r c_h h_hash]. fold r. split.
    - intros (E1 & E2). exists name, type. rewrite E1. auto.
    - intros (n2 & t2 & Ha2 & E1 & E2). destruct (C59_asked_unique _ _ _ _ _ H1 Ha2) as (<- & _). split; [congruence|exact E2]. }
  destruct HK as ((fl & HBI) & HH & HRb). unfold after_reply. fold r. destruct (srch ctx_cmp r t) as [a|] eqn:ESr.
  - left. split; [exact HN|]. destruct (mc_answer_some (u_tab s) t fl r a HBI ESr) as (q & tab' & t' & fl' & HI & H0 & HE & HDl & HBI').
    assert (Hqv : In q (vals t)) by (apply in_map_iff; exists (a, q); auto).
    assert (Hmq : matches q r). { apply ctx_cmp_zero in H0; [destruct H0; split; auto|apply bkdr_word|apply HH, Hqv]. }
    exists q, (vals t'), r, tab', (mk_ubuf (c_h (addressed q r)) (arr (h_domain (c_h (addressed q r)))) (enc_msg g' ++ post)).
    destruct (send_back hdr (addressed q r) (x_ret x)) as [[snt code]| | |] eqn:ESB.
    2-4: exfalso; unfold send_back, addressed in ESB; cbn [c_h h_len c_entity h_back] in ESB; cbv zeta in ESB; cbn [r c_h h_len c_entity] in ESB;
      destruct (Z.of_nat (length (enc_msg g)) <? 0) eqn:E0; [lia|]; rewrite Nat2Z.id, <- HLg, slice_app0 in ESB; destruct (h_back (c_h q)); discriminate.
    destruct (send_back_to_client _ _ _ _ _ _ ESB) as (msg & Es & _ & Hmsg & Hcode). exists code.
    assert (msg = enc_msg g') as ->. { cbn [r c_h h_len c_entity] in Hmsg. rewrite Nat2Z.id, <- HLg, slice_app0 in Hmsg. congruence. }
    rewrite Es in Hcode, ESB.
    split; [apply (table_vals _ t fl HBI); eapply deleted_vals; eauto; eapply binv_nodup; exact HBI|]. split; [apply Hm, Hmq|]. split; [apply (table_vals _ t' fl' HBI'); reflexivity|].
    split; [cbn [r c_h h_len]; lia|]. split; [exact H2|]. split; [exact Hcode|].
    rewrite HE. cbn [bind Z.eqb]. unfold cache_apply, cache_takes. change (0 =? 0) with true. cbv iota. destruct (u_cache s) as [c|]; cbn [bind]; [|rewrite ESB; reflexivity].
    cbn [addressed c_h h_len h_domain c_entity]. change (h_len (c_h r)) with (Z.of_nat (length (enc_msg g))). destruct (Z.of_nat (length (enc_msg g)) <? 0) eqn:E0; [lia|].
    rewrite Nat2Z.id. cbn [do_event p_host p_buf p_clk p_first p_msg p_post p_domain]. rewrite HLg. change (c_entity r) with (enc_msg g' ++ post).
    destruct (add_items _ _ _ _ _ _ _ _ _ _ _ _ _ _) as [[c1 k]| | |]; try reflexivity. cbn [bind snd]. rewrite ESB. reflexivity.
  - right. split; [exact HN|]. split.
    + intros t2 q ((fl2 & HBI2) & _ & _) Hord Hq2 Hans. apply Hm in Hans.
      apply in_map_iff in Hq2. destruct Hq2 as (y & <- & Hy). destruct (srch ctx_cmp r t2) as [a|] eqn:ES2.
      * destruct (mc_answer_some (u_tab s) t2 fl2 r a HBI2 ES2) as (q' & tab' & t' & fl' & _ & _ & HE & _). rewrite (mc_answer_none _ t fl r HBI ESr) in HE. discriminate.
      * destruct (srch_complete ctx_cmp r t2 y Hord Hy) as (a & Hay); [| |congruence].
        -- intros z Hz. f_equal. apply matches_cmp. exact Hans.
        -- apply ctx_cmp_refl.
    + exists name, type, (mk_ubuf (c_h r) dom (enc_msg g' ++ post)). split; [exact H1|]. rewrite (mc_answer_none _ t fl r HBI ESr). cbn [bind]. unfold cache_apply, cache_takes. change (-60 =? 0) with false. cbv iota.
      destruct (u_cache s) as [c|]; cbn [bind]; [|reflexivity].
      change (h_len (c_h r)) with (Z.of_nat (length (enc_msg g))). destruct (Z.of_nat (length (enc_msg g)) <? 0) eqn:E0; [lia|].
      rewrite Nat2Z.id. cbn [do_event p_host p_buf p_clk p_first p_msg p_post p_domain]. rewrite HLg. change (c_entity r) with (enc_msg g' ++ post). change (h_domain (c_h r)) with name.
      destruct (add_items _ _ _ _ _ _ _ _ _ _ _ _ _ _) as [[c1 k]| | |]; reflexivity.
Qed.

(** A well-formed reply whose address records have addresses of the right length, in any state that the module can reach.  If it is to be discarded it has no
    effect on pending queries and cache.  Otherwise the client of one pending query with its id and name gets the message, with the configured addresses replaced
    and nothing else changed, and that query is no longer pending; or no query is found, which happens only if none with that id and name is pending
    (if the hash values never wrap).  In both cases the cache takes in the message as it was sent. *)
Theorem C64_reply_partial rs room : filter_from rs misc -> (forall d, length (arr d) = 256%nat) ->
  exists look, policy rs look /\
  (orderly rs -> forall a o, address a -> (forall r, In r rs -> single r -> ~ rule_covers a r) -> first (rule_covers a) rs o -> look a = option_map ru_act o) /\
  forall g, acceptable g -> Forall address_ok (m_an g) -> (length (enc_msg g) <= room)%nat ->
  exists blocked an' f0, filtered look (m_an g) blocked an' /\
  forall fuel nf s0 os es s x b, (f0 <= fuel)%nat -> (f0 <= nf)%nat ->
    u_started room s0 -> Forall uop_ok os -> run fuel nf s0 os = Ret (es, s) -> u_alive s = true -> u_open s = true -> x_bytes x = enc_msg g ->
    let g' := with_an g an' in
    let post := skipn (length (enc_msg g)) (u_mem (u_rb s)) in
    let response first domain := mk_response first g' post domain (x_clk x) (x_host x) (x_buf x) in
    (to_discard (no_negative misc) blocked ap g /\
     exists why buf', step fuel nf s (UTurn b (SelData (Some x))) = Ret (VDiscarded why, mk_udpm (u_tab s) buf' (u_cache s) true 0 (u_addrs s) true)) \/
    (~ to_discard (no_negative misc) blocked ap g /\
     exists q rest r tab' buf' code, table (u_tab s) (q :: rest) /\ answers g q /\ table tab' rest /\
       h_len (c_h r) = Z.of_nat (length (enc_msg g')) /\ (h_edns (c_h r) = true <-> offers_edns g) /\
       (code = 0 <-> x_ret x = Z.of_nat (length (s_bytes (to_client hdr q r (enc_msg g'))))) /\
       step fuel nf s (UTurn b (SelData (Some x))) =
         let! k := takes fuel nf (u_cache s) (response true (h_domain (c_h q))) in
         Ret (VReplied (to_client hdr q r (enc_msg g')) code, mk_udpm tab' buf' k true 0 (u_addrs s) true)) \/
    (~ to_discard (no_negative misc) blocked ap g /\
     (forall pending q, (forall os1 os2 es1 s1 p1, os = os1 ++ os2 -> run fuel nf s0 os1 = Ret (es1, s1) -> table (u_tab s1) p1 -> tame p1) ->
        table (u_tab s) pending -> In q pending -> ~ answers g q) /\
     exists name type buf', asked g name type /\ step fuel nf s (UTurn b (SelData (Some x))) =
       let! k := takes fuel nf (u_cache s) (response false name) in
       Ret (VUnmatched, mk_udpm (u_tab s) buf' k true 0 (u_addrs s) true)).
Proof.
  intros HFF Harr. destruct (filter_look rs misc HFF) as (look & HP & HO & HM). exists look. split; [exact HP|]. split; [exact HO|].
  intros g Ha HA Hr. destruct (filtered_total look (m_an g)) as (blocked & an' & HF).
  destruct (receive_cases look room g blocked an' HM Ha HA Hr HF) as (f0 & HG).
  exists blocked, an', f0. split; [exact HF|]. intros fuel nf s0 os es s x b Hf Hn HS HOs HR Hal Hop HX. cbv zeta.
  assert (HB : ubuf_ok room (u_rb s)). { eapply run_buf; [exact HM|exact Harr| |exact HOs|exact HR]. apply HS. }
  destruct (run_known ap misc par raw ignore parallel get hdr arr fuel nf os s0 Leaf es s (started_known room s0 HS) HOs HR) as (t & _ & _ & _ & HK & _).
  assert (ES : step fuel nf s (UTurn b (SelData (Some x))) = u_receive ap misc raw ignore parallel get hdr arr fuel nf s x).
  { cbn [u_step]. unfold u_turn, u_setup. rewrite Hal, Hop. reflexivity. }
  rewrite ES. destruct (HG fuel nf s t x Hf Hn HK HB HX) as [H|[H|(HN & HC & H)]]; rewrite Hop, Hal in H; [left; exact H|right; left; exact H|right; right].
  split; [exact HN|]. split; [|exact H]. intros pending q HT Hp Hq.
  destruct (run_ord ap misc par raw ignore parallel get hdr arr fuel nf os s0 Leaf es s (started_known room s0 HS) HOs HR I HT) as (t2 & HK2 & Hord).
  apply (HC t2); [exact HK2|exact Hord|]. destruct HK2 as ((fl2 & HBI2) & _). apply (table_vals _ t2 fl2 HBI2) in Hp. eapply Permutation_in; [symmetry; exact Hp|exact Hq].
Qed.

(** A query whose message can be read, in any state that the module can reach: it is pending from then on, next to what was pending before; if there is a socket
    it is sent to the servers, with the message as it is or with an OPT record; the result says whether some server could be sent to. *)
Theorem C64_query_partial fuel nf room s0 os es s c now ok msg : u_started room s0 -> Forall uop_ok os -> run fuel nf s0 os = Ret (es, s) -> (4 <= fuel)%nat ->
  has_servers par s -> hash_ok c -> 4 <= h_len (c_h c) -> goes_out ap c msg ->
  exists q tab' to code, entered ap c now q /\ h_len (c_h q) = Z.of_nat (length msg) /\ firstn (length msg) (c_entity q) = msg /\
    (forall pending, table (u_tab s) pending -> table tab' (q :: pending)) /\ servers par s to /\
    (code = 0 <-> u_open s = true /\ exists a, In a to /\ ok a = true) /\
    step fuel nf s (UQuery c now ok) =
      Ret (VQueued (if u_open s then map (fun a => (a, msg)) to else []) code, mk_udpm tab' (u_rb s) (u_cache s) (u_open s) (u_cnt s) (u_addrs s) (u_alive s)).
Proof.
  intros HS HO HR Hf Hsv Hh Hl HG.
  destruct (run_known ap misc par raw ignore parallel get hdr arr fuel nf os s0 Leaf es s (started_known room s0 HS) HO HR) as (t & _ & _ & _ & ((fl & HB) & HH & _) & _).
  assert (HW : exists c1, with_edns ap fuel c = Ret c1 /\ h_len (c_h c1) = Z.of_nat (length msg) /\ firstn (length msg) (c_entity c1) = msg).
  { unfold with_edns. destruct HG as [msg Hap Hm Hlen|m post Hap Hed Hg Hq Har Hp Hent Hlen].
    - exists c. replace (negb ap || h_edns (c_h c)) with true by (destruct Hap as [-> | ->]; [|rewrite orb_true_r]; reflexivity). auto.
    - rewrite Hap, Hed, Hent, Hlen, Nat2Z.id. cbn [negb orb]. destruct (C52_fake_edns_partial fuel m post Hg Hq Har Hf Hp) as (post' & -> & Hp'). cbn [bind]. eexists. split; [reflexivity|]. cbn [c_h h_len c_entity].
      assert (HL : length (enc_msg (add_rr P_additional (mk_rr (plain []) 41 1280 0 []) m)) = (length (enc_msg m) + 11)%nat).
      { unfold enc_msg. cbn [add_rr m_idflags m_qs m_an m_ns m_ar]. rewrite Har. cbn [app]. rewrite !app_length, !be16_length. cbn. lia. }
      split; [lia|]. rewrite firstn_app, firstn_all, Nat.sub_diag. cbn [firstn]. apply app_nil_r. }
  destruct HW as (c1 & EW & L1 & M1). destruct (with_edns_entered ap fuel c c1 now EW Hl) as (HE & Eh).
  destruct (mc_step_ok _ t fl (MQuery c1 now) HB HH) as (me & tab' & t' & fl' & EM & HB' & HH' & HSp & _); [unfold hash_ok in *; rewrite Eh; exact Hh|].
  inversion HSp as [? ? ? HP| | |]; subst. cbn [mc_step] in EM. destruct (mc_add (u_tab s) c1 now) as [[a tab2]| | |] eqn:EA; try discriminate. cbn [bind snd fst] in EM. assert (tab2 = tab') as -> by congruence.
  exists (stamped c1 now), tab'.
  assert (HT : forall pending, table (u_tab s) pending -> table tab' (stamped c1 now :: pending)).
  { intros pending Hp. apply (table_vals _ t fl HB) in Hp. apply (table_vals _ t' fl' HB'). rewrite HP. constructor. exact Hp. }
  cbn [u_step]. unfold u_send. rewrite EW. cbn [bind]. rewrite EA. cbn [bind snd]. cbv zeta.
  assert (HSl : (if h_len (c_h c1) <? 0 then None else slice (c_entity c1) 0 (Z.to_nat (h_len (c_h c1)))) = Some msg).
  { rewrite L1. destruct (Z.of_nat (length msg) <? 0) eqn:E0; [lia|]. rewrite Nat2Z.id. unfold slice. cbn [Nat.add skipn]. rewrite M1.
    assert (HL : (length msg <= length (c_entity c1))%nat) by (apply (f_equal (@length Z)) in M1; rewrite firstn_length in M1; lia). apply Nat.leb_le in HL. rewrite HL. reflexivity. }
  rewrite HSl. unfold servers. destruct par as [l|].
  - exists l. destruct (u_open s).
    + eexists. repeat (split; [first [exact HE|exact L1|exact M1|exact HT|reflexivity]|]). split; [|reflexivity]. destruct (existsb ok l) eqn:EX.
      * apply existsb_exists in EX. split; [intros _; split; [reflexivity|exact EX]|reflexivity].
      * split; [discriminate|]. intros (_ & HX). apply existsb_exists in HX. congruence.
    + eexists. repeat (split; [first [exact HE|exact L1|exact M1|exact HT|reflexivity]|]). split; [|reflexivity]. split; [discriminate|]. intros (? & _). discriminate.
  - destruct Hsv as [Hsv|Hsv]; [congruence|]. destruct (u_addrs s) as [al ac] eqn:EAd. cbn [al_list al_counter] in *. destruct (al_get_ok al ac Hsv) as (x & EG & EN). exists [x].
    destruct (u_open s).
    + rewrite EG. cbn [bind map]. eexists. split; [exact HE|]; split; [exact L1|]; split; [exact M1|]; split; [exact HT|]; split; [eexists; split; [exact EN|reflexivity]|]. split; [|reflexivity]. destruct (ok x) eqn:EX.
      * split; [|reflexivity]. intros _. split; [reflexivity|]. exists x. split; [left; reflexivity|exact EX].
      * split; [discriminate|]. intros (_ & y & [<-|[]] & HX). congruence.
    + eexists. split; [exact HE|]; split; [exact L1|]; split; [exact M1|]; split; [exact HT|]; split; [eexists; split; [exact EN|reflexivity]|]. split; [|reflexivity]. split; [discriminate|]. intros (? & _). discriminate.
Qed.

(** The timeouts: the queries that are older than two seconds are removed, all of them and no others; if there were any the next server is used from then on
    and the number of timeouts grows; nothing else changes. *)
Theorem C64_timeouts fuel nf room s0 os es s now pending : u_started room s0 -> Forall uop_ok os -> run fuel nf s0 os = Ret (es, s) -> table (u_tab s) pending ->
  exists l tab' rest, step fuel nf s (USweep now) =
      Ret (VTimeouts l, mk_udpm tab' (u_rb s) (u_cache s) (u_open s) (u_cnt s + Z.of_nat (length l)) (match l with [] => u_addrs s | _ => al_advance (u_addrs s) end) (u_alive s)) /\
    Permutation pending (map fst l ++ rest) /\ table tab' rest /\ Forall (expired now) (map fst l) /\ Forall (fun q => ~ expired now q) rest.
Proof.
  intros HS HO HR Hp.
  destruct (run_known ap misc par raw ignore parallel get hdr arr fuel nf os s0 Leaf es s (started_known room s0 HS) HO HR) as (t & _ & _ & _ & ((fl & HB) & HH & _) & _).
  destruct (mc_step_ok _ t fl (MSweep now) HB HH I) as (me & tab' & t' & fl' & EM & HB' & _ & HSp & _). inversion HSp as [| | |? l ? HP HE HN HX]; subst.
  cbn [mc_step] in EM. destruct (mc_sweep (u_tab s) now) as [[l2 tab2]| | |] eqn:EA; try discriminate. cbn [bind snd fst] in EM. assert (tab2 = tab' /\ l2 = l) as (-> & ->) by (split; congruence).
  exists l, tab', (vals t'). cbn [u_step]. unfold u_sweep. rewrite EA. cbn [bind fst snd]. split; [|split; [|split; [|split; assumption]]].
  - do 3 f_equal. destruct l as [|[q k] l]; [reflexivity|]. cbn in HX. injection HX as -> _. reflexivity.
  - apply (table_vals _ t fl HB) in Hp. rewrite <- Hp. exact HP.
  - apply (table_vals _ t' fl' HB'). reflexivity.
Qed.

(** The module goes on as long as sockets can be made and there are servers. *)
Theorem C64_stays_up fuel nf os : forall s es s', has_servers par s -> u_alive s = true -> Forall (fun o => match o with UTurn b _ => b = true | _ => True end) os ->
  run fuel nf s os = Ret (es, s') -> u_alive s' = true /\ al_list (u_addrs s') = al_list (u_addrs s).
Proof.
  induction os as [|o os IH]; intros s es s' HS HA HO H; cbn [u_run] in H; [assert (s' = s) as -> by congruence; auto|].
  inversion HO as [|? ? Ho HO']; subst. destruct (step fuel nf s o) as [[e s1]| | |] eqn:E1; try discriminate. cbn [bind fst snd] in H. destruct (run fuel nf s1 os) as [[es1 s2]| | |] eqn:E2; try discriminate. cbn [bind fst snd] in H.
  assert (s' = s2) as -> by congruence.
  assert (HX : u_alive s1 = true /\ al_list (u_addrs s1) = al_list (u_addrs s)).
  { destruct o as [c now ok|b x|now]; cbn [u_step] in E1.
    - unfold u_send in E1. destruct (with_edns ap fuel c) as [c1| | |]; try discriminate. cbn [bind] in E1. destruct (mc_add (u_tab s) c1 now) as [[a tab]| | |]; try discriminate. cbn [bind fst snd] in E1. cbv zeta in E1.
      destruct (u_open s); [|match type of E1 with Ret (_, ?y) = _ => assert (s1 = y) as -> by congruence end; auto].
      destruct (if h_len (c_h c1) <? 0 then None else _) as [bytes|]; [|discriminate].
      destruct par as [l|]; [match type of E1 with Ret (_, ?y) = _ => assert (s1 = y) as -> by congruence end; auto|].
      destruct (al_get (u_addrs s)) as [[a0|]| | |]; try discriminate; cbn [bind] in E1; match type of E1 with Ret (_, ?y) = _ => assert (s1 = y) as -> by congruence end; auto.
    - subst b. unfold u_turn in E1. rewrite HA in E1. cbn [negb] in E1.
      assert (HU : exists s2, u_setup par s true = Ret (Some s2) /\ u_alive s2 = true /\ u_addrs s2 = u_addrs s).
      { unfold u_setup. destruct (u_open s); [eauto|]. cbv zeta. destruct par as [l|]; [eexists; split; [reflexivity|auto]|]. destruct HS as [HS|HS]; [congruence|].
        destruct (u_addrs s) as [al ac]. cbn [al_list] in HS. destruct (al_get_ok al ac HS) as (y & -> & _). cbn [bind]. eexists. split; [reflexivity|auto]. }
      destruct HU as (sx & EU & HA1 & HA2). rewrite EU in E1. cbn [bind] in E1. rewrite <- HA2. destruct x as [| |[x|]].
      + assert (s1 = u_close sx) as -> by congruence. auto.
      + assert (s1 = if 8 <? u_cnt sx then u_close sx else sx) as -> by congruence. destruct (8 <? u_cnt sx); auto.
      + unfold u_receive, u_handle in E1. cbv zeta in E1. destruct (firstn _ (x_bytes x)); [assert (s1 = sx) as -> by congruence; auto|].
        destruct (ih_fill fuel nf _ _ _ _ _ _ _ _) as [[[c0 h] dom]| | |]; try discriminate. cbn [bind] in E1. destruct (misc_apply misc fuel h _ _) as [[why mem1]| | |]; try discriminate. cbn [bind] in E1.
        destruct (negb (why =? misc_nothing)); [match type of E1 with Ret (_, ?y) = _ => assert (s1 = y) as -> by congruence end; auto|].
        destruct (is_blocked ap _); [match type of E1 with Ret (_, ?y) = _ => assert (s1 = y) as -> by congruence end; auto|].
        destruct (mc_answer _ _) as [[[code c] tab]| | |]; try discriminate. cbn [bind] in E1. destruct (cache_apply _ _ _ _ _ _ _ _ _ _) as [k| | |]; try discriminate. cbn [bind] in E1.
        destruct (code =? 0); [|match type of E1 with Ret (_, ?y) = _ => assert (s1 = y) as -> by congruence end; auto].
        destruct (send_back _ _ _) as [tt| | |]; try discriminate. cbn [bind] in E1. match type of E1 with Ret (_, ?y) = _ => assert (s1 = y) as -> by congruence end. auto.
      + assert (s1 = sx) as -> by congruence. auto.
    - unfold u_sweep in E1. destruct (mc_sweep (u_tab s) now) as [r| | |]; try discriminate. cbn [bind] in E1. match type of E1 with Ret (_, ?y) = _ => assert (s1 = y) as -> by congruence end.
      cbn [u_alive u_addrs]. split; [exact HA|]. destruct (existsb _ _); reflexivity. }
  destruct HX as (HA1 & HL1). rewrite <- HL1. eapply IH; [|exact HA1|exact HO'|exact E2]. destruct HS as [HS|HS]; [left; exact HS|right; rewrite HL1; exact HS].
Qed.

(** With more than eight timeouts since the last datagram, a turn without data gives the socket up, and the next turn makes another. *)
Theorem C64_fresh_socket fuel nf s b e s' : has_servers par s -> u_alive s = true -> u_open s = true -> step fuel nf s (UTurn b SelIdle) = Ret (e, s') ->
  (u_open s' = false <-> 8 < u_cnt s) /\ u_tab s' = u_tab s /\ u_cache s' = u_cache s /\ u_addrs s' = u_addrs s /\
  (u_open s' = false -> exists s2, step fuel nf s' (UTurn true SelIdle) = Ret (VNothing, s2) /\ u_open s2 = true /\ u_cnt s2 = 0 /\ u_tab s2 = u_tab s /\ u_cache s2 = u_cache s /\ u_addrs s2 = u_addrs s).
Proof.
  intros HS HA HP H. cbn [u_step] in H. unfold u_turn, u_setup in H. rewrite HA, HP in H. cbn [negb bind] in H. assert (s' = if 8 <? u_cnt s then u_close s else s) as -> by congruence. clear H.
  destruct (8 <? u_cnt s) eqn:E8; cbn [u_close u_open u_tab u_cache u_addrs].
  - split; [split; [lia|reflexivity]|]. repeat (split; [reflexivity|]). intros _. cbn [u_step]. unfold u_turn, u_setup, u_close. cbn [u_open u_alive u_addrs u_tab u_rb u_cache]. rewrite HA. cbn [negb]. cbv zeta.
    destruct par as [l|]; cbn [bind].
    + eexists. split; [reflexivity|]. cbn. auto 8.
    + destruct HS as [HS|HS]; [congruence|]. destruct (u_addrs s) as [al ac]. cbn [al_list] in HS. destruct (al_get_ok al ac HS) as (y & -> & _). cbn [bind]. eexists. split; [reflexivity|]. cbn. auto 8.
  - split; [split; [congruence|lia]|]. repeat (split; [reflexivity|]). congruence.
Qed.
End Props.
Print Assumptions C64_one_reply.
Print Assumptions C64_reply_partial.
Print Assumptions C64_query_partial.
Print Assumptions C64_timeouts.
Print Assumptions C64_stays_up.
Print Assumptions C64_fresh_socket.

(** Not true of datagrams that are no messages: after a reply to one client, a datagram of three bytes with another pending query's id makes the rest of the
    first client's answer go to the second client. *)
Definition msg64 (id : Z) : message := mk_msg [0; id; 1; 0] [mk_q (mk_ename [[97]] None) 1 1] [] [] [].
Definition reply64 (id a : Z) : message := mk_msg [0; id; 129; 128] [mk_q (mk_ename [[97]] None) 1 1] [mk_rr (mk_ename [] (Some (192, 12))) 1 1 60 [10; 0; 0; a]] [] [].
Definition query64 (id client sock : Z) : mctx := mk_ctx (mk_ih None false 0 (Some [client]) sock [97] (bkdr [97]) 1 false false (Z.of_nat (length (enc_msg (msg64 id)))) []) (enc_msg (msg64 id) ++ repeat 0 100).
Definition start64 : @udpm nat := mk_udpm bst_init (mk_ubuf (mk_ih None false 0 None 0 [] 0 0 false false 0 []) (repeat 0 256) (repeat 0 120)) None true 0 (mk_al [0%nat; 1%nat; 2%nat] 0) true.
Definition rx64 (bytes : list Z) (n : nat) : sel := SelData (Some (mk_rx bytes (P_unknown, 0, 0, 0) [] [] (fun _ => 0) (Z.of_nat n))).
Definition arr64 (d : list Z) : list Z := firstn 256 (d ++ repeat 0 256).
Definition no_raw64 (_ : list Z) (_ : list cnode) (_ : nat) : Z := 0.
Notation run64 := (u_run false None None no_raw64 false false (fun _ => None) (fun _ => []) arr64 30 30).
Theorem C64_stale_refuted : exists os es s, u_started 120 start64 /\ Forall uop_ok os /\
  os = [UQuery (query64 7 1 5) 100 (fun _ => true); UQuery (query64 9 2 6) 100 (fun _ => true); UTurn true (rx64 (enc_msg (reply64 7 77)) 35); UTurn true (rx64 [0; 9; 0] 35)] /\
  run64 start64 os = Ret (es, s) /\ nth_error es 3 = Some (VReplied (mk_sent 6 (Some [2]) ([0; 9; 0] ++ skipn 3 (enc_msg (reply64 7 77)))) 0).
Proof.
  eexists. set (r := run64 start64 [UQuery (query64 7 1 5) 100 (fun _ => true); UQuery (query64 9 2 6) 100 (fun _ => true); UTurn true (rx64 (enc_msg (reply64 7 77)) 35); UTurn true (rx64 [0; 9; 0] 35)]).
  assert (Hr : exists es s, r = Ret (es, s) /\ nth_error es 3 = Some (VReplied (mk_sent 6 (Some [2]) ([0; 9; 0] ++ skipn 3 (enc_msg (reply64 7 77)))) 0)).
  { vm_compute in r. subst r. eexists _, _. split; vm_compute; reflexivity. }
  destruct Hr as (es & s & H1 & H2). exists es, s. split; [|split; [|split; [reflexivity|split; [exact H1|exact H2]]]].
  - split; [reflexivity|]. split; [|cbn; lia]. split; [reflexivity|]. split; [reflexivity|]. apply Forall_forall. intros z Hz. apply repeat_spec in Hz. subst z. unfold is_byte. lia.
  - do 2 (constructor; [split; [vm_compute; split; [discriminate|reflexivity]|vm_compute; discriminate]|]).
    constructor; [cbn; repeat constructor; unfold is_byte; lia|]. constructor; [cbn; repeat constructor; unfold is_byte; lia|]. constructor.
Qed.
Print Assumptions C64_stale_refuted.

(** Three clients with queries; one reply arrives, later one query times out, and the next server is used. *)
Example C64_nonvacuous : u_started 120 start64 /\
  match run64 start64 [UQuery (query64 7 1 5) 100 (fun _ => true); UQuery (query64 9 2 6) 102 (fun _ => false); UQuery (query64 8 3 5) 102 (fun _ => true);
                       UTurn true (rx64 (enc_msg (reply64 9 77)) 35); USweep 103; UQuery (query64 4 3 5) 104 (fun _ => true); UTurn true (rx64 (enc_msg (reply64 7 78)) 35)] with
  | Ret (es, s) => es = [VQueued [(0%nat, enc_msg (msg64 7))] 0; VQueued [(0%nat, enc_msg (msg64 9))] 1; VQueued [(0%nat, enc_msg (msg64 8))] 0;
                         VReplied (mk_sent 6 (Some [2]) (enc_msg (reply64 9 77))) 0; VTimeouts [(stamped (query64 7 1 5) 100, 1)]; VQueued [(1%nat, enc_msg (msg64 4))] 0; VUnmatched] /\
                   table (u_tab s) [stamped (query64 8 3 5) 102; stamped (query64 4 3 5) 104]
  | _ => False
  end.
Proof.
  split.
  - split; [reflexivity|]. split; [|cbn; lia]. split; [reflexivity|]. split; [reflexivity|]. apply Forall_forall. intros z Hz. apply repeat_spec in Hz. subst z. unfold is_byte. lia.
  - set (r := run64 start64 _). vm_compute in r. subst r. split; [vm_compute; reflexivity|]. eexists. split; [vm_compute; reflexivity|]. vm_compute. first [apply Permutation_refl|apply perm_swap].
Qed.
(** The replies of these histories are well-formed, and are those of a filter without rules. *)
Example C64_reply_nonvacuous : acceptable (reply64 9 77) /\ Forall address_ok (m_an (reply64 9 77)) /\ filter_from [] None /\ goes_out false (query64 7 1 5) (enc_msg (msg64 7)) /\
  goes_out true (query64 7 1 5) (enc_msg (add_rr P_additional (mk_rr (plain []) 41 1280 0 []) (msg64 7))).
Proof.
  assert (HG : good_msg (msg64 7)) by (unfold msg64, good_msg, good_q, good_rr, good_name, is_byte; cbn; crush).
  split; [split; [unfold reply64, good_msg, good_q, good_rr, good_name, is_byte; cbn; crush|split; [discriminate|]]|].
  - cbn [readable reply64 m_qs]. split; [reflexivity|]. split; [|exact I]. exists [[97]], 3%nat. split; [|cbn; lia].
    apply (Name_Spec.D_label 63 _ 12 1 [97] [] 1); [reflexivity|lia|reflexivity|apply Name_Spec.D_root; reflexivity].
  - split; [constructor; [|constructor]; intros _; split; [reflexivity|discriminate]|]. split; [constructor|]. split.
    + apply go_same; [auto|reflexivity|reflexivity].
    + apply (go_edns true (query64 7 1 5) (msg64 7) (repeat 0 100)); auto; try reflexivity; try discriminate. rewrite repeat_length. lia.
Qed.

(** * C45: what a client gets whose query is not to be answered *)
(** [refused m m']: the message [m] as a response: QR and RA are set, the response code is "no error", and every other bit is as it was. *)
Definition refused (m m' : list Z) : Prop :=
  length m' = length m /\ (forall i, i <> 2%nat -> i <> 3%nat -> nth_error m' i = nth_error m i) /\
  (forall i, 0 <= i < 8 -> Z.testbit (nth 2 m' 0) i = if i =? 7 then true else Z.testbit (nth 2 m 0) i) /\
  (forall i, 0 <= i < 8 -> Z.testbit (nth 3 m' 0) i = if i =? 7 then true else if i <? 4 then false else Z.testbit (nth 3 m 0) i).
Lemma bits_ok x y : is_byte x -> is_byte y ->
  (forall i, 0 <= i < 8 -> Z.testbit (x mod 128 + 128) i = if i =? 7 then true else Z.testbit x i) /\
  (forall i, 0 <= i < 8 -> Z.testbit ((y mod 128) / 16 * 16 + 128) i = if i =? 7 then true else if i <? 4 then false else Z.testbit y i).
Proof.
  intros Hx Hy. unfold is_byte in *.
  assert (HX : forall n, (n < 256)%nat -> forallb (fun i => Bool.eqb (Z.testbit (Z.of_nat n mod 128 + 128) i) (if i =? 7 then true else Z.testbit (Z.of_nat n) i) &&
     Bool.eqb (Z.testbit ((Z.of_nat n mod 128) / 16 * 16 + 128) i) (if i =? 7 then true else if i <? 4 then false else Z.testbit (Z.of_nat n) i)) [0;1;2;3;4;5;6;7] = true).
  { intros n Hn. assert (HI : In n (seq 0 256)) by (apply in_seq; lia). revert n HI Hn.
    assert (HA : forallb (fun n => forallb (fun i => Bool.eqb (Z.testbit (Z.of_nat n mod 128 + 128) i) (if i =? 7 then true else Z.testbit (Z.of_nat n) i) &&
     Bool.eqb (Z.testbit ((Z.of_nat n mod 128) / 16 * 16 + 128) i) (if i =? 7 then true else if i <? 4 then false else Z.testbit (Z.of_nat n) i)) [0;1;2;3;4;5;6;7]) (seq 0 256) = true) by (vm_compute; reflexivity).
    rewrite forallb_forall in HA. intros n HI _. apply HA, HI. }
  assert (HI : forall i, 0 <= i < 8 -> In i [0;1;2;3;4;5;6;7]) by (intros i Hi; cbn; lia).
  split; intros i Hi.
  - pose proof (HX (Z.to_nat x) ltac:(lia)) as H. rewrite forallb_forall in H. specialize (H i (HI i Hi)). rewrite Z2Nat.id in H by lia. apply andb_true_iff in H. apply Bool.eqb_prop, H.
  - pose proof (HX (Z.to_nat y) ltac:(lia)) as H. rewrite forallb_forall in H. specialize (H i (HI i Hi)). rewrite Z2Nat.id in H by lia. apply andb_true_iff in H. apply Bool.eqb_prop, H.
Qed.
(** The client of a refused query gets its own message back, marked as a response without error, whatever is in it. *)
Theorem C45_sent hdr c msg post n : c_entity c = msg ++ post -> h_len (c_h c) = Z.of_nat (length msg) -> (4 <= length msg)%nat -> Forall is_byte msg ->
  exists msg' code, refused msg msg' /\ send_refused hdr c n = Ret (to_client hdr c (mk_ctx (c_h c) (msg' ++ post)) msg', code) /\
    (code = 0 <-> n = Z.of_nat (length (s_bytes (to_client hdr c (mk_ctx (c_h c) (msg' ++ post)) msg')))).
Proof.
  intros HE HL H4 HB. destruct msg as [|z0 [|z1 [|x [|y l]]]]; cbn in H4; try lia.
  assert (HB2 : is_byte x /\ is_byte y) by (do 2 (inversion HB as [|? ? _ HB1]; subst; clear HB; rename HB1 into HB); inversion HB as [|? ? HB2 HB1]; inversion HB1; auto).
  destruct (bits_ok x y (proj1 HB2) (proj2 HB2)) as (B1 & B2).
  set (msg' := z0 :: z1 :: (x mod 128 + 128) :: ((y mod 128) / 16 * 16 + 128) :: l).
  assert (HA : addressed c (mk_ctx (c_h c) (msg' ++ post)) = mk_ctx (c_h c) (msg' ++ post)) by (destruct c as [[] ?]; reflexivity).
  destruct (send_back hdr (mk_ctx (c_h c) (msg' ++ post)) n) as [[s code]| | |] eqn:ES.
  2-4: exfalso; unfold send_back in ES; cbn [c_h c_entity] in ES; cbv zeta in ES; rewrite HL in ES; destruct (Z.of_nat _ <? 0) eqn:E0; [lia|]; rewrite Nat2Z.id in ES;
    change (length (z0 :: z1 :: x :: y :: l)) with (length msg') in ES; rewrite slice_app0 in ES; destruct (h_back (c_h c)); discriminate.
  rewrite <- HA in ES. destruct (send_back_to_client _ _ _ _ _ _ ES) as (m2 & E1 & _ & E2 & E3). cbn [c_h c_entity] in E2. rewrite HL, Nat2Z.id in E2. change (length (z0 :: z1 :: x :: y :: l)) with (length msg') in E2. rewrite slice_app0 in E2.
  assert (m2 = msg') as -> by congruence. exists msg', code. split; [|split].
  - split; [reflexivity|]. split; [|split; [exact B1|exact B2]]. intros [|[|[|[|i]]]] N2 N3; try reflexivity; congruence.
  - unfold send_refused. rewrite HE. unfold refuse_flags. cbn [app nth_error]. rewrite HA in ES. subst s. exact ES.
  - subst s. exact E3.
Qed.
Print Assumptions C45_sent.
Example C45_sent_nonvacuous : send_refused (fun _ => []) (query64 7 1 5) 19 =
  Ret (mk_sent 5 (Some [1]) [0; 7; 129; 128; 0; 1; 0; 0; 0; 0; 0; 0; 1; 97; 0; 0; 1; 0; 1], 0).
Proof. vm_compute. reflexivity. Qed.
