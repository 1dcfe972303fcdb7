(** C70, C71: the connections of the TCP upstream module, and what happens to its queries. *)
From Verif Require Import Base BaseFacts ListFacts List2Facts Hash_Model Bst_Model Bst_Spec Bst_Proofs Cht_Model Cache_Model Name_Model Name_Proofs Parser_Model Parser_Spec Parser_Proofs Gen_Model Gen_Spec Gen_Props Compress_Proofs
  Iheader_Model Iheader_Spec Iheader_Proofs Iheader_Props
  Ip_Model Ip_Spec Ip_Proofs Ip3_Proofs Ip5_Proofs Ip_Props Rdata_Model Rdata_Spec Rdata_Proofs Arr_Model Queue_Props Mctx_Model Mctx_Spec Mctx_Proofs Sock_Model Sock_Spec Sock_Proofs Sock_Props Tcp_Model Tcp_Props
  Udpm_Model Udpm_Spec Udpm_Proofs Udpm2_Proofs Udpm_Props Tcpm_Model Tcpm_Spec Tcpm_Proofs Tcpm2_Proofs.
Require Import Permutation ZifyBool ZifyNat.
Set Default Proof Using "Type".

Section Props.
Context (v : tenv) (targets : list (list Z * list Z)) (nproxies : option nat) (par : bool) (keep incoming : Z) (stale : tctx).
Context (ap : bool) (misc : option (ipchunk * bool)) (raw : list Z -> list cnode -> nat -> Z) (ignore parallel : bool) (get : list Z -> option ctrl).
Context (hdr : iheader -> list Z) (arr : list Z -> list Z).
Notation nservers := (length targets).
Notation turn fuel nf := (t_turn v targets nproxies par keep incoming stale ap misc raw ignore parallel get hdr arr fuel nf).
Notation run fuel nf := (t_run v targets nproxies par keep incoming stale ap misc raw ignore parallel get hdr arr fuel nf).
Notation handle fuel nf := (u_handle ap misc raw ignore parallel get hdr arr fuel nf).
Notation inv := (tinv targets nproxies incoming).

(** A run of the module up to [m], in which the loop has not ended. *)
Notation reached fuel nf room m0 is es m := (env_ok v nservers nproxies /\ (room <= 4096)%nat /\ t_started nservers nproxies incoming room m0 /\ Forall (tin_ok room) is /\ run fuel nf m0 is = Ret (es, m) /\ t_alive m = true).

Lemma reached_inv fuel nf room m0 is es m : reached fuel nf room m0 is es m -> exists w t, inv room m w t.
Proof.
  intros (HE & Hroom & HS & HF & HR & HA). destruct (started_inv targets nproxies incoming room m0 HS) as (w0 & HT0).
  destruct (run_ok v targets nproxies par keep incoming stale hdr arr HE ap misc raw ignore parallel get fuel nf room is Hroom m0 w0 Leaf es m HT0 HF HR) as (t & _ & _ & _ & _ & _ & _ & _ & [(_ & w & HT)|(HD & _)]); [eauto|congruence].
Qed.

Lemma wait_busy room m w t s : inv room m w t -> (watched (t_wait m) s <-> s = incoming \/ busy (k_log (t_k m)) s).
Proof.
  intros (_ & _ & I3 & I4 & I5 & _). rewrite (holds_watched _ _ I3). split.
  - intros H. destruct (at_ w PWait s) as [d|] eqn:E; [|congruence]. apply at_some in E. destruct (linv_some _ _ _ _ _ _ _ _ I4 E) as (_ & st & Hst & HF). cbn [fits] in HF. destruct HF as [->|((via & o & -> & _ & HV & _) & Hq)].
    + left. apply I4. exact Hst.
    + right. exists via. destruct nproxies as [np|]; [destruct HV as (_ & [(X & _)|(_ & ->)]); [lia|eauto]|destruct HV as (_ & ->); eauto].
  - intros H. assert (HX : exists st, state_of (k_log (t_k m)) s = Some st /\ (st = Listening \/ exists via j, st = Conn via (Some j) true)).
    { destruct H as [->|(via & j & H)]; [exists Listening; split; [apply I4; reflexivity|auto]|eauto 6]. }
    destruct HX as (st & Hst & HX). destruct (w s) as [[pl d]|] eqn:Ew.
    2:{ destruct I4 as (_ & I4 & _). specialize (I4 s). rewrite Ew in I4. congruence. }
    destruct (linv_some _ _ _ _ _ _ _ _ I4 Ew) as (_ & st' & Hst' & HF). assert (st' = st) as -> by congruence.
    assert (pl = PWait) as ->; [|apply at_some in Ew; congruence].
    destruct pl as [| |i| |i|]; [reflexivity|..]; exfalso; cbn [fits] in HF.
    + destruct HF as (via & o & -> & _). destruct HX as [X|(? & ? & X)]; discriminate.
    + destruct HF as ((via & o & -> & _) & _). destruct HX as [X|(? & ? & X)]; discriminate.
    + destruct HF as (np & _ & _ & _ & ->). destruct HX as [X|(? & ? & X)]; discriminate.
    + destruct HF as ((np & _ & _ & _ & ->) & _). destruct HX as [X|(? & ? & X)]; discriminate.
    + apply at_some in Ew. rewrite I5 in Ew. discriminate.
Qed.

(** Where the sets of [all_pools] are. *)
Definition place_at (j : nat) : place :=
  match j with
  | 0%nat => PWait | 1%nat => PQuery
  | S (S i) => if (i <? nservers)%nat then PAgent i else if (i =? nservers)%nat then PProxy else PProxies (i - nservers - 1)
  end.
Lemma place_at_inj i j : place_at i = place_at j -> i = j.
Proof.
  unfold place_at. destruct i as [|[|i]], j as [|[|j]]; repeat match goal with |- context [if ?b then _ else _] => destruct b eqn:? end; intros E; try discriminate; try reflexivity; try (injection E as E); lia.
Qed.
Lemma pool_at room m w t j p : inv room m w t -> nth_error (all_pools nproxies m) j = Some p -> holds p (at_ w (place_at j)).
Proof.
  intros (_ & (Q1 & Q2 & Q3 & Q4) & I3 & _) H. unfold all_pools in H. destruct j as [|[|i]]; cbn [nth_error place_at] in H |- *; [assert (p = t_wait m) as -> by congruence; exact I3|assert (p = q_query (t_q m)) as -> by congruence; exact Q1|].
  destruct (Nat.ltb_spec i nservers) as [Hi|Hi].
  - rewrite nth_error_app1 in H by lia. apply Q2. exact H.
  - rewrite nth_error_app2 in H by lia. rewrite Q3 in H. destruct nproxies as [np|]; [|destruct (i - nservers)%nat; discriminate]. destruct (Q4 np eq_refl) as (P1 & P2 & _).
    destruct (Nat.eqb_spec i nservers) as [->|N].
    + rewrite Nat.sub_diag in H. cbn [nth_error] in H. assert (p = q_proxy (t_q m)) as -> by congruence. exact P1.
    + destruct (i - nservers)%nat as [|x] eqn:Ex; [lia|]. cbn [nth_error] in H. replace (S x - 1)%nat with x by lia. apply P2. exact H.
Qed.

(** C70.  In every state that the module reaches: connections have been opened, used and closed in an orderly way; the sockets that are waited for are the one for
    the callers and the connections on which a reply is awaited; the connections that are kept for the server [i] are to that server, and no reply is
    awaited on them; and every open socket is in exactly one set, those that are not open in none. *)
Theorem C70_orderly fuel nf room m0 is es m : reached fuel nf room m0 is es m ->
  lawful (k_log (t_k m)) /\ (forall s, watched (t_wait m) s <-> s = incoming \/ busy (k_log (t_k m)) s) /\
  (forall i p s, nth_error (q_agents (t_q m)) i = Some p -> watched p s ->
     exists via o, state_of (k_log (t_k m)) s = Some (Conn via o false) /\ (o = Some i \/ o = None /\ via <> None /\ nproxies <> None)) /\
  (forall s, state_of (k_log (t_k m)) s <> None <-> exists p, In p (all_pools nproxies m) /\ watched p s) /\
  (forall i j p q s, nth_error (all_pools nproxies m) i = Some p -> nth_error (all_pools nproxies m) j = Some q -> watched p s -> watched q s -> i = j).
Proof.
  intros HR. destruct (reached_inv _ _ _ _ _ _ _ HR) as (w & t & HT). assert (HT0 := HT). destruct HT0 as (I1 & (Q1 & Q2 & Q3 & Q4) & I3 & I4 & I5 & I6 & I7 & I8).
  split; [apply I4|]. split; [intros s; eapply wait_busy; exact HT|]. split; [|split].
  - intros i p s Hp Hw. apply (holds_watched _ _ (Q2 i p Hp)) in Hw. destruct (at_ w (PAgent i) s) as [d|] eqn:E; [|congruence]. apply at_some in E. destruct (linv_some _ _ _ _ _ _ _ _ I4 E) as (_ & st & Hst & (via & o & -> & _ & HV & _) & Hi).
    exists via, o. split; [exact Hst|]. destruct nproxies as [np|].
    + destruct HV as (H1 & [(_ & ->)|(_ & ->)]); [right; split; [reflexivity|split; [exact H1|discriminate]]|left; congruence].
    + destruct HV as (_ & ->). left. congruence.
  - intros s. split.
    + intros H. destruct (w s) as [[pl d]|] eqn:Ew; [|destruct I4 as (_ & I4 & _); specialize (I4 s); rewrite Ew in I4; congruence]. destruct (linv_some _ _ _ _ _ _ _ _ I4 Ew) as (_ & st & _ & HF).
      assert (HW : forall p, holds p (at_ w pl) -> watched p s) by (intros p Hp; apply (holds_watched _ _ Hp); apply at_some in Ew; congruence). unfold all_pools.
      destruct pl as [| |i| |i|]; cbn [fits] in HF.
      * exists (t_wait m). split; [left; reflexivity|apply HW; exact I3].
      * exists (q_query (t_q m)). split; [right; left; reflexivity|apply HW; exact Q1].
      * destruct HF as ((_ & _ & _ & Hlt & _) & Hi). destruct (nth_error (q_agents (t_q m)) i) as [p|] eqn:Ep; [|apply nth_error_None in Ep; lia]. exists p. split; [right; right; apply in_or_app; left; eapply nth_error_In; exact Ep|apply HW, Q2, Ep].
      * destruct HF as (np & Enp & _). rewrite Enp. destruct (Q4 np Enp) as (P1 & _). exists (q_proxy (t_q m)). split; [right; right; apply in_or_app; right; left; reflexivity|apply HW; exact P1].
      * destruct HF as ((np & Enp & Hlt & _) & Hi). destruct (Q4 np Enp) as (_ & P2 & P3). destruct (nth_error (q_proxies (t_q m)) i) as [p|] eqn:Ep; [|apply nth_error_None in Ep; lia]. rewrite Enp.
        exists p. split; [right; right; apply in_or_app; right; right; eapply nth_error_In; exact Ep|apply HW, P2, Ep].
      * exfalso. apply at_some in Ew. rewrite I5 in Ew. discriminate.
    + intros (p & Hp & Hw) Hn. apply In_nth_error in Hp. destruct Hp as (j & Hj). apply (holds_watched _ _ (pool_at _ _ _ _ _ _ HT Hj)) in Hw. destruct (at_ w (place_at j) s) as [d|] eqn:E; [|congruence]. apply at_some in E.
      destruct (linv_some _ _ _ _ _ _ _ _ I4 E) as (_ & st & Hst & _). congruence.
  - intros i j p q s Hp Hq Wp Wq. apply (holds_watched _ _ (pool_at _ _ _ _ _ _ HT Hp)) in Wp. apply (holds_watched _ _ (pool_at _ _ _ _ _ _ HT Hq)) in Wq.
    destruct (at_ w (place_at i) s) as [d1|] eqn:E1; [|congruence]. destruct (at_ w (place_at j) s) as [d2|] eqn:E2; [|congruence]. apply at_some in E1. apply at_some in E2. apply place_at_inj. congruence.
Qed.

(** Every turn in such a state does what it may, or ends the module because select has failed; then all of the open sockets are closed.  It can only be undefined
    what a turn does when it is undefined how a reply that has been received completely is taken in. *)
Theorem C70_turn fuel nf room m0 is es m i : reached fuel nf room m0 is es m -> tin_ok room i ->
  (exists es' m', turn fuel nf m i = Ret (es', m') /\ t_alive m' = true /\ turn_log nservers par i (k_log (t_k m)) (k_log (t_k m'))) \/
  (exists m' err, turn fuel nf m i = Ret ([], m') /\ t_alive m' = false /\ err <> 0 /\ pl_select (t_wait m) (v_sel v (k_tick (t_k m))) 0 = Ret (None, err) /\
     ended incoming (k_log (t_k m')) /\ forall s, state_of (k_log (t_k m')) s = None) \/
  (exists msg rest n, stream (i_net i) = framed msg ++ rest /\ (length msg <= room)%nat /\ (n <= length msg)%nat /\
     let buf := msg ++ skipn (length msg) (u_mem (u_rb (t_u m))) in forall r, handle fuel nf (with_mem (t_u m) buf) buf n (i_rx i) <> Ret r).
Proof.
  intros HR HI. destruct (reached_inv _ _ _ _ _ _ _ HR) as (w & t & HT). destruct HR as (HE & Hroom & _).
  destruct (turn_ok v targets nproxies par keep incoming stale hdr arr HE ap misc raw ignore parallel get fuel nf room m w t i Hroom HT HI) as [(es1 & m1 & w1 & t1 & qs1 & E1 & HT1 & _ & _ & _ & HL)|[(err & Ne & ES & E1)|(buf & n & c' & ER & HU & _)]].
  - left. exists es1, m1. split; [exact E1|]. split; [apply HT1|exact HL].
  - right. left. set (m1 := mk_tcpm (t_u m) (ticked (t_k m)) (t_q m) (t_wait m) (t_cum m) true) in *.
    assert (HT0 : inv room m1 w t). { assert (HT0 := HT). destruct HT0 as (I1 & I2 & I3 & I4 & I5 & I6 & I7 & I8). apply (same_log targets nproxies incoming room (ticked (t_k m)) m w t); auto. apply gkeeps_refl. }
    destruct (cleanup_ok targets nproxies incoming arr raw get room m1 w t HT0) as (L & m2 & EC & HD & HU & HLg & HN & HI'). rewrite E1, EC. cbn [bind]. exists m2, err. split; [reflexivity|]. split; [exact HD|]. split; [exact Ne|]. split; [exact ES|]. split.
    + exists (k_log (t_k m)), L. split; [exact HLg|]. split; [apply HT|]. split; [apply HT; reflexivity|]. auto.
    + rewrite HLg. cbn [m1 t_k ticked k_log] in HI' |- *. assert (HC : forall l s log, (In s l \/ state_of log s = None) -> state_of (rev (map TClose l) ++ log) s = None).
      { clear. induction l as [|x l IH]; intros s log H; cbn [map rev app]; [destruct H as [[]|H]; exact H|]. rewrite <- app_assoc. apply IH. destruct H as [[->|H]|H]; [right|left; exact H|right]; cbn [app state_of]; [rewrite Z.eqb_refl; reflexivity|destruct (x =? s); [reflexivity|exact H]]. }
      intros s. apply HC. destruct (state_of (k_log (t_k m)) s) eqn:Es; [left; right; apply HI'; congruence|right; reflexivity].
  - right. right. assert (HT0 := HT). destruct HT0 as (_ & _ & _ & _ & _ & _ & I7 & _). destruct (C46_sound (S room) (i_net i) (u_mem (u_rb (t_u m))) (proj2 HI)) as (r & ER' & Hr); [lia|lia|]. assert (r = Reply buf n c') as -> by congruence.
    destruct Hr as (msg & H1 & H2 & -> & H3 & _). exists msg, (stream c'), (Z.to_nat n). split; [exact H1|]. split; [lia|]. split; [lia|]. exact HU.
Qed.

(** When a query comes from a caller, all goes well from then on, and no attempt to connect fails, it is sent to one of the servers, or in parallel mode to
    each of them once. *)
Theorem C70_sent fuel nf room m0 is es m i h bytes : reached fuel nf room m0 is es m -> tin_ok room i -> wakes v incoming (t_k m) incoming -> i_query i = Some (h, bytes) -> (0 < nservers)%nat ->
  fair nproxies v (ticked (t_k m)) (framed bytes) ->
  exists es' m' ss l, turn fuel nf m i = Ret (es', m') /\ t_alive m' = true /\ k_log (t_k m') = l ++ k_log (t_k m) /\ only_sends (framed bytes) l /\ sent_to (k_log (t_k m')) = ss ++ sent_to (k_log (t_k m)) /\
    (no_conn v (t_k m) (t_k m') \/ if par then Permutation (map Some (seq 0 nservers)) ss else exists j, (j < nservers)%nat /\ ss = [Some j]).
Proof.
  intros HR HI (r & Hsel & Hr & _ & Ho) Hq HN HF. destruct (reached_inv _ _ _ _ _ _ _ HR) as (w & t & HT). destruct HR as (HE & Hroom & _). assert (HT0 := HT). destruct HT0 as (I1 & I2 & I3 & I4 & _).
  destruct (holds_select _ _ _ I3 (proj1 HE (k_tick (t_k m)))) as (o & err & E & HO). destruct o as [[s a]|].
  - destruct HO as (d & Hd & _ & Hrs). assert (s = incoming) as ->.
    { apply Ho; [apply (wait_busy _ _ _ _ _ HT), (holds_watched _ _ I3); congruence|]. apply (Hrs [] r []); [exact Hsel|constructor]. }
    destruct (incoming_ok v targets nproxies par keep incoming stale hdr arr HE room m w t i a err Hroom HT HI E) as (es1 & m1 & w1 & t1 & qs & ss & msg & ET & HT1 & _ & _ & HAd & HIn & HC). rewrite Hq in HC. destruct HC as (_ & -> & _ & HC).
    destruct HAd as (_ & l & EL & HOn & HSn). exists es1, m1, ss, l. split; [unfold t_turn; rewrite I1; cbn [negb]; rewrite E; cbn [bind fst snd]; rewrite Z.eqb_refl; exact ET|]. split; [apply HT1|]. split; [exact EL|]. split; [exact HOn|]. split; [exact HSn|].
    destruct (HC HF HN) as [X|X]; [left; exact X|right]. destruct par; [exact X|]. destruct X as (j & ->). destruct (HIn (Some j) (or_introl eq_refl)) as (j' & Ej & Hj). exists j. split; [congruence|reflexivity].
  - exfalso. destruct (HO r Hsel) as (_ & HX). destruct (at_ w PWait incoming) as [d|] eqn:Ew; [rewrite (HX _ _ Ew) in Hr; discriminate|]. assert (Hin : watched (t_wait m) incoming) by (apply (wait_busy _ _ _ _ _ HT); auto). apply (holds_watched _ _ I3) in Hin. congruence.
Qed.

(** The end: every socket that is open is closed, and none of the others except for the one for the callers, which is closed twice. *)
Theorem C70_end_partial fuel nf room m0 is es m : env_ok v nservers nproxies -> (room <= 4096)%nat -> t_started nservers nproxies incoming room m0 -> Forall (tin_ok room) is -> run fuel nf m0 is = Ret (es, m) ->
  t_alive m = true \/ (ended incoming (k_log (t_k m)) /\ forall is', run fuel nf m is' = Ret ([], m)).
Proof.
  intros HE Hroom HS HF HR. destruct (started_inv targets nproxies incoming room m0 HS) as (w0 & HT0).
  destruct (run_ok v targets nproxies par keep incoming stale hdr arr HE ap misc raw ignore parallel get fuel nf room is Hroom m0 w0 Leaf es m HT0 HF HR) as (t & _ & _ & _ & _ & _ & _ & _ & [(HA & _)|(HD & HX)]); [left; exact HA|right].
  split; [exact HX|]. intros is'. apply dead_run. exact HD.
Qed.

(** C71.  Whatever arrives: every query that the module has taken in has got one reply, has timed out, or is still pending, and no query more than one
    of these; each reply went to the client of the query that it was matched with, and has that query's id. *)
Theorem C71_one_reply fuel nf room m0 is es m : env_ok v nservers nproxies -> (room <= 4096)%nat -> t_started nservers nproxies incoming room m0 -> Forall (tin_ok room) is -> run fuel nf m0 is = Ret (es, m) ->
  exists chosen qs delivered timedout pending, among chosen is /\ Forall2 comes_with chosen qs /\ queued es = length qs /\ fates hdr es delivered timedout /\ table (u_tab (t_u m)) pending /\
    Permutation qs (delivered ++ timedout ++ pending).
Proof.
  intros HE Hroom HS HF HR. destruct (started_inv targets nproxies incoming room m0 HS) as (w0 & HT0).
  destruct (run_ok v targets nproxies par keep incoming stale hdr arr HE ap misc raw ignore parallel get fuel nf room is Hroom m0 w0 Leaf es m HT0 HF HR) as (t & qs & chosen & ((fl & HB) & _) & HSt & HQ & HA & HC & _).
  destruct (settles_end _ _ _ _ _ HSt) as (d & tt & HFt & HP). exists chosen, qs, d, tt, (map snd (elems t)). split; [exact HA|]. split; [exact HC|]. split; [exact HQ|]. split; [exact HFt|]. split; [apply (table_vals _ t fl HB); reflexivity|exact HP].
Qed.

Lemma stream_segs c : stream c = concat (segs c).
Proof. induction c as [|[| | |] c IH]; cbn [stream segs concat]; congruence. Qed.

(** A well-formed reply whose address records have addresses of the right length, that arrives in one piece on a connection on which a reply is awaited, in any state that
    the module reaches.  If it is to be discarded it has no effect on pending queries and cache.  Otherwise the client of one pending query with its id and name
    gets the message, with the configured addresses replaced and nothing else changed, and that query is no longer pending; or no query is
    found, which happens only if none with that id and name is pending (if the hash values never wrap).  In both cases the cache takes in the
    message as it was sent. *)
Theorem C71_reply_partial rs room : filter_from rs misc -> (forall d, length (arr d) = 256%nat) ->
  exists look, policy rs look /\
  (orderly rs -> forall a o, address a -> (forall r, In r rs -> single r -> ~ rule_covers a r) -> first (rule_covers a) rs o -> look a = option_map ru_act o) /\
  forall g, acceptable g -> Forall address_ok (m_an g) -> (length (enc_msg g) <= room)%nat ->
  exists blocked an' f0, filtered look (m_an g) blocked an' /\
  forall fuel nf m0 is es m i s, (f0 <= fuel)%nat -> (f0 <= nf)%nat -> reached fuel nf room m0 is es m ->
    tin_ok room i -> wakes v incoming (t_k m) s -> s <> incoming -> in_one_piece (i_net i) (enc_msg g) ->
    let x := i_rx i in let u := t_u m in let g' := with_an g an' in
    let post := skipn (length (enc_msg g)) (u_mem (u_rb u)) in
    let response first domain := mk_response first g' post domain (x_clk x) (x_host x) (x_buf x) in
    let log' := TGot s :: k_log (t_k m) in
    (to_discard (no_negative misc) blocked ap g /\
     exists why m', turn fuel nf m i = Ret ([VDiscarded why], m') /\ u_tab (t_u m') = u_tab u /\ u_cache (t_u m') = u_cache u /\ k_log (t_k m') = log') \/
    (~ to_discard (no_negative misc) blocked ap g /\
     exists q rest r tab' code f, table (u_tab u) (q :: rest) /\ answers g q /\ table tab' rest /\
       h_len (c_h r) = Z.of_nat (length (enc_msg g')) /\ (h_edns (c_h r) = true <-> offers_edns g) /\
       (code = 0 <-> x_ret x = Z.of_nat (length (s_bytes (to_client hdr q r (enc_msg g'))))) /\
       turn fuel nf m i = (let! k := cache_takes raw ignore parallel get nf fuel (u_cache u) (response true (h_domain (c_h q))) in
                           Ret ([VReplied (to_client hdr q r (enc_msg g')) code], f k)) /\
       forall k, cache_takes raw ignore parallel get nf fuel (u_cache u) (response true (h_domain (c_h q))) = Ret k -> u_tab (t_u (f k)) = tab' /\ u_cache (t_u (f k)) = k /\ k_log (t_k (f k)) = log') \/
    (~ to_discard (no_negative misc) blocked ap g /\
     (forall pending q, tame_run (run fuel nf m0) is -> table (u_tab u) pending -> In q pending -> ~ answers g q) /\
     exists name type f, asked g name type /\
       turn fuel nf m i = (let! k := cache_takes raw ignore parallel get nf fuel (u_cache u) (response false name) in Ret ([VUnmatched], f k)) /\
       forall k, cache_takes raw ignore parallel get nf fuel (u_cache u) (response false name) = Ret k -> u_tab (t_u (f k)) = u_tab u /\ u_cache (t_u (f k)) = k /\ k_log (t_k (f k)) = log').
Proof.
  intros HFF Harr. destruct (filter_look rs misc HFF) as (look & HP & HO & HM). exists look. split; [exact HP|]. split; [exact HO|].
  intros g Ha HA Hr. destruct (filtered_total look (m_an g)) as (blocked & an' & HF).
  destruct (receive_cases (A := unit) ap misc raw ignore parallel get hdr arr look room g blocked an' HM Ha HA Hr HF) as (f0 & HG).
  exists blocked, an', f0. split; [exact HF|]. intros fuel nf m0 is es m i s Hf Hn HR HI (r0 & Hsel & Hr0 & Hb & Ho) Ns HOne. cbv zeta.
  destruct (reached_inv _ _ _ _ _ _ _ HR) as (w & t & HT). assert (HR0 := HR). destruct HR0 as (HE & Hroom & HSt & HFi & HRun & HAl). assert (HT0 := HT). destruct HT0 as (I1 & I2 & I3 & I4 & I5 & I6 & I7 & _).
  assert (HB : ubuf_ok room (u_rb (t_u m))). { eapply trun_buf; [exact HM|exact Harr|exact Hroom| |exact HFi|exact HRun]. destruct HSt as (_ & _ & _ & _ & _ & (_ & HB & _)). exact HB. }
  assert (HSel : exists a err, pl_select (t_wait m) (v_sel v (k_tick (t_k m))) 0 = Ret (Some (s, a), err)).
  { destruct (holds_select _ _ _ I3 (proj1 HE (k_tick (t_k m)))) as (o & err & E & HOs). destruct o as [[s' a]|].
    - destruct HOs as (d & Hd & _ & Hrs). assert (s' = s) as ->; [|eauto]. apply Ho; [apply (wait_busy _ _ _ _ _ HT), (holds_watched _ _ I3); congruence|]. apply (Hrs [] r0 []); [exact Hsel|constructor].
    - exfalso. destruct (HOs r0 Hsel) as (_ & HX). assert (Hin : watched (t_wait m) s) by (apply (wait_busy _ _ _ _ _ HT); assumption). apply (holds_watched _ _ I3) in Hin. destruct (at_ w PWait s) as [d|] eqn:Ew; [rewrite (HX _ _ Ew) in Hr0; discriminate|congruence]. }
  destruct HSel as (a & err & HSel).
  assert (H12 : (12 <= length (enc_msg g))%nat). { destruct Ha as ((Hid & _) & _). unfold enc_msg. rewrite !app_length, !be16_length. lia. }
  assert (HC : exists c', tcp_reply (S room) (i_net i) (u_mem (u_rb (t_u m))) = Ret (Reply (enc_msg g ++ skipn (length (enc_msg g)) (u_mem (u_rb (t_u m)))) (Z.of_nat (length (enc_msg g))) c')).
  { destruct HOne as (x & more & HOne). assert (Hstr : exists p more' rest, segs (i_net i) = p :: more' /\ (2 <= length p)%nat /\ stream (i_net i) = framed (enc_msg g) ++ rest).
    { rewrite stream_segs. destruct HOne as [E|E]; rewrite E; eexists _, _, _; (split; [reflexivity|]); (split; [unfold framed; rewrite ?app_length, be16_length; lia|]); unfold framed; cbn [concat]; rewrite <- !app_assoc; reflexivity. }
    destruct Hstr as (p & more' & rest & E1 & E2 & E3). destruct (C46_whole_partial (S room) (i_net i) (u_mem (u_rb (t_u m))) (enc_msg g) rest p more' (proj2 HI)) as (n & c' & E4 & _ & _ & E5); [lia|lia|exact E1|exact E2|exact E3|intros X; rewrite X in H12; cbn in H12; lia|lia|].
    rewrite (E5 x more HOne) in E4. eauto. }
  destruct HC as (c0 & HC).
  destruct (reply_ok v targets nproxies par keep incoming stale hdr arr HE ap misc raw ignore parallel get fuel nf room m w t i s a err Hroom HT (proj2 HI) HSel Ns) as [(m' & w' & t' & ET & _)|(buf & n & c' & f & ER & ET & HH)].
  { exfalso. unfold t_reply in ET. cbv zeta in ET. rewrite I7, HC in ET. destruct (pl_del _ _ _) as [w1| | |]; try discriminate. cbn [bind] in ET. destruct (pl_data _ _) as [d| | |]; try discriminate. cbn [bind] in ET. destruct (put_at _ _ _ _) as [ags| | |]; try discriminate. cbn [bind] in ET.
    destruct (handle fuel nf _ _ _ _) as [[e u2]| | |] eqn:EH; try discriminate. cbn [bind] in ET. assert (e = VNothing) as -> by congruence. unfold u_handle in EH. cbv zeta in EH.
    repeat match type of EH with (let! x := ?e in _) = _ => destruct e as [?| | |]; try discriminate; cbn [bind] in EH | (let '(_, _) := ?p in _) = _ => destruct p | (if ?b then _ else _) = _ => destruct b; try discriminate end. }
  rewrite HC in ER. assert (buf = enc_msg g ++ skipn (length (enc_msg g)) (u_mem (u_rb (t_u m))) /\ n = Z.of_nat (length (enc_msg g))) as (-> & ->) by (split; congruence). clear ER. rewrite Nat2Z.id in *.
  set (buf := enc_msg g ++ skipn (length (enc_msg g)) (u_mem (u_rb (t_u m)))) in *. set (u1 := with_mem (t_u m) buf) in *.
  set (x1 := mk_rx (enc_msg g) (x_it (i_rx i)) (x_host (i_rx i)) (x_buf (i_rx i)) (x_clk (i_rx i)) (x_ret (i_rx i))).
  assert (Hlen : length buf = room) by (unfold buf; rewrite app_length, skipn_length; lia).
  assert (HX : u_receive ap misc raw ignore parallel get hdr arr fuel nf u1 x1 = handle fuel nf u1 buf (length (enc_msg g)) (i_rx i)).
  { unfold u_receive. cbv zeta. cbn [x1 x_bytes u1 with_mem u_rb u_mem]. rewrite Hlen, firstn_all2 by lia. destruct (enc_msg g) as [|z zs] eqn:Eg; [cbn in H12; lia|]. rewrite <- Eg.
    replace (enc_msg g ++ skipn (length (enc_msg g)) buf) with buf; [reflexivity|]. unfold buf. rewrite Eg. f_equal. rewrite skipn_app, skipn_all, Nat.sub_diag. reflexivity. }
  assert (HB1 : ubuf_ok room (u_rb u1)). { destruct HB as (B1 & B2 & B3). split; [exact B1|]. split; [exact Hlen|]. cbn [u1 with_mem u_rb u_mem]. unfold buf. apply Forall_app. split; [apply enc_msg_bytes; apply Ha|apply Forall_skip, B3]. }
  assert (HPost : skipn (length (enc_msg g)) (u_mem (u_rb u1)) = skipn (length (enc_msg g)) (u_mem (u_rb (t_u m)))). { cbn [u1 with_mem u_rb u_mem]. unfold buf. rewrite skipn_app, skipn_all, Nat.sub_diag. reflexivity. }
  assert (ETurn : turn fuel nf m i = let! r := u_receive ap misc raw ignore parallel get hdr arr fuel nf u1 x1 in Ret ([fst r], f (snd r))).
  { unfold t_turn. rewrite I1. cbn [negb]. rewrite HSel. cbn [bind fst]. destruct (Z.eqb_spec s incoming); [congruence|]. rewrite HX. exact ET. }
  assert (HLog : forall e u2, u_receive ap misc raw ignore parallel get hdr arr fuel nf u1 x1 = Ret (e, u2) -> t_u (f u2) = u2 /\ k_log (t_k (f u2)) = TGot s :: k_log (t_k m)).
  { intros e u2 E. rewrite HX in E. destruct (HH e u2 E) as (E1 & w' & t' & _ & _ & _ & E2). auto. }
  clear ET HH HX. destruct (HG fuel nf u1 t x1 Hf Hn) as [(HD & why & buf' & E)|[(HN & q & rest & r & tab' & buf' & code & T1 & T2 & T3 & T4 & T5 & T6 & E)|(HN & HCo & name & type & buf' & T1 & E)]]; [exact I6|exact HB1|reflexivity|..].
  - left. split; [exact HD|]. exists why. destruct (HLog _ _ E) as (L1 & L2). rewrite ETurn, E. cbn [bind fst snd]. eexists. split; [reflexivity|]. rewrite L1. auto.
  - right. left. split; [exact HN|]. rewrite HPost in E. exists q, rest, r, tab', code, (fun k => f (mk_udpm tab' buf' k (u_open u1) 0 (u_addrs u1) (u_alive u1))).
    split; [exact T1|]. split; [exact T2|]. split; [exact T3|]. split; [exact T4|]. split; [exact T5|]. split; [exact T6|]. cbn [x1 x_clk x_host x_buf u1 with_mem u_cache] in E. rewrite ETurn, E. split.
    + destruct (cache_takes raw ignore parallel get nf fuel (u_cache (t_u m)) _); reflexivity.
    + intros k Ek. rewrite Ek in E. cbn [bind] in E. destruct (HLog _ _ E) as (L1 & L2). rewrite L1. auto.
  - right. right. split; [exact HN|]. split.
    + intros pending q HTm Hp Hq. destruct (started_inv targets nproxies incoming room m0 HSt) as (w0 & HT0).
      destruct (run_ord v targets nproxies par keep incoming stale hdr arr HE ap misc raw ignore parallel get fuel nf room is Hroom m0 w0 Leaf es m HT0 HFi HRun HAl I HTm) as (w2 & t2 & HT2 & Hord).
      destruct HT2 as (_ & _ & _ & _ & _ & K2 & _). apply (HCo t2); [exact K2|exact Hord|]. destruct K2 as ((fl2 & HB2) & _). apply (table_vals _ t2 fl2 HB2) in Hp. eapply Permutation_in; [symmetry; exact Hp|exact Hq].
    + rewrite HPost in E. exists name, type, (fun k => f (mk_udpm (u_tab u1) buf' k (u_open u1) 0 (u_addrs u1) (u_alive u1))). split; [exact T1|]. cbn [x1 x_clk x_host x_buf u1 with_mem u_cache] in E. rewrite ETurn, E. split.
      * destruct (cache_takes raw ignore parallel get nf fuel (u_cache (t_u m)) _); reflexivity.
      * intros k Ek. rewrite Ek in E. cbn [bind] in E. destruct (HLog _ _ E) as (L1 & L2). rewrite L1. auto.
Qed.
End Props.
Print Assumptions C70_orderly.
Print Assumptions C70_turn.
Print Assumptions C70_sent.
Print Assumptions C70_end_partial.
Print Assumptions C71_one_reply.
Print Assumptions C71_reply_partial.

(** * A module with two servers
    The first free descriptor from 5 on is the one that the kernel gives for a new connection; 900 is the socket for the callers. *)
Definition env70 (sel : nat -> list selret) (rand : Z) (now : nat -> Z) : tenv :=
  mk_tenv sel now (fun _ => rand) (fun _ log => find (fun s => match state_of log s with None => true | Some _ => false end) (map Z.of_nat (seq 5 1019)))
    (fun _ => [mk_attempt 600 false]) (fun _ => false) (fun _ => ([], [], [])).
Definition h70 (id client sock : Z) : iheader := mk_ih None false 0 (Some [client]) sock [97] (bkdr [97]) 1 false false (Z.of_nat (length (enc_msg (msg64 id)))) [].
Definition rx70 : rx := mk_rx [] (P_unknown, 0, 0, 0) [] [] (fun _ => 0) 35.
Definition in70 (id client sock : Z) : tin := mk_tin (Some (h70 id client sock, enc_msg (msg64 id))) [] rx70.
Definition got70 (msg : list Z) : tin := mk_tin None [Seg (framed msg)] rx70.
Definition u70 : @udpm unit := mk_udpm bst_init (mk_ubuf (mk_ih None false 0 None 0 [] 0 0 false false 0 []) (repeat 0 256) (repeat 0 120)) None true 0 (mk_al [] 0) true.
Definition start70 (n : nat) : tcpm := mk_tcpm u70 (mk_kst 0 [TListen 900]) (mk_pools pl_init (repeat pl_init n) pl_init [])
  (match pl_add pl_init 900 tctx0 with Ret (_, p) => p | _ => pl_init end) 0 true.
Definition run70 (v : tenv) (targets : list (list Z * list Z)) (par : bool) := t_run v targets None par 30 900 tctx0 false None no_raw64 false false (fun _ => None) (fun _ => []) arr64 30 30.
Definition two : list (list Z * list Z) := [([49], [53]); ([50], [53])].
Definition all (_ : nat) : list selret := [SelReady (fun _ => true)].
Lemma env70_ok sel rand now n : (forall t, select_ends (sel t)) -> 0 <= rand -> rand + Z.of_nat n <= 2147483648 -> env_ok (env70 sel rand now) n None.
Proof.
  intros HS H0 H1. split; [exact HS|]. split; [|intros t; cbn [env70 v_rand]; split; [exact H0|split; [exact H1|discriminate]]].
  intros t log s E. cbn [env70 v_conn] in E. apply find_some in E. destruct E as (HI & E). apply in_map_iff in HI. destruct HI as (x & <- & HI). apply in_seq in HI. split; [lia|]. destruct (state_of log _); [discriminate|reflexivity].
Qed.
Lemma all_ends t : select_ends (all t). Proof. exists [], (SelReady (fun _ => true)), []. split; [reflexivity|]. split; [constructor|discriminate]. Qed.
Lemma start70_ok n : t_started n None 900 120 (start70 n).
Proof.
  split; [reflexivity|]. split; [lia|]. split; [reflexivity|]. split; [vm_compute; reflexivity|]. split; [reflexivity|].
  split; [reflexivity|]. split; [|cbn; lia]. split; [reflexivity|]. split; [reflexivity|]. apply Forall_forall. intros z Hz. apply repeat_spec in Hz. subst z. unfold is_byte. lia.
Qed.
Lemma in70_ok id client sock : 0 <= id < 256 -> tin_ok 120 (in70 id client sock).
Proof.
  intros Hid. split; [|intros e []]. intros h bytes E. assert (h = h70 id client sock /\ bytes = enc_msg (msg64 id)) as (-> & ->) by (split; unfold in70 in E; cbn [i_query] in E; congruence).
  split; [vm_compute; split; [discriminate|reflexivity]|]. split; [reflexivity|]. split; [change (length (enc_msg (msg64 id))) with 19%nat; lia|].
  change (enc_msg (msg64 id)) with [0; id; 1; 0; 0; 1; 0; 0; 0; 0; 0; 0; 1; 97; 0; 0; 1; 0; 1]. repeat (constructor; [unfold is_byte; lia|]). constructor.
Qed.
Lemma got70_ok msg : Forall is_byte msg -> tin_ok 120 (got70 msg).
Proof. intros H. split; [discriminate|]. intros e [<-|[]]. split; [discriminate|]. unfold framed. apply Forall_app. split; [apply BaseFacts.be16_bytes|exact H]. Qed.

(** When the module has ended, it has closed the socket for the callers twice: the second close may hit a descriptor that another thread has just opened. *)
Theorem C70_end_refuted incoming log' : ended incoming log' -> ~ lawful log'.
Proof.
  intros (log & L & -> & _ & HLi & _ & HI) HL. cbn [map rev] in HL. rewrite <- app_assoc in HL. cbn [app] in HL.
  assert (HX : forall l log1, lawful (rev (map TClose l) ++ log1) -> state_of log1 incoming = None -> ~ In incoming l).
  { intros l. induction l as [|s l IH]; intros log1 H1 H2; [intros []|]. cbn [map rev] in H1. rewrite <- app_assoc in H1. cbn [app] in H1. intros [->|Hl].
    - assert (HLw : forall a b, lawful (a ++ b) -> lawful b) by (intros a b; induction a as [|? a IHa]; [auto|intros (_ & X); auto]). apply HLw in H1. destruct H1 as (H1 & _). cbn [legal] in H1. congruence.
    - apply (IH (TClose s :: log1) H1); [cbn [state_of]; destruct (s =? incoming); [reflexivity|exact H2]|exact Hl]. }
  apply (HX L (TClose incoming :: log) HL); [cbn [state_of]; rewrite Z.eqb_refl; reflexivity|]. apply HI. rewrite HLi. discriminate.
Qed.
Print Assumptions C70_end_refuted.

(** A signal, and then nothing for the time of the sweep: the module takes the time-out for an error, closes its sockets and ends, for good. *)
Theorem C70_interrupt_refuted : exists v m es m', env_ok v 2 None /\ v_sel v (k_tick (t_k m)) = [SelErr 4; SelTimeout] /\ t_started 2 None 900 120 m /\
  run70 v two false m [in70 7 1 5; in70 9 2 6] = Ret (es, m') /\ es = [] /\ t_alive m' = false /\ k_log (t_k m') = [TClose 900; TClose 900; TListen 900].
Proof.
  exists (env70 (fun _ => [SelErr 4; SelTimeout]) 3 (fun _ => 100)), (start70 2).
  assert (Hr : exists es m', run70 (env70 (fun _ => [SelErr 4; SelTimeout]) 3 (fun _ => 100)) two false (start70 2) [in70 7 1 5; in70 9 2 6] = Ret (es, m') /\ es = [] /\ t_alive m' = false /\ k_log (t_k m') = [TClose 900; TClose 900; TListen 900]).
  { eexists _, _. split; [vm_compute; reflexivity|]. auto. }
  destruct Hr as (es & m' & H). exists es, m'. split; [apply env70_ok; [|lia|lia]|].
  - intros t. exists [4], SelTimeout, []. split; [reflexivity|]. split; [repeat constructor|discriminate].
  - split; [reflexivity|]. split; [apply start70_ok|exact H].
Qed.
Print Assumptions C70_interrupt_refuted.

(** Two servers, to each of which every query is to be sent; each attempt to connect and to send succeeds.  The connection to server 0 comes up too late for the first query, so
    that is sent to server 1 only; when the second query comes, it is up, but the connection to server 1 has no room.  A second connection to server 0 is opened, and the
    query is sent to server 0 twice, and not to server 1. *)
Definition slow70 (b t : nat) : list selret := [SelReady (fun s => if s =? 6 then (b <=? t)%nat else if s =? 5 then (t <? b)%nat else true)].
Theorem C70_parallel_refuted : exists v m0 es1 m1 es2 m2 l, env_ok v 2 None /\ t_started 2 None 900 120 m0 /\
  run70 v two true m0 [in70 7 1 5; got70 (enc_msg (reply64 7 77))] = Ret (es1, m1) /\ t_alive m1 = true /\
  run70 v two true m1 [in70 9 2 6] = Ret (es2, m2) /\ t_alive m2 = true /\
  k_log (t_k m2) = l ++ k_log (t_k m1) /\ l = [TSent 7 (framed (enc_msg (msg64 9))) (framed (enc_msg (msg64 9))) true; TSent 6 (framed (enc_msg (msg64 9))) (framed (enc_msg (msg64 9))) true; TOpen 7 false 0] /\
  sent_to (k_log (t_k m2)) = [Some 0%nat; Some 0%nat] ++ sent_to (k_log (t_k m1)).
Proof.
  set (v := env70 (slow70 25) 3 (fun _ => 100)).
  assert (H1 : exists es1 m1, run70 v two true (start70 2) [in70 7 1 5; got70 (enc_msg (reply64 7 77))] = Ret (es1, m1) /\ t_alive m1 = true /\
    exists es2 m2, run70 v two true m1 [in70 9 2 6] = Ret (es2, m2) /\ t_alive m2 = true /\
      k_log (t_k m2) = [TSent 7 (framed (enc_msg (msg64 9))) (framed (enc_msg (msg64 9))) true; TSent 6 (framed (enc_msg (msg64 9))) (framed (enc_msg (msg64 9))) true; TOpen 7 false 0] ++ k_log (t_k m1) /\
      sent_to (k_log (t_k m2)) = [Some 0%nat; Some 0%nat] ++ sent_to (k_log (t_k m1))).
  { eexists _, _. split; [vm_compute; reflexivity|]. split; [reflexivity|]. eexists _, _. split; [vm_compute; reflexivity|]. split; [reflexivity|]. split; vm_compute; reflexivity. }
  destruct H1 as (es1 & m1 & E1 & A1 & es2 & m2 & E2 & A2 & HL & HS). exists v, (start70 2), es1, m1, es2, m2. eexists. split; [apply env70_ok; [|lia|lia]|].
  - intros t. eexists [], _, []. split; [reflexivity|]. split; [constructor|discriminate].
  - split; [apply start70_ok|]. split; [exact E1|]. split; [exact A1|]. split; [exact E2|]. split; [exact A2|]. split; [exact HL|]. split; [reflexivity|exact HS].
Qed.
Print Assumptions C70_parallel_refuted.

(** If rand returns the largest int, the index of the second server does not fit: the behaviour is undefined. *)
Theorem C70_rand_refuted : exists v m, v_rand v (k_tick (t_k m)) = 2147483647 /\ t_started 2 None 900 120 m /\ run70 v two false m [in70 7 1 5] = UBR.
Proof. exists (env70 all 2147483647 (fun _ => 100)), (start70 2). split; [reflexivity|]. split; [apply start70_ok|vm_compute; reflexivity]. Qed.
Print Assumptions C70_rand_refuted.

(** A reply of length 0, with more behind it: the client gets its own query back as the reply, and a reply that comes later finds no query. *)
Theorem C71_empty_refuted : exists v m0 i es m, env_ok v 2 None /\ t_started 2 None 900 120 m0 /\ Forall (tin_ok 120) [in70 7 1 5; i; got70 (enc_msg (reply64 7 77))] /\ i_net i = [Seg (framed []); Seg [1]] /\
  run70 v two true m0 [in70 7 1 5; i; got70 (enc_msg (reply64 7 77))] = Ret (es, m) /\ exists code, es = [VQueued [] 0; VReplied (mk_sent 5 (Some [1]) (enc_msg (msg64 7))) code; VUnmatched].
Proof.
  set (v := env70 all 3 (fun _ => 100)). set (i := mk_tin None [Seg (framed []); Seg [1]] rx70).
  assert (H1 : exists es m, run70 v two true (start70 2) [in70 7 1 5; i; got70 (enc_msg (reply64 7 77))] = Ret (es, m) /\ exists code, es = [VQueued [] 0; VReplied (mk_sent 5 (Some [1]) (enc_msg (msg64 7))) code; VUnmatched]).
  { eexists _, _. split; [vm_compute; reflexivity|]. eexists. reflexivity. }
  destruct H1 as (es & m & H1). exists v, (start70 2), i, es, m. split; [apply env70_ok; [exact all_ends|lia|lia]|]. split; [apply start70_ok|]. split; [|split; [reflexivity|exact H1]].
  constructor; [apply in70_ok; lia|]. constructor; [|constructor; [apply got70_ok; vm_compute; repeat constructor; discriminate|constructor]].
  split; [discriminate|]. intros e [<-|[<-|[]]]; (split; [discriminate|]); vm_compute; repeat constructor; discriminate.
Qed.
Print Assumptions C71_empty_refuted.

(** Two queries, the first of which is answered before the second one comes.  They share a connection. *)
Definition sel70 (t : nat) : list selret := [SelReady (fun s => if (t =? 14)%nat then s =? 5 else true)].
Example C70_nonvacuous : exists v es1 m1 es2 m2, env_ok v 2 None /\ t_started 2 None 900 120 (start70 2) /\ Forall (tin_ok 120) [in70 7 1 5; got70 (enc_msg (reply64 7 77)); in70 9 2 6] /\
  wakes v 900 (t_k (start70 2)) 900 /\ (forall t log, state_of log 5 = None -> v_conn v t log <> None) /\
  run70 v two false (start70 2) [in70 7 1 5] = Ret (es1, m1) /\ t_alive m1 = true /\ wakes v 900 (t_k m1) 5 /\ in_one_piece (i_net (got70 (enc_msg (reply64 7 77)))) (enc_msg (reply64 7 77)) /\
  run70 v two false m1 [got70 (enc_msg (reply64 7 77)); in70 9 2 6] = Ret (es2, m2) /\ t_alive m2 = true /\
  es2 = [VReplied (mk_sent 5 (Some [1]) (enc_msg (reply64 7 77))) 0; VQueued [] 0] /\
  k_log (t_k m2) = [TSent 5 (framed (enc_msg (msg64 9))) (framed (enc_msg (msg64 9))) true; TGot 5; TSent 5 (framed (enc_msg (msg64 7))) (framed (enc_msg (msg64 7))) true; TOpen 6 false 0; TOpen 5 false 1; TListen 900].
Proof.
  set (v := env70 sel70 3 (fun _ => 100)).
  assert (H1 : exists es1 m1, run70 v two false (start70 2) [in70 7 1 5] = Ret (es1, m1) /\ t_alive m1 = true /\ k_tick (t_k m1) = 14%nat /\
      k_log (t_k m1) = [TSent 5 (framed (enc_msg (msg64 7))) (framed (enc_msg (msg64 7))) true; TOpen 6 false 0; TOpen 5 false 1; TListen 900] /\
    exists es2 m2, run70 v two false m1 [got70 (enc_msg (reply64 7 77)); in70 9 2 6] = Ret (es2, m2) /\ t_alive m2 = true /\
      es2 = [VReplied (mk_sent 5 (Some [1]) (enc_msg (reply64 7 77))) 0; VQueued [] 0] /\
      k_log (t_k m2) = [TSent 5 (framed (enc_msg (msg64 9))) (framed (enc_msg (msg64 9))) true; TGot 5; TSent 5 (framed (enc_msg (msg64 7))) (framed (enc_msg (msg64 7))) true; TOpen 6 false 0; TOpen 5 false 1; TListen 900]).
  { eexists _, _. split; [vm_compute; reflexivity|]. split; [reflexivity|]. split; [reflexivity|]. split; [vm_compute; reflexivity|]. eexists _, _. split; [vm_compute; reflexivity|]. split; [reflexivity|]. split; vm_compute; reflexivity. }
  destruct H1 as (es1 & m1 & E1 & A1 & T1 & L1 & es2 & m2 & E2). exists v, es1, m1, es2, m2.
  split; [apply env70_ok; [|lia|lia]; intros t; eexists [], _, []; split; [reflexivity|]; split; [constructor|discriminate]|].
  split; [apply start70_ok|]. split; [constructor; [apply in70_ok; lia|]; constructor; [apply got70_ok; vm_compute; repeat constructor; discriminate|]; constructor; [apply in70_ok; lia|constructor]|].
  split. { eexists. split; [reflexivity|]. split; [reflexivity|]. split; [left; reflexivity|]. intros x [->|(via & j & H)] _; [reflexivity|]. cbn [start70 t_k k_log state_of] in H. destruct (900 =? x); discriminate. }
  split. { intros t log H E. cbn [v env70 v_conn] in E. pose proof (find_none _ _ E 5) as X. cbn beta in X. rewrite H in X. discriminate X. apply in_map_iff. exists 5%nat. split; [reflexivity|apply in_seq; lia]. }
  split; [exact E1|]. split; [exact A1|]. split.
  { eexists. rewrite T1. split; [reflexivity|]. split; [reflexivity|]. split; [right; rewrite L1; exists None, 1%nat; reflexivity|]. intros x _ H. apply Z.eqb_eq. exact H. }
  split; [exists [], []; left; rewrite app_nil_r; reflexivity|exact E2].
Qed.
Example C71_nonvacuous : acceptable (reply64 7 77) /\ Forall address_ok (m_an (reply64 7 77)) /\ (length (enc_msg (reply64 7 77)) <= 120)%nat /\ filter_from [] None /\ (forall d, length (arr64 d) = 256%nat).
Proof.
  split; [split; [unfold reply64, Parser_Spec.good_msg, Parser_Spec.good_q, Parser_Spec.good_rr, Parser_Spec.good_name, is_byte; cbn; crush|split; [discriminate|]]|].
  - cbn [readable reply64 m_qs]. split; [reflexivity|]. split; [|exact I]. exists [[97]], 3%nat. split; [|cbn; lia].
    apply (Name_Spec.D_label 63 _ 12 1 [97] [] 1); [reflexivity|lia|reflexivity|apply Name_Spec.D_root; reflexivity].
  - split; [constructor; [|constructor]; intros _; split; [reflexivity|discriminate]|]. split; [vm_compute; lia|]. split; [constructor|].
    intros d. unfold arr64. rewrite firstn_length, app_length, repeat_length. lia.
Qed.
