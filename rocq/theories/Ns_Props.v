(** Questions for name servers, for the names of addresses and for aliases, answered from the cache: C63. *)
From Verif Require Import Base BaseFacts ListFacts Name_Model Name_Spec Name_Proofs Hash_Model Cht_Model Cache_Model Cache_Spec Cache2_Proofs Cache4_Proofs Cache_Props Alias_Spec Alias_Proofs Alias_Props
  Parser_Model Parser_Spec Parser_Proofs Parser_Walk Parser_Props Gen_Model Gen_Spec Gen_Proofs Compress_Spec Compress_Proofs Gen2_Proofs Gen_Props Iheader_Spec Iheader_Proofs Addr2_Proofs Fetch_Model Fetch_Spec Fetch_Proofs Fetch2_Proofs Fetch_Props Ns_Spec Ns_Proofs.
Require Import ZifyBool ZifyNat.

(** After any history of stored records and sweeps, a query that has no answers in it and asks for the class IN and one of the types NS, PTR, CNAME: if hosts are stored for it, and there is room,
    then the reply is well-formed and has the header, the question and the OPT record as in [C63_cached_answer_partial]; but its answers are aliases (CNAME records), whatever was asked for, and
    with several hosts only the first one is that of the name asked for: each other is said to be an alias of the host before it.  If no hosts are stored then nothing is sent.
    So a single CNAME record is what was stored; NS and PTR records never are, and neither are several CNAME records. *)
Theorem C63_hosts_as_aliases raw ignore parallel get size slots ops c t0 now : sized size slots -> Forall op_ok ops -> Forall op_wire_ok ops ->
  run raw ignore parallel get (cache_init size slots) ops = Ret c -> clock t0 ops -> last_time t0 ops <= now ->
  exists A, a_run ignore parallel get [] ops A /\ c_count c = Z.of_nat (length A) /\
  forall q q0 qs ql stack, good_msg q -> m_qs q = q0 :: qs -> q_name q0 = plain ql -> name_ok ql -> ql <> [] -> (length (dotted ql) <= 253)%nat ->
    m_an q = [] -> q_class q0 = 1 -> In (q_type q0) [2; 5; 12] -> length stack = 254%nat ->
  exists f0, forall nf fuel post edns sent als n hs, (f0 <= nf)%nat -> (length (enc_msg q ++ post) <= fuel)%nat -> Forall is_byte post ->
    Z.of_nat (length post) <= 16384 -> hosts_for ignore A now ql (q_type q0) als n hs ->
    (length (enc_msg (full_reply q edns (als ++ map (alias_to n) hs))) <= length post)%nat ->
    (hs = [] -> exists mem', fetch raw ignore nf stack fuel c (enc_msg q ++ post) (length (enc_msg q)) edns now sent = Ret (-3, enc_msg q ++ mem', length (enc_msg q)) /\ length mem' = length post) /\
    (hs <> [] -> exists a mem', fetch raw ignore nf stack fuel c (enc_msg q ++ post) (length (enc_msg q)) edns now sent = Ret (if sent then 0 else -861, enc_msg a ++ mem', length (enc_msg a)) /\
       length (enc_msg a ++ mem') = length (enc_msg q ++ post) /\ is_reply q edns (als ++ chained n hs) a).
Proof.
  intros Hs Ho Hw E Hc Hn. destruct (history _ _ _ _ _ _ _ _ _ _ Hs Ho E Hc Hn) as (A & Hr & Hrep & Hg). exists A. split; [exact Hr|]. split; [exact (r_count _ _ Hrep)|].
  pose proof (question_answered raw ignore c A now Hrep (run_data _ _ _ _ _ Hr (ops_data _ Hw)) Hg) as HQ.
  pose proof (ttl_in_range ignore A now c Hrep Hg) as HT. pose proof (lookup_data _ _ _ _ _ now Hr HT) as HL.
  intros q q0 qs ql stack. apply (fetch_hosts raw ignore c A now HT HL). intros fuel name ty g G1 G2 G3 G4 G5. apply (HQ fuel name ty 1 g G1 G2 G3 G4); auto.
Qed.
Print Assumptions C63_hosts_as_aliases.

(** So the answers to a question for name servers or for the name of an address are never of the type asked for. *)
Theorem C63_never_that_type ignore A now q edns ql ty als n hs a : ty <> 5 -> hosts_for ignore A now ql ty als n hs -> is_reply q edns (als ++ chained n hs) a ->
  Forall (fun r => Parser_Spec.r_type r = 5) (m_an a) /\ length (m_an a) = (length als + length hs)%nat.
Proof.
  intros N5 (Hal & _) (_ & _ & _ & _ & _ & HF & _). destruct (Z.eqb_spec ty 5) as [->|_]; [congruence|].
  assert (HT : Forall (fun r => Parser_Spec.r_type r = 5) (als ++ chained n hs)).
  { apply Forall_app. split; [clear - Hal; induction Hal; constructor; auto|]. clear. revert n. induction hs as [|h hs IH]; intros n; cbn [chained]; constructor; [reflexivity|apply IH]. }
  assert (HL : forall n, length (chained n hs) = length hs) by (clear; induction hs as [|h hs IH]; intros n; cbn [chained length]; [reflexivity|now rewrite IH]).
  split; [|rewrite <- (Forall2_length HF), app_length, HL; reflexivity].
  clear - HF HT. induction HF as [|r r' rs rs' (H1 & _) HF IH]; constructor; inversion HT; subst; [congruence|auto].
Qed.
Print Assumptions C63_never_that_type.

(** The name servers a.e and b.e of e: the reply says that e is an alias of a.e, and a.e one of b.e. *)
Definition ns_A : list entry := [mk_entry [101] 2 1 [98; 46; 101; 0] 300 1000; mk_entry [101] 2 1 [97; 46; 101; 0] 300 1000].
Definition ns_hosts : list (list (list Z) * Z) := [([[98]; [101]], 290); ([[97]; [101]], 290)].
Definition ns_name : list (list Z) := [[101]].
Example C63_hosts_nonvacuous : sized 500 7 /\ Forall op_ok ns_ops /\ Forall op_wire_ok ns_ops /\ run no_raw false false no_rule (cache_init 500 7) ns_ops = Ret ns_cache /\ clock 0 ns_ops /\ last_time 0 ns_ops <= 1010 /\
  a_run false false no_rule [] ns_ops ns_A /\ hosts_for false ns_A 1010 [[101]] 2 [] [[101]] ns_hosts /\
  (length (enc_msg (full_reply ns_q false ([] ++ map (alias_to ns_name) ns_hosts))) <= 100)%nat /\
  fx_get (fetch no_raw false 50 (repeat 0 254) 200 ns_cache (enc_msg ns_q ++ repeat 0 100) (length (enc_msg ns_q)) false 1010 true) =
  (0, [18; 52; 129; 128; 0; 1; 0; 2; 0; 0; 0; 0; 1; 101; 0; 0; 2; 0; 1;
       192; 12; 0; 5; 0; 1; 0; 0; 1; 34; 0; 5; 1; 98; 1; 101; 0;
       192; 31; 0; 5; 0; 1; 0; 0; 1; 34; 0; 5; 1; 97; 1; 101; 0]).
Proof.
  split; [unfold sized, header_size, slot_size; lia|]. split; [repeat constructor; cbn; intuition discriminate|].
  split; [constructor; [|constructor; [|constructor]]; eexists; [apply (wd_name 2 [[97]; [101]])|apply (wd_name 2 [[98]; [101]])]; try (cbn; tauto); try (apply fx_name; lia); try discriminate; cbn; lia|].
  split; [vm_compute; reflexivity|]. split; [cbn; lia|]. split; [cbn; lia|]. split.
  { eapply ar_add; [apply aa_stored; [split; [discriminate|vm_compute; lia]|intros e []|vm_compute; discriminate]|].
    eapply ar_add; [apply aa_stored; [split; [discriminate|vm_compute; lia]| |vm_compute; discriminate]|].
    { intros e [<-|[]] X. intros (y & Y). discriminate Y. }
    apply ar_nil. }
  split.
  { split; [change (2 =? 5) with false; cbv iota; apply al_end; reflexivity|].
    change (a_lookup false ns_A (dotted [[101]]) 2 1 1010) with [([98; 46; 101; 0], 290); ([97; 46; 101; 0], 290)].
    constructor; [|constructor; [|constructor]]; (split; [reflexivity|]); (split; [reflexivity|]); (split; [apply fx_name; lia|]); (split; [discriminate|cbn; lia]). }
  split; [cbn; lia|]. vm_compute. reflexivity.
Qed.
