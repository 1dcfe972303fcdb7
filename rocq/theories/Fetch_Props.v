(** Answering a query from the cache: C63. *)
From Verif Require Import Base BaseFacts ListFacts Name_Model Name_Spec Name_Proofs Hash_Model Cht_Model Cache_Model Cache_Spec Cache2_Proofs Cache4_Proofs Cache_Props Alias_Spec Alias_Proofs Alias_Props
  Parser_Model Parser_Spec Parser_Proofs Parser_Walk Parser_Props Gen_Model Gen_Spec Gen_Proofs Compress_Spec Compress_Proofs Gen2_Proofs Gen_Props Iheader_Spec Iheader_Proofs Addr2_Proofs Fetch_Model Fetch_Spec Fetch_Proofs Fetch2_Proofs.
Require Import ZifyBool ZifyNat.

Lemma wire_data_ok ty d w : wire_data ty d w -> data_ok ty d.
Proof.
  assert (HT : forall c, name_ok c -> (length (dotted c) <= 253)%nat -> text_data (dotted c ++ [0])).
  { intros c Hc Hl. exists (dotted c). split; [reflexivity|]. split; [|exact Hl]. pose proof (dotted_nonzero c Hc) as HZ. rewrite Forall_forall in HZ. intros X. exact (HZ 0 X eq_refl). }
  intros [ty' d' X Y|ty' c X0 X1 X2 X3|pref c X0 X1 X2]; split; intros H; try (cbn in X; lia); try (cbn in X0; lia).
  - now apply HT.
  - exists (pref / 256 mod 256), (pref mod 256), (dotted c ++ [0]). split; [reflexivity|]. now apply HT.
Qed.
Lemma ops_data ops : Forall op_wire_ok ops -> Forall op_data_ok ops.
Proof. intros H. eapply Forall_impl; [|exact H]. intros [inf r t|t] Ho; [|exact I]. destruct Ho as (w & Hw). exact (wire_data_ok _ _ _ Hw). Qed.
Lemma ttl_in_range ignore A now c : rep c A -> (ignore = false -> Forall (good now) A) -> forall e, In e A -> fresh ignore now e = true -> 0 <= remaining ignore now e < 4294967296.
Proof.
  intros Hrep Hg e He Hf. unfold remaining, fresh in *. destruct ignore.
  - pose proof (r_wf _ _ Hrep) as HW. rewrite Forall_forall in HW. destruct (HW e He) as (_ & _ & _ & H). exact H.
  - specialize (Hg eq_refl). rewrite Forall_forall in Hg. destruct (Hg e He) as (G1 & G2). cbn [orb] in Hf. lia.
Qed.
Lemma lookup_data ignore parallel get ops A now : a_run ignore parallel get [] ops A -> (forall e, In e A -> fresh ignore now e = true -> 0 <= remaining ignore now e < 4294967296) ->
  forall name ty v, In v (a_lookup ignore A name ty 1 now) -> 0 <= snd v < 4294967296 /\ fst v <> [] /\ (length (fst v) < 512)%nat.
Proof.
  intros Hr Ht name ty v Hv. unfold a_lookup in Hv. apply in_map_iff in Hv. destruct Hv as (e & <- & He). apply filter_In in He. destruct He as (He & Hb). rewrite !andb_true_iff in Hb. destruct Hb as ((Hb1 & Hb2) & Hb3).
  cbn [fst snd]. split; [auto|]. destruct (run_source ignore parallel get ops [] A e Hr He) as [(inf & r & t & I1 & (S1 & S2 & S3 & S4) & (T1 & T2))|(a & [] & _)]. rewrite S4. split; [exact T1|lia].
Qed.

(** After any history of stored records and sweeps, a query that has no answers in it and asks for the class IN and one of the types A, AAAA, HTTPS, TXT, MX, CNAME:
    if the records for it are there, and there is room for the reply behind the query, then what is sent to the client is a well-formed message: the identification of the query,
    the response and recursion available bits set, no error, the question as asked, the aliases and then all the records that the cache holds with their remaining lifetimes, and an OPT
    record exactly if the query has one.  If there are none then nothing is sent and the query stays as it was.
    What is missing from the full statement: NS and PTR questions ([C63_ns_refuted]), replies that do not fit ([C63_does_not_fit_refuted]), long queries ([C63_long_query_refuted]),
    several CNAME records for one name. *)
Theorem C63_cached_answer_partial raw ignore parallel get size slots ops c t0 now : sized size slots -> Forall op_ok ops -> Forall op_wire_ok ops ->
  run raw ignore parallel get (cache_init size slots) ops = Ret c -> clock t0 ops -> last_time t0 ops <= now ->
  exists A, a_run ignore parallel get [] ops A /\ c_count c = Z.of_nat (length A) /\
  forall q q0 qs ql stack, good_msg q -> m_qs q = q0 :: qs -> q_name q0 = plain ql -> name_ok ql -> ql <> [] -> (length (dotted ql) <= 253)%nat ->
    m_an q = [] -> q_class q0 = 1 -> In (q_type q0) [1; 28; 65; 16; 15; 5] -> length stack = 254%nat ->
  exists f0, forall nf fuel post edns sent als rs, (f0 <= nf)%nat -> (length (enc_msg q ++ post) <= fuel)%nat -> Forall is_byte post ->
    Z.of_nat (length post) <= 16384 -> answers ignore A now ql (q_type q0) als rs -> (q_type q0 = 5 -> (length rs <= 1)%nat) ->
    (length (enc_msg (full_reply q edns (als ++ rs))) <= length post)%nat ->
    (rs = [] -> exists mem', fetch raw ignore nf stack fuel c (enc_msg q ++ post) (length (enc_msg q)) edns now sent = Ret (-3, enc_msg q ++ mem', length (enc_msg q)) /\ length mem' = length post) /\
    (rs <> [] -> exists a mem', fetch raw ignore nf stack fuel c (enc_msg q ++ post) (length (enc_msg q)) edns now sent = Ret (if sent then 0 else -861, enc_msg a ++ mem', length (enc_msg a)) /\
       length (enc_msg a ++ mem') = length (enc_msg q ++ post) /\ is_reply q edns (als ++ rs) a).
Proof.
  intros Hs Ho Hw E Hc Hn. destruct (history _ _ _ _ _ _ _ _ _ _ Hs Ho E Hc Hn) as (A & Hr & Hrep & Hg). exists A. split; [exact Hr|]. split; [exact (r_count _ _ Hrep)|].
  pose proof (question_answered raw ignore c A now Hrep (run_data _ _ _ _ _ Hr (ops_data _ Hw)) Hg) as HQ.
  pose proof (ttl_in_range ignore A now c Hrep Hg) as HT. pose proof (lookup_data _ _ _ _ _ now Hr HT) as HL.
  intros q q0 qs ql stack. apply (fetch_answers raw ignore c A now HT HL). intros fuel name ty g G1 G2 G3 G4 G5. apply (HQ fuel name ty 1 g G1 G2 G3 G4); auto.
Qed.
Print Assumptions C63_cached_answer_partial.

(** A query with answers in it, of another class or of another type, is never answered from the cache and stays as it was, whatever the cache holds. *)
Theorem C63_not_cached raw ignore c now q q0 qs ql stack : good_msg q -> m_qs q = q0 :: qs -> q_name q0 = plain ql -> name_ok ql -> (length (dotted ql) <= 253)%nat -> length stack = 254%nat ->
  m_an q <> [] \/ q_class q0 <> 1 \/ ~ In (q_type q0) [1; 2; 5; 12; 15; 16; 28; 65] ->
  exists f0, forall nf fuel post edns sent, (f0 <= nf)%nat -> (length (enc_msg q ++ post) <= fuel)%nat -> Forall is_byte post -> (length (enc_msg (stripped q)) <= length post)%nat ->
    exists mem', fetch raw ignore nf stack fuel c (enc_msg q ++ post) (length (enc_msg q)) edns now sent = Ret (match m_an q with [] => -3 | _ => -5 end, enc_msg q ++ mem', length (enc_msg q)) /\ length mem' = length post.
Proof. apply fetch_not_cached. Qed.
Print Assumptions C63_not_cached.

(** Whatever is in the cache: a query whose questions and answers take more than what is left of the buffer behind it is copied beyond the end of the buffer. *)
Lemma fetch_overflow raw ignore c now q stack nf fuel post edns sent : good_msg q -> m_qs q <> [] -> Forall is_byte post -> (length (enc_msg q ++ post) <= fuel)%nat -> (length post < length (enc_msg (stripped q)))%nat ->
  fetch raw ignore nf stack fuel c (enc_msg q ++ post) (length (enc_msg q)) edns now sent = UBW.
Proof.
  intros Hg Hq Hp Hfu Hl. pose proof Hg as (Hid & _). pose proof (items_bytes q Hid) as Hib. rewrite app_length in Hfu. unfold fetch.
  destruct (parser_init_some (length (enc_msg q)) ltac:(lia)) as (x & ->).
  assert (HsM : skipn (length (enc_msg q)) (enc_msg q ++ post) = post) by (rewrite skipn_app, skipn_all, Nat.sub_diag; reflexivity). rewrite HsM.
  destruct (msg_counts q post Hg) as (E4 & E6 & E8 & E10). unfold gen_init_copy. unfold rd16 at 1 2 3 4. rewrite E4, E6, E8, E10. cbn [bind].
  rewrite (striped_length_ok q post fuel Hg Hq Hp ltac:(lia)). cbn [bind].
  set (n := (12 + qs_len (m_qs q) + rrs_len (m_an q))%nat). destruct (Z.of_nat n <? 0) eqn:E0; [lia|]. rewrite Nat2Z.id.
  assert (Hn : length (enc_msg (stripped q)) = n).
  { rewrite enc_msg_length by exact Hid. unfold n, qs_len, rrs_len, stripped. cbn [m_qs m_an m_ns m_ar map concat length]. lia. }
  assert (Hle : (n <= length (enc_msg q))%nat).
  { rewrite enc_msg_length by exact Hid. unfold n, qs_len, rrs_len. lia. }
  unfold rdn. destruct (slice (enc_msg q ++ post) 0 n) as [bytes|] eqn:Es.
  - apply slice_length in Es. cbn [bind]. unfold bwrite, write. destruct (Nat.leb_spec (0 + length bytes) (length post)); [lia|reflexivity].
  - exfalso. unfold slice in Es. rewrite app_length in Es. destruct (Nat.leb_spec (0 + n) (length (enc_msg q) + length post)); [discriminate|lia].
Qed.
Theorem C63_long_query_refuted raw ignore c now stack nf edns sent : exists q post, good_msg q /\ Forall is_byte post /\ length (m_qs q) = 1%nat /\ (length (enc_msg q ++ post) = 3700)%nat /\
  forall fuel, (3700 <= fuel)%nat -> fetch raw ignore nf stack fuel c (enc_msg q ++ post) (length (enc_msg q)) edns now sent = UBW.
Proof.
  set (q := mk_msg [7; 7; 1; 0] [mk_q (plain [[97]]) 1 1] [mk_rr (plain [[97]]) 16 1 0 (repeat 65 2000)] [] []).
  assert (Hq : length (enc_msg q) = 2032%nat) by reflexivity. set (post := repeat 0 1668).
  assert (Hpost : Forall is_byte post) by (apply Forall_forall; intros x Hx; apply repeat_spec in Hx; subst x; unfold is_byte; lia).
  assert (Hlp : length post = 1668%nat) by (apply repeat_length).
  assert (Hgood : good_msg q).
  { unfold good_msg, q. cbn [m_idflags m_qs m_an m_ns m_ar]. split; [reflexivity|]. split; [repeat constructor; unfold is_byte; lia|].
    assert (Hn : good_name (plain [[97]])) by (apply name_ok_good, name_ok_a).
    split; [constructor; [|constructor]; split; [exact Hn|cbn; lia]|]. split; [|repeat split; try constructor; cbn [length]; lia].
    constructor; [|constructor]. split; [exact Hn|]. cbn [Parser_Spec.r_type Parser_Spec.r_class Parser_Spec.r_ttl Parser_Spec.r_data]. rewrite repeat_length. repeat split; try lia.
    apply Forall_forall. intros x Hx. apply repeat_spec in Hx. subst x. unfold is_byte. lia. }
  assert (Hl : length (enc_msg q ++ post) = 3700%nat) by (rewrite app_length, Hq, Hlp; reflexivity).
  exists q, post. split; [exact Hgood|]. split; [exact Hpost|]. split; [reflexivity|]. split; [exact Hl|]. intros fuel Hf.
  apply (fetch_overflow raw ignore c now q stack nf fuel post edns sent Hgood); [discriminate|exact Hpost|rewrite Hl; exact Hf|].
  change (stripped q) with q. rewrite Hq, Hlp. apply Nat.leb_le. reflexivity.
Qed.
Print Assumptions C63_long_query_refuted.

(** * Examples *)
Definition fx_get (o : outcome (Z * list Z * nat)) : Z * list Z := match o with Ret (e, m, n) => (e, firstn n m) | _ => (99, []) end.
(** w.e is an alias of c.e, which has two addresses. *)
Definition fx_ops : list op := [OAdd None (mk_rec [119; 46; 101] 5 1 300 [99; 46; 101; 0]) 1000; OAdd None (mk_rec [99; 46; 101] 1 1 60 [1; 2; 3; 4]) 1000; OAdd None (mk_rec [99; 46; 101] 1 1 50 [5; 6; 7; 8]) 1005].
Definition fx_cache : cache := final (cache_init 0 0) (run no_raw false false no_rule (cache_init 500 7) fx_ops).
Definition fx_A : list entry := [mk_entry [99; 46; 101] 1 1 [5; 6; 7; 8] 50 1005; mk_entry [99; 46; 101] 1 1 [1; 2; 3; 4] 60 1000; mk_entry [119; 46; 101] 5 1 [99; 46; 101; 0] 300 1000].
Definition fx_q : message := mk_msg [18; 52; 1; 32] [mk_q (plain [[119]; [101]]) 1 1] [] [] [opt_record].
Definition fx_als : list rr := [mk_rr (plain [[119]; [101]]) 5 1 290 (wire [[99]; [101]])].
Definition fx_rs : list rr := [mk_rr (plain [[99]; [101]]) 1 1 45 [5; 6; 7; 8]; mk_rr (plain [[99]; [101]]) 1 1 50 [1; 2; 3; 4]].
Lemma fx_name a b : (0 < a < 256 /\ a <> 46) -> (0 < b < 256 /\ b <> 46) -> name_ok [[a]; [b]].
Proof. intros Ha Hb. constructor; [|constructor; [|constructor]]; (split; [cbn; lia|]); constructor; try constructor; try lia. Qed.
Example C63_nonvacuous : sized 500 7 /\ Forall op_ok fx_ops /\ Forall op_wire_ok fx_ops /\ run no_raw false false no_rule (cache_init 500 7) fx_ops = Ret fx_cache /\ clock 0 fx_ops /\ last_time 0 fx_ops <= 1010 /\
  a_run false false no_rule [] fx_ops fx_A /\ answers false fx_A 1010 [[119]; [101]] 1 fx_als fx_rs /\ (length (enc_msg (full_reply fx_q true (fx_als ++ fx_rs))) <= 100)%nat /\
  fx_get (fetch no_raw false 50 (repeat 0 254) 200 fx_cache (enc_msg fx_q ++ repeat 0 100) (length (enc_msg fx_q)) true 1010 true) =
  (0, [18; 52; 129; 160; 0; 1; 0; 3; 0; 0; 0; 1; 1; 119; 1; 101; 0; 0; 1; 0; 1;
       192; 12; 0; 5; 0; 1; 0; 0; 1; 34; 0; 5; 1; 99; 1; 101; 0;
       192; 33; 0; 1; 0; 1; 0; 0; 0; 45; 0; 4; 5; 6; 7; 8;
       192; 33; 0; 1; 0; 1; 0; 0; 0; 50; 0; 4; 1; 2; 3; 4;
       0; 0; 41; 5; 0; 0; 0; 0; 0; 0; 0]).
Proof.
  assert (Hce : wire_data 5 [99; 46; 101; 0] (wire [[99]; [101]])).
  { apply (wd_name 5 [[99]; [101]]); [cbn; auto|apply fx_name; lia|discriminate|cbn; lia]. }
  assert (Hip : forall a b c d, 0 <= a < 256 -> 0 <= b < 256 -> 0 <= c < 256 -> 0 <= d < 256 -> wire_data 1 [a; b; c; d] [a; b; c; d]).
  { intros. apply wd_raw; [cbn; auto|]. repeat (constructor; [unfold is_byte; lia|]). constructor. }
  split; [unfold sized, header_size, slot_size; lia|]. split; [repeat constructor; cbn; intuition discriminate|].
  split; [constructor; [eexists; exact Hce|]; constructor; [eexists; apply Hip; lia|]; constructor; [eexists; apply Hip; lia|constructor]|].
  split; [vm_compute; reflexivity|]. split; [cbn; lia|]. split; [cbn; lia|]. split.
  { eapply ar_add; [apply aa_stored; [split; [discriminate|vm_compute; lia]|intros e []|vm_compute; discriminate]|].
    eapply ar_add; [apply aa_stored; [split; [discriminate|vm_compute; lia]| |vm_compute; discriminate]|].
    { intros e [<-|[]] X. vm_compute in X. discriminate. }
    eapply ar_add; [apply aa_stored; [split; [discriminate|vm_compute; lia]| |vm_compute; discriminate]|].
    { intros e [<-|[<-|[]]] X; [|vm_compute in X; discriminate]. intros (y & Y). discriminate Y. }
    apply ar_nil. }
  split.
  { exists [[99]; [101]]. split.
    - change (1 =? 5) with false. cbv iota. eapply al_step with (e := mk_entry [119; 46; 101] 5 1 [99; 46; 101; 0] 300 1000); [reflexivity|exact Hce|apply fx_name; lia|reflexivity|]. apply al_end. reflexivity.
    - cbn. constructor; [|constructor; [|constructor]]; (repeat split; cbn; apply Hip; lia). }
  split; [cbn; lia|]. vm_compute. reflexivity.
Qed.

(** * What is not so *)
Definition walk_types (m : list Z) : list Z :=
  match iter_init m P_unknown 0 0 0 with Ret i => match walk (S (length m)) m (Z.of_nat (length m)) i with Ret vs => map v_type vs | _ => [] end | _ => [] end.
Lemma view_types p rs : forall o, map v_type (view_rrs p o rs) = map Parser_Spec.r_type rs.
Proof. induction rs as [|r rs IH]; intros o; [reflexivity|]. cbn [view_rrs map v_type]. now rewrite IH. Qed.
Lemma view_q_types qs : forall o, map v_type (view_qs o qs) = map q_type qs.
Proof. induction qs as [|r rs IH]; intros o; [reflexivity|]. cbn [view_qs map v_type]. now rewrite IH. Qed.
Lemma walk_types_ok g : good_msg g -> m_qs g <> [] ->
  walk_types (enc_msg g) = map q_type (m_qs g) ++ map Parser_Spec.r_type (m_an g) ++ map Parser_Spec.r_type (m_ns g) ++ map Parser_Spec.r_type (m_ar g).
Proof.
  intros Hg Hq. destruct (C07_walk_exact_partial g [] P_unknown 0 0 0 Hg ltac:(constructor) Hq) as (i & HI & HW). rewrite app_nil_r in *. unfold walk_types. rewrite HI, HW; [| |lia].
  - unfold view_msg. cbv zeta. rewrite !map_app, !view_types, view_q_types. reflexivity.
  - pose proof Hg as (Hid & _). pose proof (items_bytes g Hid) as Hib. rewrite items_length in Hib.
    assert (HL : length (view_msg g) = length (map v_type (view_msg g))) by (now rewrite map_length). rewrite HL. unfold view_msg. cbv zeta. rewrite !map_app, !view_types, view_q_types, !app_length, !map_length. lia.
Qed.

(** A question for name servers: the name servers a.e and b.e of e come as aliases. *)
Definition ns_ops : list op := [OAdd None (mk_rec [101] 2 1 300 [97; 46; 101; 0]) 1000; OAdd None (mk_rec [101] 2 1 300 [98; 46; 101; 0]) 1000].
Definition ns_cache : cache := final (cache_init 0 0) (run no_raw false false no_rule (cache_init 500 7) ns_ops).
Definition ns_q : message := mk_msg [18; 52; 1; 0] [mk_q (plain [[101]]) 2 1] [] [] [].
Theorem C63_ns_refuted : exists ops c q sent, sized 500 7 /\ Forall op_ok ops /\ Forall op_wire_ok ops /\ run no_raw false false no_rule (cache_init 500 7) ops = Ret c /\ good_msg q /\
  map q_type (m_qs q) = [2] /\ fx_get (fetch no_raw false 50 (repeat 0 254) 200 c (enc_msg q ++ repeat 0 100) (length (enc_msg q)) false 1010 true) = (0, sent) /\
  forall g rs, enc_msg g = sent -> is_reply q false rs g -> map Parser_Spec.r_type rs = [5; 5].
Proof.
  exists ns_ops, ns_cache, ns_q. eexists. split; [unfold sized, header_size, slot_size; lia|]. split; [repeat constructor; cbn; intuition discriminate|].
  split; [constructor; [|constructor; [|constructor]]; eexists; [apply (wd_name 2 [[97]; [101]])|apply (wd_name 2 [[98]; [101]])]; try (cbn; tauto); try (apply fx_name; lia); try discriminate; cbn; lia|].
  split; [vm_compute; reflexivity|]. split.
  { unfold good_msg, ns_q. cbn [m_idflags m_qs m_an m_ns m_ar]. split; [reflexivity|]. split; [repeat (constructor; [unfold is_byte; lia|]); constructor|]. split; [|repeat split; try constructor; cbn [length]; lia].
    constructor; [|constructor]. split; [|cbn; lia]. apply name_ok_good. constructor; [|constructor]. split; [cbn; lia|]. constructor; [lia|constructor]. }
  split; [reflexivity|]. split; [vm_compute; reflexivity|]. intros g rs Hs (Hg & _ & Hq & Hn & Ha & HF & _).
  assert (HW := walk_types_ok g Hg ltac:(rewrite Hq; discriminate)). rewrite Hs, Hq, Hn, Ha in HW. match type of HW with ?l = _ => assert (HC : l = [2; 5; 5]) by (vm_compute; reflexivity); rewrite HC in HW end.
  cbn [map app q_type ns_q m_qs] in HW. injection HW as HW. rewrite app_nil_r in HW.
  assert (HE : map Parser_Spec.r_type rs = map Parser_Spec.r_type (m_an g)).
  { clear - HF. induction HF as [|r r' rs rs' (H1 & _) HF IH]; [reflexivity|]. cbn [map]. congruence. }
  rewrite HE. symmetry. exact HW.
Qed.
Print Assumptions C63_ns_refuted.

(** Mail exchangers of e, seventeen of them with names of 240 bytes, and a query with an OPT record: the one that does not fit is left unfinished in the reply, and the OPT record comes after it. *)
Definition big_name (k : Z) : list (list Z) := [repeat 97 60; repeat 98 60; repeat 99 60; k :: repeat 100 55].
Definition big_ops : list op := map (fun k => OAdd None (mk_rec [101] 15 1 300 ([0; 10] ++ dotted (big_name k) ++ [0])) 1000) (map (fun i => Z.of_nat (97 + i)) (seq 0 17)).
Definition big_cache : cache := final (cache_init 0 0) (run no_raw false false no_rule (cache_init (Z.to_nat 8000) 7) big_ops).
Definition big_q : message := mk_msg [18; 52; 1; 0] [mk_q (plain [[101]]) 15 1] [] [] [opt_record].
Definition big_reply := fx_get (fetch no_raw false 50 (repeat 0 254) (Z.to_nat 4000) big_cache (enc_msg big_q ++ repeat 0 (Z.to_nat 3670)) (length (enc_msg big_q)) true 1010 true).
Lemma big_name_ok k : 0 < k < 256 /\ k <> 46 -> name_ok (big_name k) /\ (length (dotted (big_name k)) <= 253)%nat.
Proof.
  intros Hk. assert (HR : forall x n, 0 < x < 256 /\ x <> 46 -> Forall (fun c => 0 < c < 256 /\ c <> 46) (repeat x n)) by (intros x n Hx; apply Forall_forall; intros c Hc; apply repeat_spec in Hc; subst c; exact Hx).
  split; [|cbn; lia]. unfold big_name. do 3 (constructor; [split; [cbn; lia|]; apply HR; lia|]). constructor; [|constructor]. split; [cbn; lia|]. constructor; [exact Hk|]. apply HR; lia.
Qed.
Theorem C63_does_not_fit_refuted : exists ops c q sent, sized (Z.to_nat 8000) 7 /\ Forall op_ok ops /\ Forall op_wire_ok ops /\ run no_raw false false no_rule (cache_init (Z.to_nat 8000) 7) ops = Ret c /\ good_msg q /\
  fx_get (fetch no_raw false 50 (repeat 0 254) (Z.to_nat 4000) c (enc_msg q ++ repeat 0 (Z.to_nat 3670)) (length (enc_msg q)) true 1010 true) = (0, sent) /\
  forall g rs, enc_msg g = sent -> ~ is_reply q true rs g.
Proof.
  exists big_ops, big_cache, big_q, (snd big_reply). split; [unfold sized, header_size, slot_size; lia|].
  split; [apply Forall_forall; intros o Ho; unfold big_ops in Ho; apply in_map_iff in Ho; destruct Ho as (k & <- & _); split; [intros [X|[]]; discriminate X|cbn [Cache_Model.r_type Cache_Model.r_class Cache_Model.r_ttl]; lia]|].
  split.
  { apply Forall_forall. intros o Ho. unfold big_ops in Ho. apply in_map_iff in Ho. destruct Ho as (k & <- & Hk). apply in_map_iff in Hk. destruct Hk as (i & <- & Hi). apply in_seq in Hi.
    destruct (big_name_ok (Z.of_nat (97 + i)) ltac:(lia)) as (H1 & H2). eexists. apply (wd_mx 10 (big_name (Z.of_nat (97 + i)))); [lia|exact H1|exact H2]. }
  split; [vm_compute; reflexivity|]. split.
  { unfold good_msg, big_q. cbn [m_idflags m_qs m_an m_ns m_ar]. split; [reflexivity|]. split; [repeat (constructor; [unfold is_byte; lia|]); constructor|]. split.
    - constructor; [|constructor]. split; [|cbn; lia]. apply name_ok_good. constructor; [|constructor]. split; [cbn; lia|]. constructor; [lia|constructor].
    - split; [constructor|]. split; [constructor|]. split; [|cbn [length]; lia]. constructor; [|constructor]. apply (sop_rr_good (SEDns 1280)); [cbn; lia|reflexivity]. }
  split; [vm_compute; reflexivity|]. intros g rs Hs (Hg & _ & Hq & Hn & Ha & HF & _).
  assert (HW := walk_types_ok g Hg ltac:(rewrite Hq; discriminate)). rewrite Hs, Hn, Ha in HW.
  assert (HC : last (walk_types (snd big_reply)) 0 = 15) by (vm_compute; reflexivity). rewrite HW in HC. cbn [map app opt_record Parser_Spec.r_type] in HC. rewrite app_assoc, last_last in HC. discriminate.
Qed.
Print Assumptions C63_does_not_fit_refuted.
