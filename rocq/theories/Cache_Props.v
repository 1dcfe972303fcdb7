(** C12-C16, C19: the cache, for all histories of additions and sweeps of a new cache. *)
From Verif Require Import Base BaseFacts ListFacts List2Facts Hash_Model Sht_Model Sht_Proofs Gen_Model Cht_Model Cht_Proofs Cht_Inv Cache_Model Cache_Spec Cache_Proofs Cache2_Proofs Cache3_Proofs Cache4_Proofs.
From Coq Require Import Permutation.
Require Import ZifyBool ZifyNat.

(** * C12: the memory of the cache *)
(** In any history nothing is written outside of the chunks, no search fails to end, and the only possible read outside of the
    cache's memory (comparing a new record with the last stored one) needs fewer than 128 slots.  Afterwards the header, the
    chunks of all nodes, the nodes and the slots have each their own part of the memory. *)
Theorem C12_memory raw ignore parallel get size slots ops : sized size slots -> Forall op_ok ops ->
  (run raw ignore parallel get (cache_init size slots) ops = UBR /\ (slot_size * slots < 512)%nat) \/
  exists c, run raw ignore parallel get (cache_init size slots) ops = Ret c /\ c_size c = size /\ length (c_slots c) = slots /\
    (forall i n, nth_error (c_nodes c) i = Some n ->
       (128 <= n_off n)%nat /\ (n_off n + n_len n <= c_end c)%nat) /\
    (forall i j n m, nth_error (c_nodes c) i = Some n -> nth_error (c_nodes c) j = Some m -> i <> j ->
       (n_off n + n_len n <= n_off m \/ n_off m + n_len m <= n_off n)%nat) /\
    (c_end c + 32 * length (c_nodes c) + 4 * slots <= size)%nat.
Proof.
  intros (Hs & Hz) Ho. pose proof (init_ok size slots Hs Hz) as H0.
  destruct (run_ok raw ignore parallel get ops _ _ H0 Ho) as [(E & Hl)|(c & A & E & _ & [(L & F & H & HL) He Hc HA] & S1 & S2)].
  - left. split; [exact E|]. cbn [cache_init c_slots] in Hl. rewrite repeat_length in Hl. exact Hl.
  - right. exists c. cbn [cache_init c_slots c_size] in S1, S2. rewrite repeat_length in S2.
    split; [exact E|]. split; [exact S1|]. split; [exact S2|]. split; [|split].
    + intros i n Hn. rewrite He. apply (chunk_end _ _ _ _ i n H Hn).
    + intros i j n m. apply (chunk_disj _ _ _ _ i j n m H).
    + pose proof (v_room _ _ _ _ H) as Hr. rewrite S1, S2 in Hr. unfold node_size, slot_size in Hr. lia.
Qed.
Print Assumptions C12_memory.

(** Every single step: writing a record or a fill or a marker only changes bytes of the chunk concerned; in particular the
    operations do not end in a write outside of the memory.  With at least 128 slots every history ends normally. *)
Theorem C12_no_stray_access raw ignore parallel get size slots ops : sized size slots -> (128 <= slots)%nat -> Forall op_ok ops ->
  exists c, run raw ignore parallel get (cache_init size slots) ops = Ret c.
Proof.
  intros Hs Hl Ho. destruct (C12_memory raw ignore parallel get size slots ops Hs Ho) as [(_ & H)|(c & H & _)]; [unfold slot_size in H; lia|eauto].
Qed.
Print Assumptions C12_no_stray_access.

(** * C13: the index *)
Lemma forall2_holds c L A : (forall i e, In (i, e) L -> exists n, nth_error (c_nodes c) i = Some n /\ live c n e) -> map snd L = map item A -> Forall2 (holds c) (map fst L) A.
Proof.
  revert A. induction L as [|[i e] L IH]; intros [|a A] H E; try discriminate; cbn [map fst snd] in *; constructor.
  - injection E as -> _. destruct (H i (item a) (or_introl eq_refl)) as (n & Hn & [C1 C2 C3 C4 C5 C6]). exists n. cbn [item si_bytes si_ttl si_time] in *. auto.
  - injection E as _ E. apply IH; [|exact E]. intros; apply H; cbn; auto.
Qed.
(** There is a list of records [A] that the operations produce (see [a_run]), each held by its own node [ids]; every node is
    on exactly one chain; the chain of a slot holds exactly the records whose key belongs to the slot; the other nodes are on
    the lists of free chunks, one list for each chunk size. *)
Theorem C13_index raw ignore parallel get size slots ops c : sized size slots -> Forall op_ok ops ->
  run raw ignore parallel get (cache_init size slots) ops = Ret c ->
  exists A ids chains groups, a_run ignore parallel get [] ops A /\ Forall2 (holds c) ids A /\ c_count c = Z.of_nat (length A) /\
    (forall s, (s < slots)%nat -> exists h, nth_error (c_slots c) s = Some h /\ chain c n_next h (chains s)) /\
    (forall i e, In (i, e) (combine ids A) -> In i (chains (slot_of c (triplet (e_name e) (e_type e) (e_class e))))) /\
    Permutation (concat (map chains (seq 0 slots))) ids /\
    chain c n_slot (c_free c) (map (fun g => hd 0%nat g) groups) /\
    (forall g, In g groups -> chain c n_next (Z.of_nat (hd 0%nat g)) g /\ exists k, forall i, In i g -> exists n, nth_error (c_nodes c) i = Some n /\ n_len n = k) /\
    Permutation (ids ++ concat groups) (seq 0 (length (c_nodes c))).
Proof.
  intros (Hs & Hz) Ho E. pose proof (init_ok size slots Hs Hz) as H0.
  destruct (run_ok raw ignore parallel get ops _ _ H0 Ho) as [(E' & _)|(c' & A & E' & Hr & [(L & F & H & HL) He Hc HA] & S1 & S2)]; [congruence|]. assert (c' = c) by congruence. subst c'.
  cbn [cache_init c_slots c_size] in S1, S2. rewrite repeat_length in S2.
  exists A, (map fst L), (bucket c L), (map members F). split; [exact Hr|]. split; [apply forall2_holds; [apply H|exact HL]|]. split; [exact Hc|].
  split; [|split; [|split; [|split; [|split]]]].
  - intros s Hs'. destruct (v_chain _ _ _ _ H s) as (B1 & B2); [lia|]. eexists. split; [exact B1|]. now apply seg_chain.
  - clear - HL HA. revert A HL HA. assert (Hg : forall L0 A, incl L0 L -> map snd L0 = map item A -> Forall wf_entry A -> forall i e, In (i, e) (combine (map fst L0) A) -> In i (bucket c L (slot_of c (triplet (e_name e) (e_type e) (e_class e))))).
    { induction L0 as [|[j f] L0 IH]; intros [|a A] Hi HL HA i e; cbn [map combine In fst snd]; try tauto. injection HL as -> HL. inversion_clear HA as [|? ? HA1 HA2].
      intros [Ei|Hin]; [|eapply IH; eauto; intros x Hx; apply Hi; cbn; auto]. injection Ei as -> ->. apply bucket_in. exists (item e). split; [apply Hi; cbn; auto|]. rewrite item_key by assumption. reflexivity. }
    intros A HL HA. apply Hg; [apply incl_refl|exact HL|exact HA].
  - rewrite buckets_perm. rewrite (filter_ext _ (fun _ => true)).
    + assert (Ef : forall l : list (nat * sitem), filter (fun _ => true) l = l) by (induction l as [|x l IHl]; cbn [filter]; [reflexivity|f_equal; exact IHl]). rewrite Ef. reflexivity.
    + intros p. apply Nat.ltb_lt. rewrite <- S2. apply slot_of_lt. apply H.
  - rewrite map_map. destruct (v_free _ _ _ _ H) as (B1 & B2 & _). rewrite B1. apply seg_chain. exact B2.
  - intros g Hg. apply in_map_iff in Hg. destruct Hg as (x & <- & Hx). destruct (v_free _ _ _ _ H) as (_ & _ & B). destruct (B x Hx) as (B1 & k & B2). split; [apply seg_chain in B1; exact B1|].
    exists k. intros i Hi. specialize (B2 i Hi). destruct (nth_error (c_nodes c) i) as [n|]; [|discriminate]. exists n. cbn in B2. split; [reflexivity|congruence].
  - rewrite <- flat_map_concat_map. apply (v_part _ _ _ _ H).
Qed.
Print Assumptions C13_index.

(** * C14: what a lookup answers *)
(** The clock only matters for the TTL that is given out: with IgnoreTTL there is no condition on it. *)
Lemma history raw ignore parallel get size slots ops c t0 now : sized size slots -> Forall op_ok ops ->
  run raw ignore parallel get (cache_init size slots) ops = Ret c -> clock t0 ops -> last_time t0 ops <= now ->
  exists A, a_run ignore parallel get [] ops A /\ rep c A /\ (ignore = false -> Forall (good now) A).
Proof.
  intros (Hs & Hz) Ho E Hc Hn. pose proof (init_ok size slots Hs Hz) as H0.
  destruct (run_ok raw ignore parallel get ops _ _ H0 Ho) as [(E' & _)|(c' & A & E' & Hr & Hrep & _)]; [congruence|]. assert (c' = c) by congruence. subst c'.
  exists A. split; [exact Hr|]. split; [exact Hrep|]. intros Hi. eapply Forall_impl; [|eapply run_good; eauto]. intros e (G1 & G2). split; [lia|exact G2].
Qed.
Theorem C14_lookup raw ignore parallel get size slots ops c t0 now : sized size slots -> Forall op_ok ops ->
  run raw ignore parallel get (cache_init size slots) ops = Ret c -> clock t0 ops -> last_time t0 ops <= now ->
  exists A, a_run ignore parallel get [] ops A /\
    forall name ty kl g, ~ In 0 name -> 0 <= ty < 65536 -> 0 <= kl < 65536 ->
      get_raw raw ignore c name ty kl now g =
        if Nat.ltb (length (triplet name ty kl)) 264 then serve name ty kl (a_lookup ignore A name ty kl now) (-100) g else Ret (-609, g).
Proof.
  intros Hs Ho E Hc Hn. destruct (history _ _ _ _ _ _ _ _ _ _ Hs Ho E Hc Hn) as (A & Hr & Hrep & Hg). exists A. split; [exact Hr|].
  intros name ty kl g H1 H2 H3. destruct (Nat.ltb_spec (length (triplet name ty kl)) 264) as [Hl|Hl].
  - apply get_raw_ok; assumption.
  - unfold get_raw, key_fits. destruct (Nat.ltb_spec (length (triplet name ty kl)) 264); [lia|reflexivity].
Qed.
Print Assumptions C14_lookup.
(** So only what was stored under the very name, type and class is given out, as it was stored. *)
Theorem C14_only_what_was_stored raw ignore parallel get size slots ops c t0 now : sized size slots -> Forall op_ok ops ->
  run raw ignore parallel get (cache_init size slots) ops = Ret c -> clock t0 ops -> last_time t0 ops <= now ->
  forall name ty kl g, ~ In 0 name -> 0 <= ty < 65536 -> 0 <= kl < 65536 -> (length (triplet name ty kl) < 264)%nat ->
  exists l, get_raw raw ignore c name ty kl now g = serve name ty kl l (-100) g /\
    forall data ttl, In (data, ttl) l -> exists infected r t, In (OAdd infected r t) ops /\ r_name r = name /\ r_type r = ty /\ r_class r = kl /\ r_data r = data.
Proof.
  intros Hs Ho E Hc Hn name ty kl g H1 H2 H3 H4. destruct (C14_lookup raw ignore parallel get size slots ops c t0 now Hs Ho E Hc Hn) as (A & Hr & HA).
  rewrite (HA name ty kl g H1 H2 H3), (proj2 (Nat.ltb_lt _ _) H4). eexists. split; [reflexivity|].
  intros data ttl Hin. unfold a_lookup in Hin. apply in_map_iff in Hin. destruct Hin as (e & Ee & He). injection Ee as <- <-. apply filter_In in He. destruct He as (He & Hq).
  rewrite !andb_true_iff in Hq. destruct Hq as ((Hq & _) & _). apply same_key_iff in Hq. destruct Hq as (Q1 & Q2 & Q3).
  destruct (run_source ignore parallel get ops [] A e Hr He) as [(inf & r & t & I1 & (S1 & S2 & S3 & S4) & _)|(a & [] & _)].
  exists inf, r, t. split; [exact I1|]. repeat split; congruence.
Qed.
Print Assumptions C14_only_what_was_stored.

(** * C15: nothing expired *)
Theorem C15_never_expired raw parallel get size slots ops c t0 now : sized size slots -> Forall op_ok ops ->
  run raw false parallel get (cache_init size slots) ops = Ret c -> clock t0 ops -> last_time t0 ops <= now ->
  forall name ty kl g, ~ In 0 name -> 0 <= ty < 65536 -> 0 <= kl < 65536 -> (length (triplet name ty kl) < 264)%nat ->
  exists l, get_raw raw false c name ty kl now g = serve name ty kl l (-100) g /\
    forall data ttl, In (data, ttl) l -> exists infected r t, In (OAdd infected r t) ops /\
      r_name r = name /\ r_type r = ty /\ r_class r = kl /\ r_data r = data /\
      0 < ttl /\ now + ttl <= t + lifetime (choose_rule get infected (triplet name ty kl)) (r_ttl r).
Proof.
  intros Hs Ho E Hc Hn name ty kl g H1 H2 H3 H4. destruct (history _ _ _ _ _ _ _ _ _ _ Hs Ho E Hc Hn) as (A & Hr & Hrep & Hg).
  rewrite (get_raw_ok raw false c A name ty kl now g Hrep H1 H2 H3 H4 Hg). eexists. split; [reflexivity|].
  intros data ttl Hin. unfold a_lookup in Hin. apply in_map_iff in Hin. destruct Hin as (e & Ee & He). injection Ee as <- <-. apply filter_In in He. destruct He as (He & Hq).
  rewrite !andb_true_iff in Hq. destruct Hq as ((Hq & Hf) & _). apply same_key_iff in Hq. destruct Hq as (Q1 & Q2 & Q3). unfold fresh in Hf. cbn [orb] in Hf.
  destruct (run_origin false parallel get ops [] A t0 e eq_refl Hr Ho Hc (Forall_nil _) He) as [(inf & r & t & I1 & (S1 & S2 & S3 & S4) & _ & Hd)|(a & [] & _)].
  exists inf, r, t. split; [exact I1|]. repeat (split; [congruence|]). unfold remaining. split; [lia|].
  unfold life_of in Hd. replace (triplet name ty kl) with (triplet (r_name r) (r_type r) (r_class r)) by congruence. lia.
Qed.
Print Assumptions C15_never_expired.

(** * C16: the sweep *)
Lemma sweep_lookup A now now' name ty kl : now <= now' -> Forall (good now') A -> a_lookup false (a_sweep A now) name ty kl now' = a_lookup false A name ty kl now'.
Proof.
  intros Hn HA. unfold a_lookup, a_sweep. f_equal. rewrite filter_filter. apply filter_ext_in. intros e He. unfold fresh, expired. cbn [orb].
  rewrite Forall_forall in HA. destruct (HA e He) as (G1 & G2). destruct (same_key name ty kl e); rewrite ?andb_false_r; [|reflexivity]. lia.
Qed.
(** The sweep removes exactly the expired records (and their count), and never changes an answer from then on. *)
Theorem C16_sweep raw parallel get size slots ops c t0 now : sized size slots -> Forall op_ok ops ->
  run raw false parallel get (cache_init size slots) ops = Ret c -> clock t0 ops -> last_time t0 ops <= now ->
  exists A c' ids', a_run false parallel get [] ops A /\ cache_sweep c now = Ret c' /\
    Forall2 (holds c') ids' (filter (fun e => now <? e_time e + e_ttl e) A) /\ NoDup ids' /\
    c_count c' = Z.of_nat (length ids') /\
    forall now' name ty kl g, now <= now' -> ~ In 0 name -> 0 <= ty < 65536 -> 0 <= kl < 65536 ->
      get_raw raw false c' name ty kl now' g = get_raw raw false c name ty kl now' g.
Proof.
  intros Hs Ho E Hc Hn. destruct (history _ _ _ _ _ _ _ _ _ _ Hs Ho E Hc Hn) as (A & Hr & Hrep & Hg). specialize (Hg eq_refl).
  destruct (sweep_ok c A now Hrep) as (c' & E' & Hrep' & _). pose proof Hrep' as [(L & F & H & HL) He Hcnt HA].
  assert (Ef : a_sweep A now = filter (fun e => now <? e_time e + e_ttl e) A).
  { unfold a_sweep. apply filter_ext_in. intros e Hin. rewrite Forall_forall in Hg. destruct (Hg e Hin) as (G1 & G2). unfold expired. lia. }
  exists A, c', (map fst L). split; [exact Hr|]. split; [exact E'|]. rewrite <- Ef. split; [apply forall2_holds; [apply H|exact HL]|].
  split; [pose proof (inv_nodup _ _ _ _ H) as HN; cbn [app] in HN; apply NoDup_app_iff in HN; tauto|].
  split; [rewrite Hcnt, map_length; apply (f_equal (@length _)) in HL; rewrite !map_length in HL; congruence|].
  intros now' name ty kl g Hn' H1 H2 H3. assert (Hg' : Forall (good now') A) by (eapply Forall_impl; [|exact Hg]; intros e (G1 & G2); split; [lia|exact G2]).
  destruct (Nat.ltb_spec (length (triplet name ty kl)) 264) as [Hl|Hl].
  - rewrite (get_raw_ok raw false c A name ty kl now' g Hrep H1 H2 H3 Hl) by auto.
    rewrite (get_raw_ok raw false c' (a_sweep A now) name ty kl now' g Hrep' H1 H2 H3 Hl); [rewrite sweep_lookup by assumption; reflexivity|].
    intros _. rewrite Forall_forall in Hg' |- *. intros e Hin. apply Hg'. unfold a_sweep in Hin. apply filter_In in Hin. tauto.
  - unfold get_raw, key_fits. destruct (Nat.ltb_spec (length (triplet name ty kl)) 264); [lia|reflexivity].
Qed.
Print Assumptions C16_sweep.

(** * C19: a new record is not taken for one that is there *)
(** It holds when no stored record of the same name, type and class has data that is a beginning of the new data, or the
    other way round: then the record is stored, if there is memory, and served with the others.  What is missing: records whose data
    are related in that way, see [C19_prefix_refuted]. *)
Theorem C19_stored_partial raw ignore parallel get size slots ops c : sized size slots -> Forall op_ok ops ->
  run raw ignore parallel get (cache_init size slots) ops = Ret c ->
  exists A, a_run ignore parallel get [] ops A /\
    forall infected r now, rec_ok r -> storable r -> has_room c r ->
      (forall e, In e A -> mates ignore r now e = true -> ~ prefix (r_data r) (e_data e) /\ ~ prefix (e_data e) (r_data r)) ->
      let life := lifetime (choose_rule get infected (triplet (r_name r) (r_type r) (r_class r))) (r_ttl r) in
      exists c', add_item raw ignore parallel get infected c r now = Ret (0, c') /\
        (life <> 0 -> let t := a_min ignore parallel A r now life in
           exists ids, Forall2 (holds c') ids (mk_entry (r_name r) (r_type r) (r_class r) (r_data r) t now :: a_level ignore parallel A r now t)).
Proof.
  intros (Hs & Hz) Ho E. pose proof (init_ok size slots Hs Hz) as H0.
  destruct (run_ok raw ignore parallel get ops _ _ H0 Ho) as [(E' & _)|(c0 & A & E' & Hr & Hrep & _)]; [congruence|]. assert (c0 = c) by congruence. subst c0.
  exists A. split; [exact Hr|]. intros infected r now Hok Hst Hroom Hno life.
  destruct (add_ok raw ignore parallel get c A infected r now Hrep Hok) as [(_ & _ & a & Ha & Hm & Hp)|(code & c' & A' & Ea & Hadd & Hrep' & _ & _ & Hfull)]; [exfalso; destruct (Hno a Ha Hm); tauto|].
  fold life in Hadd. destruct Hrep' as [(L & F & H & HL) _ _ _]. pose proof (forall2_holds c' L A' (v_live _ _ _ _ H) HL) as Hh.
  destruct Hadd as [code Hns _|e _ He Hm Hp|_ _ Hl|_ _ Hl|_ _ Hl t].
  - tauto.
  - exfalso. destruct (Hno e He Hm). tauto.
  - exists c'. split; [exact Ea|]. tauto.
  - exfalso. exact (Hfull eq_refl Hst Hroom).
  - exists c'. split; [exact Ea|]. intros _. cbn zeta. fold t. eauto.
Qed.
Print Assumptions C19_stored_partial.
(** For the types whose data have a fixed size (addresses) only the very same record counts as present. *)
Theorem C19_same_length raw ignore parallel get size slots ops c : sized size slots -> Forall op_ok ops ->
  run raw ignore parallel get (cache_init size slots) ops = Ret c ->
  exists A, a_run ignore parallel get [] ops A /\
    forall infected r now, rec_ok r -> storable r -> has_room c r ->
      (forall e, In e A -> same_key (r_name r) (r_type r) (r_class r) e = true -> length (e_data e) = length (r_data r)) ->
      (exists e, In e A /\ mates ignore r now e = true /\ e_data e = r_data r) \/
      lifetime (choose_rule get infected (triplet (r_name r) (r_type r) (r_class r))) (r_ttl r) = 0 \/
      exists c' t rest ids, add_item raw ignore parallel get infected c r now = Ret (0, c') /\
        Forall2 (holds c') ids (mk_entry (r_name r) (r_type r) (r_class r) (r_data r) t now :: rest).
Proof.
  intros Hs Ho E. destruct (C19_stored_partial raw ignore parallel get size slots ops c Hs Ho E) as (A & Hr & HA). exists A. split; [exact Hr|].
  intros infected r now Hok Hst Hroom Hlen. destruct (existsb (fun e => mates ignore r now e && (if list_eq_dec Z.eq_dec (e_data e) (r_data r) then true else false)) A) eqn:Ex.
  - left. apply existsb_exists in Ex. destruct Ex as (e & He & Hq). apply andb_true_iff in Hq. destruct Hq as (Hq1 & Hq2). exists e. destruct (list_eq_dec Z.eq_dec (e_data e) (r_data r)); [auto|discriminate].
  - right. destruct (Z.eq_dec (lifetime (choose_rule get infected (triplet (r_name r) (r_type r) (r_class r))) (r_ttl r)) 0) as [Hl|Hl]; [auto|]. right.
    destruct (HA infected r now Hok Hst Hroom) as (c' & E1 & Hx).
    + intros e He Hm. assert (Hne : e_data e <> r_data r).
      { intros Heq. assert (existsb (fun e => mates ignore r now e && (if list_eq_dec Z.eq_dec (e_data e) (r_data r) then true else false)) A = true); [|congruence].
        apply existsb_exists. exists e. split; [exact He|]. rewrite Hm. destruct (list_eq_dec Z.eq_dec (e_data e) (r_data r)); [reflexivity|tauto]. }
      assert (Hl' : length (e_data e) = length (r_data r)) by (apply Hlen; [exact He|]; unfold mates in Hm; apply andb_true_iff in Hm; tauto).
      split; intros (z & Ez); apply Hne; rewrite Ez in *; rewrite app_length in Hl'; (destruct z; [|cbn [length] in Hl'; lia]); rewrite app_nil_r; reflexivity.
    + specialize (Hx Hl). cbn zeta in Hx. destruct Hx as (ids & Hx). eauto 10.
Qed.
Print Assumptions C19_same_length.

(** "a.b" TXT "\1xy" after "a.b" TXT "\2xy...": data "\5hello\3abc" is stored, a new record "\5hello" is taken for it. *)
Definition wit_long : crec := mk_rec [97; 46; 98] 16 1 300 [5; 104; 101; 108; 108; 111; 3; 97; 98; 99].
Definition wit_short : crec := mk_rec [97; 46; 98] 16 1 300 [5; 104; 101; 108; 108; 111].
Definition no_raw : list Z -> list cnode -> nat -> Z := fun _ _ _ => 0.
Definition no_rule : list Z -> option ctrl := fun _ => None.
Definition final {A} (d : A) (o : outcome A) : A := match o with Ret a => a | _ => d end.
Definition wit_cache : cache := final (cache_init 0 0) (run no_raw false false no_rule (cache_init 400 7) [OAdd None wit_long 1000]).
Definition wit_cache' : cache := snd (final (0, cache_init 0 0) (add_item no_raw false false no_rule None wit_cache wit_short 1001)).
Theorem C19_prefix_refuted : exists ops c r c',
  run no_raw false false no_rule (cache_init 400 7) ops = Ret c /\ rec_ok r /\ storable r /\ has_room c r /\
  (forall infected r' t, In (OAdd infected r' t) ops -> r_data r' <> r_data r) /\
  add_item no_raw false false no_rule None c r 1001 = Ret (0, c') /\
  forall g, get_raw no_raw false c' (r_name r) (r_type r) (r_class r) 1001 g = serve (r_name r) (r_type r) (r_class r) [(r_data wit_long, 299)] (-100) g.
Proof.
  assert (E1 : run no_raw false false no_rule (cache_init 400 7) [OAdd None wit_long 1000] = Ret wit_cache) by (vm_compute; reflexivity).
  assert (E2 : add_item no_raw false false no_rule None wit_cache wit_short 1001 = Ret (0, wit_cache')) by (vm_compute; reflexivity).
  assert (E3 : wit_cache' = wit_cache) by (vm_compute; reflexivity).
  exists [OAdd None wit_long 1000], wit_cache, wit_short, wit_cache'. split; [exact E1|]. split; [vm_compute; intuition discriminate|].
  split; [split; [discriminate|vm_compute; lia]|]. split; [vm_compute; lia|]. split; [|split; [exact E2|]].
  - intros infected r' t [H|[]]. injection H as <- <- <-. discriminate.
  - rewrite E3. intros g.
    assert (H0 : rep (cache_init 400 7) []) by (apply init_ok; unfold header_size, slot_size; lia).
    assert (Ho : Forall op_ok [OAdd None wit_long 1000]) by (repeat constructor; cbn; intuition discriminate).
    destruct (run_ok no_raw false false no_rule _ _ _ H0 Ho) as [(E & _)|(c1 & A & E & Hr & Hrep & _)]; [congruence|].
    assert (Ec : c1 = wit_cache) by congruence. subst c1.
    assert (HA : A = [mk_entry [97; 46; 98] 16 1 (r_data wit_long) 300 1000]).
    { apply run_inv in Hr. destruct Hr as (code & A1 & Ha & Hr). apply run_nil in Hr. subst A. destruct Ha as [code Hns _|e _ [] _ _|_ _ Hl|_ _ Hl|_ _ Hl t].
      - exfalso. apply Hns. split; [discriminate|vm_compute; lia].
      - discriminate.
      - destruct Hrep as [_ _ Hcnt _]. vm_compute in Hcnt. discriminate.
      - reflexivity. }
    rewrite (get_raw_ok no_raw false wit_cache A _ _ _ 1001 g Hrep); [rewrite HA; reflexivity|cbn; intuition discriminate|cbn; lia|cbn; lia|vm_compute; lia|].
    intros _. rewrite HA. repeat constructor; cbn; lia.
Qed.
Print Assumptions C19_prefix_refuted.

(** * The hypotheses of these theorems are met *)
Definition ex_a (d : Z) (ttl : Z) : crec := mk_rec [97; 46; 98] 1 1 ttl [10; 0; 0; d].
Definition ex_ops : list op :=
  [OAdd None (ex_a 1 300) 1000; OAdd None wit_long 1000; OAdd None (ex_a 2 60) 1010; OAdd None (ex_a 1 300) 1020; OSweep 1075; OAdd None (mk_rec [99] 1 1 5 [1; 2; 3; 4]) 1080].
Definition ex_cache : cache := final (cache_init 0 0) (run no_raw false true no_rule (cache_init 500 7) ex_ops).
Example C12_C16_nonvacuous : sized 500 7 /\ Forall op_ok ex_ops /\ clock 0 ex_ops /\ last_time 0 ex_ops <= 1081 /\
  run no_raw false true no_rule (cache_init 500 7) ex_ops = Ret ex_cache /\ c_count ex_cache = 2 /\ length (c_nodes ex_cache) = 2%nat /\
  match get_raw no_raw false ex_cache [99] 1 1 1081 (mk_gen (repeat 0 60) 12 6) with Ret (0, g) => g_itr g = 29%nat | _ => False end.
Proof.
  split; [unfold sized, header_size, slot_size; lia|]. split; [repeat constructor; cbn; intuition discriminate|]. split; [cbn; lia|]. split; [cbn; lia|].
  split; [vm_compute; reflexivity|]. vm_compute. auto.
Qed.
(** A record that C19_stored_partial is about. *)
Example C19_nonvacuous : rec_ok (ex_a 3 60) /\ storable (ex_a 3 60) /\ has_room wit_cache (ex_a 3 60).
Proof. split; [vm_compute; intuition discriminate|]. split; [split; [discriminate|vm_compute; lia]|vm_compute; lia]. Qed.
