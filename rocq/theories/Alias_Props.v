(** C18: answering a question from the cache. *)
From Verif Require Import Base BaseFacts ListFacts List2Facts Hash_Model Sht_Model Sht_Proofs Parser_Model Gen_Model Gen_Proofs Cht_Model Cht_Proofs Cht_Inv Cache_Model Cache_Spec Cache_Proofs Cache2_Proofs Cache3_Proofs Cache4_Proofs Cache_Props Alias_Spec Alias_Proofs.
Require Import ZifyBool ZifyNat.

Lemma started_inv g : started g -> ginv g.
Proof. intros (H1 & H2). constructor; [exact H1|]. unfold num_ok. cbn [In] in H2. intuition auto. Qed.
Lemma run_data ignore parallel get ops A : a_run ignore parallel get [] ops A -> Forall op_data_ok ops -> Forall (fun e => data_ok (e_type e) (e_data e)) A.
Proof.
  intros Hr Ho. rewrite Forall_forall in *. intros e He. destruct (run_source ignore parallel get ops [] A e Hr He) as [(inf & r & t & I1 & (S1 & S2 & S3 & S4) & _)|(a & [] & _)].
  specialize (Ho _ I1). cbn [op_data_ok] in Ho. rewrite S2, S4. exact Ho.
Qed.
Lemma valid_type_iff ty : valid_type ty = true <-> In ty [1; 2; 5; 12; 15; 16; 28; 65].
Proof. unfold valid_type. cbn [In]. lia. Qed.
Lemma triplet_len name ty : In ty [1; 2; 5; 12; 15; 16; 28; 65] -> (length (triplet name ty 1) <= length name + 5)%nat.
Proof. intros H. unfold triplet. rewrite app_length. cbn [In] in H. assert (Z.of_nat (length (32 :: hex ty ++ 32 :: hex 1)) <= 5); [|lia]. repeat (destruct H as [<-|H]; [vm_compute; discriminate|]). contradiction. Qed.

Lemma question_answered raw ignore c A now : rep c A -> Forall (fun e => data_ok (e_type e) (e_data e)) A -> (ignore = false -> Forall (good now) A) ->
    forall fuel name ty kl g, ~ In 0 name -> (length name <= 253)%nat -> started g -> (length (g_buf g) <= fuel)%nat ->
      (kl <> 1 \/ ~ In ty [1; 2; 5; 12; 15; 16; 28; 65] -> by_question raw ignore fuel c name ty kl now g = Ret (-4, g)) /\
      (kl = 1 -> In ty [1; 2; 5; 12; 15; 16; 28; 65] ->
       exists e name' g', (ty = 5 -> e = 0 /\ name' = name /\ g' = g) /\ (ty <> 5 -> follow ignore A now name g e name' g') /\ started g' /\ length (g_buf g') = length (g_buf g) /\
         by_question raw ignore fuel c name ty kl now g =
           if e =? 0 then let! y := serve name' ty 1 (a_lookup ignore A name' ty 1 now) (-100) g' in Ret (if fst y =? 0 then 0 else -6, snd y)
           else Ret (e, g')).
Proof.
  intros Hrep HD Hg fuel name ty kl g H1 H2 H3 H4. unfold by_question. split.
  - intros Hx. assert (Eb : negb (kl =? 1) || negb (valid_type ty) = true); [|rewrite Eb; reflexivity]. destruct Hx as [Hx|Hx]; [lia|]. rewrite <- valid_type_iff in Hx. destruct (valid_type ty); [tauto|]. apply orb_true_r.
  - intros -> Hty. assert (Ev : valid_type ty = true) by (apply valid_type_iff; exact Hty). rewrite Ev. change (1 =? 1) with true. cbn [negb orb].
    assert (Htr : forall n, (length n <= 253)%nat -> (length (triplet n ty 1) < 264)%nat) by (intros n Hln; pose proof (triplet_len n ty Hty); lia).
    assert (Htb : 0 <= ty < 65536) by (cbn [In] in Hty; lia).
    pose proof (started_inv g H3) as HG. destruct (Z.eqb_spec ty 5) as [->|H5].
    + exists 0, name, g. split; [auto|]. split; [congruence|]. split; [exact H3|]. split; [reflexivity|]. cbn [bind]. change (0 =? 0) with true. cbn [negb].
      rewrite (get_raw_ok raw ignore c A name 5 1 now g Hrep H1 Htb ltac:(lia) (Htr name H2) Hg).
      destruct (serve name 5 1 (a_lookup ignore A name 5 1 now) (-100) g) as [[e2 g2]| | |]; reflexivity.
    + destruct (alias_loop_ok raw ignore c A now Hrep HD Hg fuel name g H1 H2 HG) as (code & name' & g' & Ea & Hf & (K1 & K2 & K3) & N1 & N2).
      { pose proof (gi_len g HG). lia. }
      exists code, name', g'. split; [congruence|]. split; [auto|]. split; [split; [apply K1|]; pose proof (gi_num _ K1) as Hnum; unfold num_ok in Hnum; cbn [In]; intuition auto|]. split; [exact K2|].
      rewrite Ea. cbn [bind]. destruct (Z.eqb_spec code 0) as [->|Hcode]; cbn [negb]; [|reflexivity].
      rewrite (get_raw_ok raw ignore c A name' ty 1 now g' Hrep N1 Htb ltac:(lia) (Htr name' N2) Hg).
      destruct (serve name' ty 1 (a_lookup ignore A name' ty 1 now) (-100) g') as [[e2 g2]| | |]; reflexivity.
Qed.
(** Whatever aliases the cache holds - loops included - and whatever the size of the buffer: the answer is made in at most as
    many rounds as the buffer has bytes; the aliases go into the answer one after the other, then the records of the last name. *)
Theorem C18_answer raw ignore parallel get size slots ops c t0 now : sized size slots -> Forall op_ok ops -> Forall op_data_ok ops ->
  run raw ignore parallel get (cache_init size slots) ops = Ret c -> clock t0 ops -> last_time t0 ops <= now ->
  exists A, a_run ignore parallel get [] ops A /\
    forall fuel name ty kl g, ~ In 0 name -> (length name <= 253)%nat -> started g -> (length (g_buf g) <= fuel)%nat ->
      (kl <> 1 \/ ~ In ty [1; 2; 5; 12; 15; 16; 28; 65] -> by_question raw ignore fuel c name ty kl now g = Ret (-4, g)) /\
      (kl = 1 -> In ty [1; 2; 5; 12; 15; 16; 28; 65] ->
       exists e name' g', (ty = 5 -> e = 0 /\ name' = name /\ g' = g) /\ (ty <> 5 -> follow ignore A now name g e name' g') /\ started g' /\ length (g_buf g') = length (g_buf g) /\
         by_question raw ignore fuel c name ty kl now g =
           if e =? 0 then let! y := serve name' ty 1 (a_lookup ignore A name' ty 1 now) (-100) g' in Ret (if fst y =? 0 then 0 else -6, snd y)
           else Ret (e, g')).
Proof.
  intros Hs Ho Hd E Hc Hn. destruct (history _ _ _ _ _ _ _ _ _ _ Hs Ho E Hc Hn) as (A & Hr & Hrep & Hg). exists A. split; [exact Hr|].
  exact (question_answered raw ignore c A now Hrep (run_data _ _ _ _ _ Hr Hd) Hg).
Qed.
Print Assumptions C18_answer.

(** It always ends, without reading anything that is not there; whatever is written outside of the answer buffer is the data of an A,
    AAAA, HTTPS or TXT record whose name and fixed part still fit.  Otherwise the buffer keeps its size and the position stays inside. *)
Theorem C18_terminates raw ignore parallel get size slots ops c t0 now : sized size slots -> Forall op_ok ops -> Forall op_data_ok ops ->
  run raw ignore parallel get (cache_init size slots) ops = Ret c -> clock t0 ops -> last_time t0 ops <= now ->
  forall fuel name ty kl g, ~ In 0 name -> (length name <= 253)%nat -> started g -> (length (g_buf g) <= fuel)%nat ->
  (exists code g', by_question raw ignore fuel c name ty kl now g = Ret (code, g') /\ length (g_buf g') = length (g_buf g) /\ started g') \/
  (by_question raw ignore fuel c name ty kl now g = UBW /\ raw_type ty /\
     exists infected r t itr name', In (OAdd infected r t) ops /\ r_type r = ty /\ r_name r = name' /\ (g_itr g <= itr)%nat /\
       Z.of_nat itr + label_length name' + 10 <= Z.of_nat (length (g_buf g)) < Z.of_nat itr + label_length name' + 10 + Z.of_nat (length (r_data r))).
Proof.
  intros Hs Ho Hd E Hc Hn fuel name ty kl g H1 H2 H3 H4. destruct (C18_answer raw ignore parallel get size slots ops c t0 now Hs Ho Hd E Hc Hn) as (A & Hr & HA).
  pose proof (run_data _ _ _ _ _ Hr Hd) as HD. destruct (HA fuel name ty kl g H1 H2 H3 H4) as (HB & HC).
  assert (Hcase : (kl <> 1 \/ ~ In ty [1; 2; 5; 12; 15; 16; 28; 65]) \/ (kl = 1 /\ In ty [1; 2; 5; 12; 15; 16; 28; 65])).
  { destruct (Z.eq_dec kl 1); [|auto]. destruct (in_dec Z.eq_dec ty [1; 2; 5; 12; 15; 16; 28; 65]); auto. }
  destruct Hcase as [Hx|(Hk & Hty)]; [left; rewrite (HB Hx); eauto|]. destruct (HC Hk Hty) as (e & name' & g' & Hi5 & Hn5 & Hst & Hlen & ->).
  assert (Hkeep : ginv g' /\ (g_itr g <= g_itr g')%nat).
  { split; [apply started_inv, Hst|]. destruct (Z.eq_dec ty 5) as [E5|N5]; [destruct (Hi5 E5) as (_ & _ & ->); lia|]. pose proof (started_inv g H3) as HG0. specialize (Hn5 N5). clear - Hn5 HG0.
    induction Hn5 as [| name g e s g1 code name' g' _ _ Eg _ IH|name g e s code g1 _ _ Eg _]; [lia| |].
    - destruct (gen_cname_fits [97] s (remaining ignore now e) g HG0) as (c & g2 & Eg2 & (K1 & K2 & K3) & _). rewrite Eg in Eg2. injection Eg2 as <- <-. specialize (IH K1). lia.
    - destruct (gen_cname_fits [97] s (remaining ignore now e) g HG0) as (c & g2 & Eg2 & (K1 & K2 & K3) & _). rewrite Eg in Eg2. injection Eg2 as <- <-. lia. }
  destruct Hkeep as (HG' & Hle). destruct (Z.eqb_spec e 0); [|left; eauto].
  destruct (serve_ok name' ty 1 (a_lookup ignore A name' ty 1 now) (-100) g' HG') as [(code & g2 & Es & (K1 & K2 & K3))|(Es & Hraw & d & t & itr & Hin & Hi & Hl)].
  - intros d t Hin. unfold a_lookup in Hin. apply in_map_iff in Hin. destruct Hin as (x & Ex & Hx). injection Ex as <- <-. apply filter_In in Hx. destruct Hx as (Hx & Hq). rewrite !andb_true_iff in Hq. destruct Hq as ((Hq & _) & _).
    apply same_key_iff in Hq. destruct Hq as (_ & <- & _). rewrite Forall_forall in HD. apply HD, Hx.
  - left. rewrite Es. cbn [bind fst snd]. eexists _, g2. split; [reflexivity|]. split; [congruence|]. split; [apply K1|]. pose proof (gi_num _ K1) as Hnum. unfold num_ok in Hnum. cbn [In]. intuition auto.
  - right. rewrite Es. split; [reflexivity|]. split; [exact Hraw|]. unfold a_lookup in Hin. apply in_map_iff in Hin. destruct Hin as (x & Ex & Hx). injection Ex as <- <-. apply filter_In in Hx. destruct Hx as (Hx & Hq). rewrite !andb_true_iff in Hq. destruct Hq as ((Hq & _) & _).
    apply same_key_iff in Hq. destruct Hq as (Q1 & Q2 & _). destruct (run_source ignore parallel get ops [] A x Hr Hx) as [(inf & r & t' & I1 & (S1 & S2 & S3 & S4) & _)|(a & [] & _)].
    exists inf, r, t', itr, name'. rewrite <- S4, <- Hlen. split; [exact I1|]. split; [congruence|]. split; [congruence|]. split; [lia|]. exact Hl.
Qed.
Print Assumptions C18_terminates.

(** So nothing is written outside of the buffer for questions of the other types.  What is missing is the case of
    [C18_overflow_refuted]. *)
Theorem C18_within_buffer_partial raw ignore parallel get size slots ops c t0 now : sized size slots -> Forall op_ok ops -> Forall op_data_ok ops ->
  run raw ignore parallel get (cache_init size slots) ops = Ret c -> clock t0 ops -> last_time t0 ops <= now ->
  forall fuel name ty kl g, ~ In 0 name -> (length name <= 253)%nat -> started g -> (length (g_buf g) <= fuel)%nat -> ~ raw_type ty ->
  by_question raw ignore fuel c name ty kl now g <> UBW.
Proof.
  intros Hs Ho Hd E Hc Hn fuel name ty kl g H1 H2 H3 H4 H5.
  destruct (C18_terminates raw ignore parallel get size slots ops c t0 now Hs Ho Hd E Hc Hn fuel name ty kl g H1 H2 H3 H4) as [(code & g' & -> & _)|(_ & Hr & _)]; [discriminate|contradiction].
Qed.
Print Assumptions C18_within_buffer_partial.

(** A cached TXT record of 10 bytes and a buffer that ends within its data. *)
Theorem C18_overflow_refuted : exists ops c g, sized 400 7 /\ Forall op_ok ops /\ Forall op_data_ok ops /\ run no_raw false false no_rule (cache_init 400 7) ops = Ret c /\ started g /\
  by_question no_raw false (length (g_buf g)) c [97; 46; 98] 16 1 1001 g = UBW.
Proof.
  assert (E : run no_raw false false no_rule (cache_init 400 7) [OAdd None wit_long 1000] = Ret wit_cache) by (vm_compute; reflexivity).
  exists [OAdd None wit_long 1000], wit_cache, (mk_gen (repeat 0 50) 26 6). split; [unfold sized, header_size, slot_size; lia|]. split; [repeat constructor; cbn; intuition discriminate|].
  split; [repeat constructor; cbn; intuition discriminate|]. split; [exact E|]. split; [split; cbn; auto; lia|]. vm_compute. reflexivity.
Qed.
Print Assumptions C18_overflow_refuted.

(** * A loop of aliases: a -> b -> a; the answer ends when the buffer is full. *)
Definition loop_ops : list op := [OAdd None (mk_rec [97] 5 1 300 [98; 0]) 1000; OAdd None (mk_rec [98] 5 1 300 [97; 0]) 1000].
Definition loop_cache : cache := final (cache_init 0 0) (run no_raw false false no_rule (cache_init 500 7) loop_ops).
Example C18_nonvacuous : sized 500 7 /\ Forall op_ok loop_ops /\ Forall op_data_ok loop_ops /\ clock 0 loop_ops /\ last_time 0 loop_ops <= 1001 /\
  run no_raw false false no_rule (cache_init 500 7) loop_ops = Ret loop_cache /\ started (mk_gen (repeat 0 100) 12 6) /\
  match by_question no_raw false 100 loop_cache [97] 1 1 1001 (mk_gen (repeat 0 100) 12 6) with Ret (c, g) => c = -5 /\ g_itr g = 99%nat | _ => False end.
Proof.
  split; [unfold sized, header_size, slot_size; lia|]. split; [repeat constructor; cbn; intuition discriminate|].
  assert (Ht : forall x, x <> 0 -> text_data [x; 0]) by (intros x Hx; exists [x]; cbn; intuition (try discriminate; lia)).
  split; [constructor; [|constructor; [|constructor]]; (split; [intros _; apply Ht; discriminate|intros X; discriminate X])|].
  split; [cbn; lia|]. split; [cbn; lia|]. split; [vm_compute; reflexivity|]. split; [split; cbn; auto; lia|]. vm_compute. auto.
Qed.
