(** C61: what is cached from responses.  C62: the log line of an answer. *)
From Coq Require Import String.
From Verif Require Import Base BaseFacts List2Facts Hash_Model Name_Model Name_Spec Name_Proofs Gen_Model Slist_Model Addr_Model Cht_Model Cache_Model Cache_Spec Cache_Props Alias_Spec Alias_Props Rdata_Model Parser_Model Parser_Spec Parser_Proofs Parser_Walk Iheader_Spec Iheader_Proofs Rdata_Spec Rdata_Proofs Rdata2_Proofs Rdata3_Proofs.
Require Import ZifyBool ZifyNat.

(** * C61: a response adds exactly its records *)
(** A well-formed response whose names can be read: each of its records of class IN and a cached type, of all sections and in
    their order, is stored once, under its own name, type, class and TTL, with its own data (the text of the name for records that hold a name) -
    unless it is neither the first response nor CacheParallel is set: then nothing changes. *)
Theorem C61_stored_partial raw ignore parallel get g recs p : response_ok p -> p_msg p = g -> Forall2 (stored_as g) (to_cache g) recs ->
  exists f0, forall nf fuel c, (f0 <= nf)%nat -> (f0 <= fuel)%nat ->
    do_event raw ignore parallel get nf fuel c (Got p) =
      if p_first p || parallel
      then run raw ignore parallel get c (map (fun x => OAdd (get (p_domain p)) (snd x) (p_clk p (fst (fst (fst x))))) (combine (to_cache g) recs))
      else Ret c.
Proof.
  intros (H1 & H2 & _ & H3 & H4 & H5) <- HR.
  destruct (items_stored raw ignore parallel get (p_msg p) (p_post p) (p_host p) (p_buf p) (p_clk p) H4 H5 (get (p_domain p)) recs H1 H2 H3 HR) as (f0 & H).
  exists (Nat.max f0 (S (length (items_of (p_msg p))))). intros nf fuel c Hn Hf. cbn [do_event]. rewrite (H nf fuel (p_first p) (p_domain p) c ltac:(lia) ltac:(lia) eq_refl).
  destruct (p_first p), parallel; cbn [negb andb orb bind snd]; try reflexivity; unfold add_op; destruct (run _ _ _ _ _ _); reflexivity.
Qed.
Print Assumptions C61_stored_partial.

(** What [stored_as] requires of a record determines it. *)
Theorem C61_stored_unique g x rec rec' : stored_as g x rec -> stored_as g x rec' -> rec = rec'.
Proof.
  assert (HN : forall o t t', name_text g o t -> name_text g o t' -> t = t').
  { intros o t t' (ls & w & D & _ & B) (ls' & w' & D' & _ & B'). destruct (denotes_fun 63 _ _ _ _ _ _ ltac:(lia) D D') as (<- & <-). rewrite <- (cstr_before _ [] _ B). exact (cstr_before _ [] _ B'). }
  destruct x as [[z o] r]. intros (n & d & N & D & ->) (n' & d' & N' & D' & ->). rewrite (HN _ _ _ N N'). f_equal.
  destruct D as [HT|t HT Ht|a b q t HT Hd Hq Ht]; destruct D' as [HT'|t' HT' Ht'|a' b' q' t' HT' Hd' Hq' Ht']; try reflexivity; try (cbn [In] in *; exfalso; lia).
  - now rewrite (HN _ _ _ Ht Ht').
  - rewrite Hd in Hd'. assert (a = a' /\ b = b') as (-> & ->) by (split; congruence). now rewrite (HN _ _ _ Ht Ht').
Qed.
Print Assumptions C61_stored_unique.

(** ** Histories *)
Lemma run_app' raw ignore parallel get ops ops' c : run raw ignore parallel get c (ops ++ ops') = let! c' := run raw ignore parallel get c ops in run raw ignore parallel get c' ops'.
Proof. revert c. induction ops as [|o ops IH]; intros c; cbn [app run bind]; [reflexivity|]. destruct (run_op raw ignore parallel get c o); cbn [bind]; [apply IH|reflexivity..]. Qed.
(** The operation [o] stores a record of one of the responses. *)
Definition from_event (parallel : bool) (get : list Z -> option ctrl) (es : list event) (o : op) : Prop :=
  match o with
  | OAdd inf rec t => exists p z off r, In (Got p) es /\ p_first p || parallel = true /\ In (z, off, r) (to_cache (p_msg p)) /\ stored_as (p_msg p) (z, off, r) rec /\ inf = get (p_domain p) /\ t = p_clk p z
  | OSweep _ => True
  end.
Lemma from_event_cons parallel get es e o : from_event parallel get es o -> from_event parallel get (e :: es) o.
Proof. destruct o; cbn [from_event]; [|auto]. intros (p & z & off & r0 & H & H'). exists p, z, off, r0. split; [now right|exact H']. Qed.
Lemma events_ops raw ignore parallel get es : Forall event_ok es -> exists ops f0,
  Forall (from_event parallel get es) ops /\ map op_time ops = flat_map (event_times parallel) es /\
  forall nf fuel c, (f0 <= nf)%nat -> (f0 <= fuel)%nat -> do_events raw ignore parallel get nf fuel c es = run raw ignore parallel get c ops.
Proof.
  induction es as [|e es IH]; intros HF; [exists [], 0%nat; split; [constructor|]; split; reflexivity|]. inversion_clear HF as [|? ? He HF'].
  destruct (IH HF') as (ops & f1 & I1 & I2 & I3).
  assert (HE : exists ops1 f2, Forall (from_event parallel get [e]) ops1 /\ map op_time ops1 = event_times parallel e /\
     forall nf fuel c, (f2 <= nf)%nat -> (f2 <= fuel)%nat -> do_event raw ignore parallel get nf fuel c e = run raw ignore parallel get c ops1).
  { destruct e as [p|now].
    - cbn [event_ok] in He. pose proof He as (_ & _ & (recs & HR) & _). destruct (C61_stored_partial raw ignore parallel get _ recs p He eq_refl HR) as (f0 & H). cbn [event_times].
      destruct (p_first p || parallel) eqn:E.
      + eexists _, f0. split; [|split; [|exact H]].
        * apply Forall_forall. intros o Ho. apply in_map_iff in Ho. destruct Ho as ([[[z off] r] rec] & <- & Hi). cbn [from_event fst snd]. exists p, z, off, r. split; [now left|]. split; [exact E|].
          split; [exact (in_combine_l _ _ _ _ Hi)|]. split; [|auto]. clear - HR Hi. revert Hi. induction HR as [|x y l l' Hxy HR IHR]; cbn [combine In]; [tauto|]. intros [Eq|Hi]; [|auto].
          assert (x = (z, off, r) /\ y = rec) as (-> & ->) by (split; congruence). exact Hxy.
        * rewrite map_map. cbn [op_time]. clear - HR. induction HR as [|x y l l' Hxy HR IHR]; cbn [combine map fst]; [reflexivity|]. now rewrite IHR.
      + exists [], f0. split; [constructor|]. split; [reflexivity|]. exact H.
    - exists [OSweep now], 0%nat. split; [repeat constructor|]. split; [reflexivity|]. intros nf fuel c _ _. cbn [do_event run run_op]. destruct (cache_sweep c now); reflexivity. }
  destruct HE as (ops1 & f2 & E1 & E2 & E3). exists (ops1 ++ ops), (Nat.max f1 f2). split; [|split].
  - apply Forall_app. split; [|eapply Forall_impl; [intros o; apply from_event_cons|exact I1]]. eapply Forall_impl; [|exact E1]. intros o. destruct o as [inf rec t|]; cbn [from_event]; [|auto].
    intros (p & z & off & r0 & [H|[]] & H'). exists p, z, off, r0. split; [now left|exact H'].
  - rewrite map_app, E2, I2. reflexivity.
  - intros nf fuel c Hn Hf. cbn [do_events]. rewrite (E3 nf fuel c ltac:(lia) ltac:(lia)), run_app'. destruct (run raw ignore parallel get c ops1); cbn [bind]; [apply I3; lia|reflexivity..].
Qed.
Lemma ascending_clock ops : forall t now, ascending t (map op_time ops) now -> clock t ops /\ last_time t ops <= now.
Proof.
  induction ops as [|o ops IH]; intros t now H; cbn [map ascending] in H; [split; [exact I|exact H]|]. destruct H as (H & H'). destruct (IH _ _ H') as (C & L). split; [split; [exact H|exact C]|exact L].
Qed.
Lemma stored_rec_ok g o r rec z : good_msg g -> In (z, o, r) (records g) -> stored_as g (z, o, r) rec -> rec_ok rec.
Proof.
  intros Hg Hin (name & d & HN & _ & ->). destruct (name_text_len _ _ _ HN) as (_ & H0).
  assert (HR : good_rr r).
  { assert (HL : forall rs k p, In (z, o, r) (located k p rs) -> In r rs). { induction rs as [|x rs IH]; intros k p; cbn [located In]; [tauto|]. intros [E|H]; [left; congruence|right; eauto]. }
    apply HL in Hin. pose proof (good_items g Hg) as HG. rewrite items_split, items_rest, Forall_forall in HG. rewrite !in_app_iff in Hin.
    assert (exists p, In (IR p r) (map IQ (m_qs g) ++ map (IR P_answer) (m_an g) ++ map (IR P_nameserver) (m_ns g) ++ map (IR P_additional) (m_ar g))) as (p & Hp).
    { destruct Hin as [H|[H|H]]; eexists; rewrite !in_app_iff, !in_map_iff; [right; left|right; right; left|right; right; right]; exists r; split; try exact H; reflexivity. }
    exact (proj1 (HG _ Hp)). }
  destruct HR as (G1 & G2 & G3 & G4 & _). unfold rec_ok. cbn [Cache_Model.r_name Cache_Model.r_type Cache_Model.r_class Cache_Model.r_ttl]. repeat split; auto; lia.
Qed.

(** After any history of well-formed responses and removals, from an empty cache: every record that is given out for a name and a type
    is a record of one of the responses, which had that very name and type, with that very data.  And, unless IgnoreTTL is set, what
    remains of its lifetime is positive and ends when the lifetime from its arrival on ends. *)
Theorem C61_served_was_received_partial raw ignore parallel get size slots es t0 now : sized size slots -> (128 <= slots)%nat -> Forall event_ok es ->
  ascending t0 (flat_map (event_times parallel) es) now ->
  exists f0, forall nf fuel, (f0 <= nf)%nat -> (f0 <= fuel)%nat -> exists c, do_events raw ignore parallel get nf fuel (cache_init size slots) es = Ret c /\
    forall name ty kl g, ~ In 0 name -> 0 <= ty < 65536 -> 0 <= kl < 65536 -> (length (triplet name ty kl) < 264)%nat ->
    exists l, get_raw raw ignore c name ty kl now g = serve name ty kl l (-100) g /\
      forall data ttl, In (data, ttl) l -> exists p z off r, In (Got p) es /\ In (z, off, r) (to_cache (p_msg p)) /\
        name_text (p_msg p) off name /\ r_type r = ty /\ r_class r = kl /\ stored_data (p_msg p) off r data /\
        (ignore = false -> 0 < ttl /\ now + ttl <= p_clk p z + lifetime (choose_rule get (get (p_domain p)) (triplet name ty kl)) (r_ttl r)).
Proof.
  intros Hs Hl HF HA. destruct (events_ops raw ignore parallel get es HF) as (ops & f0 & H1 & H2 & H3). exists f0. intros nf fuel Hn Hf. rewrite (H3 nf fuel _ Hn Hf).
  rewrite <- H2 in HA. apply ascending_clock in HA. destruct HA as (HC & HT).
  assert (HO : Forall op_ok ops).
  { eapply Forall_impl; [|exact H1]. intros [inf rec t|]; cbn [from_event op_ok]; [|auto]. intros (p & z & off & r & I1 & _ & I3 & I4 & _). rewrite Forall_forall in HF. specialize (HF _ I1). cbn [event_ok] in HF.
    apply (stored_rec_ok (p_msg p) off r rec z); [apply HF| |exact I4]. unfold to_cache in I3. apply filter_In in I3. apply I3. }
  destruct (C12_no_stray_access raw ignore parallel get size slots ops Hs Hl HO) as (c & Ec). exists c. split; [exact Ec|]. intros name ty kl g N1 N2 N3 N4.
  assert (HFE : forall inf rec t, In (OAdd inf rec t) ops -> from_event parallel get es (OAdd inf rec t)) by (intros inf rec t Hi; rewrite Forall_forall in H1; apply (H1 _ Hi)).
  assert (HK : forall inf rec t data, In (OAdd inf rec t) ops -> Cache_Model.r_name rec = name -> Cache_Model.r_type rec = ty -> Cache_Model.r_class rec = kl -> Cache_Model.r_data rec = data ->
     exists p z off r, In (Got p) es /\ In (z, off, r) (to_cache (p_msg p)) /\ name_text (p_msg p) off name /\ r_type r = ty /\ r_class r = kl /\ stored_data (p_msg p) off r data /\
       inf = get (p_domain p) /\ t = p_clk p z /\ Cache_Model.r_ttl rec = r_ttl r).
  { intros inf rec t data Hi E1 E2 E3 E4. destruct (HFE _ _ _ Hi) as (p & z & off & r & I1 & I2 & I3 & (n & d & S1 & S2 & S3) & I5 & I6). rewrite S3 in E1, E2, E3, E4 |- *.
    cbn [Cache_Model.r_name Cache_Model.r_type Cache_Model.r_class Cache_Model.r_data Cache_Model.r_ttl] in *. exists p, z, off, r. split; [exact I1|]. split; [exact I3|]. split; [now rewrite <- E1|]. split; [exact E2|].
    split; [unfold to_cache in I3; apply filter_In in I3; destruct I3 as (_ & I3); unfold cacheable in I3; cbn [snd] in I3; lia|]. split; [now rewrite <- E4|]. auto. }
  destruct ignore.
  - destruct (C14_only_what_was_stored raw true parallel get size slots ops c t0 now Hs HO Ec HC HT name ty kl g N1 N2 N3 N4) as (l & El & Hl'). exists l. split; [exact El|].
    intros data ttl Hi. destruct (Hl' data ttl Hi) as (inf & rec & t & J1 & J2 & J3 & J4 & J5). destruct (HK inf rec t data J1 J2 J3 J4 J5) as (p & z & off & r & K1 & K2 & K3 & K4 & K5 & K6 & _).
    exists p, z, off, r. split; [exact K1|]. split; [exact K2|]. split; [exact K3|]. split; [exact K4|]. split; [exact K5|]. split; [exact K6|]. discriminate.
  - destruct (C15_never_expired raw parallel get size slots ops c t0 now Hs HO Ec HC HT name ty kl g N1 N2 N3 N4) as (l & El & Hl'). exists l. split; [exact El|].
    intros data ttl Hi. destruct (Hl' data ttl Hi) as (inf & rec & t & J1 & J2 & J3 & J4 & J5 & J6 & J7). destruct (HK inf rec t data J1 J2 J3 J4 J5) as (p & z & off & r & K1 & K2 & K3 & K4 & K5 & K6 & K7 & K8 & K9).
    exists p, z, off, r. split; [exact K1|]. split; [exact K2|]. split; [exact K3|]. split; [exact K4|]. split; [exact K5|]. split; [exact K6|]. intros _. split; [exact J6|]. rewrite <- K7, <- K8, <- K9. exact J7.
Qed.
Print Assumptions C61_served_was_received_partial.

(** ** Packets that are not well formed *)
(** The bytes of the packets are arbitrary.  A packet only ever adds records as the cache expects them, and never writes outside of
    the arrays; but it may make the program read outside of the packet or the cache, or not end (see C01). *)
Theorem C61_any_packet raw ignore parallel get nf fuel host buf clk first m len domain c : Forall is_byte m -> length host = 254%nat -> length buf = 512%nat ->
  exists ops, Forall packet_op ops /\ (ops <> [] -> first || parallel = true) /\
    let r := packet_event raw ignore parallel get nf fuel host buf clk first m len domain c in
    r = run raw ignore parallel get c ops \/ r = UBR \/ r = Fuel.
Proof.
  intros HF Hh Hb. unfold packet_event, add_items. destruct (negb first && negb parallel) eqn:EF.
  - exists []. split; [constructor|]. split; [congruence|]. left. reflexivity.
  - assert (EO : first || parallel = true) by (destruct first, parallel; try discriminate; reflexivity). destruct (parser_init len false).
    + assert (HI : iter_init m P_unknown 0 0 0 <> UBW /\ True). { split; [|exact I]. unfold iter_init, rd16. repeat (destruct (get16 _ _); cbn [bind]; try discriminate). }
      destruct (iter_init m P_unknown 0 0 0) as [i| | |] eqn:EI; cbn [bind]; [|exists []; repeat split; auto; congruence|destruct HI; congruence|exists []; repeat split; auto; congruence].
      destruct (add_loop_ok raw ignore parallel get nf host buf clk m len (get domain) HF Hh Hb fuel i c) as (ops & Ho & HL). exists ops. split; [exact Ho|]. split; [auto|].
      destruct HL as [->|[->| ->]]; cbn [bind]; [left; destruct (run raw ignore parallel get c ops); reflexivity|auto|auto].
    + exists []. split; [constructor|]. split; [congruence|]. left. reflexivity.
Qed.
Print Assumptions C61_any_packet.

(** * A response with an answer of each kind, and an OPT record that is not cached *)
Definition q_ab := mk_q (mk_ename [[97]; [98]] None) 1 1.
Definition ptr12 := mk_ename [] (Some (192, 12)).
Definition ex61 : message := mk_msg [1; 2; 129; 128] [q_ab]
  [mk_rr ptr12 5 1 60 [1; 99; 192; 14]; mk_rr (mk_ename [[99]] (Some (192, 14))) 1 1 60 [10; 0; 0; 1]; mk_rr ptr12 6 1 60 [0; 0]] [mk_rr ptr12 2 3 60 [0]]
  [mk_rr ptr12 15 1 90 [0; 10; 1; 109; 192; 12]; mk_rr (mk_ename [] None) 41 1280 0 []].
Definition resp61 (first : bool) : response := mk_response first ex61 [7; 7] [97; 46; 98] (fun k => 1000 + k) (repeat 1 254) (repeat 1 512).
Definition recs61 : list crec := [mk_rec [97; 46; 98] 5 1 60 [99; 46; 98; 0]; mk_rec [99; 46; 98] 1 1 60 [10; 0; 0; 1]; mk_rec [97; 46; 98] 15 1 90 [0; 10; 109; 46; 97; 46; 98; 0]].
Ltac good_ex := unfold good_msg, good_q, good_rr, good_name, is_byte; cbn; repeat split; auto; repeat constructor; cbn; lia.
Lemma text_ex g o ls w : denotes 63 (enc_msg g) o ls w -> (length (dotted ls) <= 253)%nat -> ~ In 0 (dotted ls) -> name_text g o (dotted ls).
Proof. intros H1 H2 H3. exists ls, w. split; [exact H1|]. split; [exact H2|]. split; [exact H3|]. now left. Qed.
Ltac lab n := eapply (D_label _ _ _ n); [vm_compute; reflexivity|lia|vm_compute; reflexivity|].
Ltac ptr := eapply D_ptr; [vm_compute; reflexivity|vm_compute; reflexivity|lia|lia|]; cbn [Z.to_nat].
Ltac root := apply D_root; vm_compute; reflexivity.
Lemma den_ab : denotes 63 (enc_msg ex61) 12 [[97]; [98]] 5.
Proof. lab 1%nat. lab 1%nat. root. Qed.
Lemma den_b : denotes 63 (enc_msg ex61) 14 [[98]] 3.
Proof. lab 1%nat. root. Qed.
Lemma resp61_ok first : response_ok (resp61 first) /\ Forall2 (stored_as ex61) (to_cache ex61) recs61.
Proof.
  assert (HR : Forall2 (stored_as ex61) (to_cache ex61) recs61).
  { assert (E : to_cache ex61 = [(2, 21%nat, mk_rr ptr12 5 1 60 [1; 99; 192; 14]); (3, 37%nat, mk_rr (mk_ename [[99]] (Some (192, 14))) 1 1 60 [10; 0; 0; 1]); (6, 82%nat, mk_rr ptr12 15 1 90 [0; 10; 1; 109; 192; 12])]) by (vm_compute; reflexivity).
    rewrite E. constructor; [|constructor; [|constructor; [|constructor]]].
    - exists [97; 46; 98], [99; 46; 98; 0]. split; [|split; [|reflexivity]].
      + apply (text_ex ex61 21 [[97]; [98]] 2); [|cbn; lia|cbn; intuition discriminate]. ptr. exact den_ab.
      + apply (sd_name _ _ _ [99; 46; 98]); [cbn; auto|]. apply (text_ex ex61 33 [[99]; [98]] 4); [|cbn; lia|cbn; intuition discriminate]. lab 1%nat. ptr. exact den_b.
    - exists [99; 46; 98], [10; 0; 0; 1]. split; [|split; [|reflexivity]].
      + apply (text_ex ex61 37 [[99]; [98]] 4); [|cbn; lia|cbn; intuition discriminate]. lab 1%nat. ptr. exact den_b.
      + apply (sd_raw ex61 37 (mk_rr (mk_ename [[99]] (Some (192, 14))) 1 1 60 [10; 0; 0; 1])). cbn; auto.
    - exists [97; 46; 98], [0; 10; 109; 46; 97; 46; 98; 0]. split; [|split; [|reflexivity]].
      + apply (text_ex ex61 82 [[97]; [98]] 2); [|cbn; lia|cbn; intuition discriminate]. ptr. exact den_ab.
      + apply (sd_mx _ _ _ 0 10 [1; 109; 192; 12] [109; 46; 97; 46; 98]); [reflexivity|reflexivity|discriminate|].
        apply (text_ex ex61 96 [[109]; [97]; [98]] 4); [|cbn; lia|cbn; intuition discriminate]. lab 1%nat. ptr. exact den_ab. }
  split; [|exact HR]. split; [good_ex|]. split; [discriminate|]. split; [exists recs61; exact HR|]. split; [repeat constructor; unfold is_byte; lia|]. split; reflexivity.
Qed.
(** The response is cached, the name's alias and its address are served, with two seconds less. *)
Example C61_nonvacuous : sized 2000 128 /\ Forall event_ok [Got (resp61 true); Got (resp61 false); Swept 1007] /\
  ascending 0 (flat_map (event_times false) [Got (resp61 true); Got (resp61 false); Swept 1007]) 1007 /\
  match do_events no_raw false false no_rule 30 30 (cache_init 2000 128) [Got (resp61 true); Got (resp61 false); Swept 1007] with
  | Ret c => c_count c = 3 /\ forall g, get_raw no_raw false c [97; 46; 98] 15 1 1008 g = serve [97; 46; 98] 15 1 [([0; 10; 109; 46; 97; 46; 98; 0], 88)] (-100) g
  | _ => False
  end.
Proof.
  split; [unfold sized, header_size, slot_size; lia|]. split; [constructor; [apply resp61_ok|constructor; [apply resp61_ok|constructor; [exact I|constructor]]]|]. split; [vm_compute; repeat split; discriminate|].
  set (c := do_events no_raw false false no_rule 30 30 (cache_init 2000 128) _). vm_compute in c. subst c. cbv iota. split; [reflexivity|]. intros g. vm_compute. reflexivity.
Qed.

(** The general statement is false.  (1) An MX record without an exchanger (RDLENGTH 2) is stored with its two bytes only; answering an MX question from it then
    looks for a name behind them, outside of what is stored. *)
Definition ex_mx : message := mk_msg [1; 2; 129; 128] [mk_q (mk_ename [[97]; [98]] None) 15 1] [mk_rr ptr12 15 1 90 [0; 10]] [] [].
Definition resp_mx : response := mk_response true ex_mx [] [97; 46; 98] (fun k => 1000) (repeat 1 254) (repeat 1 512).
Theorem C61_short_mx_refuted : exists g, good_msg g /\ m_an g = [mk_rr ptr12 15 1 90 [0; 10]] /\ p_msg resp_mx = g /\
  exists c g0, do_event no_raw false false no_rule 30 30 (cache_init 2000 128) (Got resp_mx) = Ret c /\ started g0 /\
    by_question no_raw false 100 c [97; 46; 98] 15 1 1001 g0 = UBR.
Proof.
  exists ex_mx. split; [good_ex|]. split; [reflexivity|]. split; [reflexivity|].
  set (o := do_event no_raw false false no_rule 30 30 (cache_init 2000 128) (Got resp_mx)). vm_compute in o. subst o. eexists _, (mk_gen (repeat 0 100) 12 6). split; [reflexivity|].
  split; [split; cbn; auto; lia|]. vm_compute. reflexivity.
Qed.
Print Assumptions C61_short_mx_refuted.

(** (2) A record whose data would go on behind the end of the packet is stored with the bytes that are in the buffer there, from an earlier packet. *)
Definition cut_txt : list Z := [1; 2; 129; 128; 0; 1; 0; 1; 0; 0; 0; 0; 1; 97; 0; 0; 16; 0; 1; 192; 12; 0; 16; 0; 1; 0; 0; 0; 60; 0; 4; 3; 120].
Definition cut_cache (more : list Z) : outcome cache :=
  packet_event no_raw false false no_rule 30 30 (repeat 1 254) (repeat 1 512) (fun _ => 1000) true (cut_txt ++ more) (length cut_txt) [97] (cache_init 2000 128).
Theorem C61_beyond_packet_refuted : exists c c', cut_cache [121; 122] = Ret c /\ cut_cache [11; 12] = Ret c' /\
  (forall g, get_raw no_raw false c [97] 16 1 1000 g = serve [97] 16 1 [([3; 120; 121; 122], 60)] (-100) g) /\
  (forall g, get_raw no_raw false c' [97] 16 1 1000 g = serve [97] 16 1 [([3; 120; 11; 12], 60)] (-100) g).
Proof.
  set (o := cut_cache [121; 122]). vm_compute in o. subst o. set (o := cut_cache [11; 12]). vm_compute in o. subst o. eexists _, _. split; [reflexivity|]. split; [reflexivity|].
  split; intros g; vm_compute; reflexivity.
Qed.
Print Assumptions C61_beyond_packet_refuted.

(** * C62: the list of a message for the log *)
(** Whatever the packet is, with fewer than 100000 records counted in its header: nothing is written outside of the buffer, which has a terminated text
    afterwards: a line for each value of the records, then, if the others cannot be shown, how many there are of them. *)
Theorem C62_in_buffer_partial nf fuel m len host b rest total : Forall is_byte m -> length host = 254%nat -> b = 0 :: rest -> (22 < length b)%nat ->
  (exists an ns ar, get16 m 6 = Some an /\ get16 m 8 = Some ns /\ get16 m 10 = Some ar /\ total = an + ns + ar) -> total < 100000 ->
  match get_all_answers nf m len host fuel b with
  | Ret b' => length b' = length b /\ exists text rest', b' = text ++ 0 :: rest' /\ ~ In 0 text /\ listing total text
  | UBW => False
  | UBR | Fuel => True
  end.
Proof.
  intros HF Hh Eb Hl (an & ns & ar & E6 & E8 & E10 & Et) Ht. unfold get_all_answers. destruct (Nat.leb_spec (length b) 22); [lia|].
  destruct (parser_init len false); [|split; [reflexivity|]; exists [], rest; split; [exact Eb|]; split; [auto|]; right; exists []; split; [constructor|now left]].
  unfold rd16. rewrite E6, E8, E10. cbn [bind]. destruct (get16 m 4) as [qd|] eqn:E4; unfold iter_init, rd16; rewrite E4; cbn [bind]; [|exact I]. rewrite E6, E8, E10. cbn [bind]. rewrite <- Et.
  assert (R4 : 0 <= qd < 65536) by (apply (rd16_range m 4); [exact HF|unfold rd16; rewrite E4; reflexivity]).
  assert (R6 : 0 <= an < 65536) by (apply (rd16_range m 6); [exact HF|unfold rd16; rewrite E6; reflexivity]).
  assert (R8 : 0 <= ns < 65536) by (apply (rd16_range m 8); [exact HF|unfold rd16; rewrite E8; reflexivity]).
  assert (R10 : 0 <= ar < 65536) by (apply (rd16_range m 10); [exact HF|unfold rd16; rewrite E10; reflexivity]).
  set (i0 := mk_iter _ _ _ _ _ _ _ _ _ _ _ _ _ _ _).
  assert (HB : exists b0 t r0, (if total =? 0 then bwrite b 0 (txt "   Nothing."%string ++ [10; 0]) else Ret b) = Ret b0 /\ b0 = t ++ 0 :: r0 /\ length b0 = length b /\ (t = [] \/ total = 0 /\ t = nothing)).
  { destruct (Z.eqb_spec total 0) as [E0|E0].
    - rewrite bwrite_at0 by (cbn; lia). eexists _, nothing, _. split; [reflexivity|]. split; [reflexivity|]. split; [|right; auto]. rewrite app_length, skipn_length. cbn in *. lia.
    - exists b, [], rest. split; [reflexivity|]. split; [exact Eb|]. split; [reflexivity|now left]. }
  destruct HB as (b0 & t & r0 & EB & Eb0 & Lb0 & Htt). rewrite EB. cbn [bind].
  assert (HG : goto_answers fuel m (Z.of_nat len) i0 <> UBW /\ forall i', goto_answers fuel m (Z.of_nat len) i0 = Ret i' -> counted qd i' total).
  { assert (HI : forall i', it_qf i' = it_qf i0 -> it_ql i' = it_ql i0 -> it_all i' = it_all i0 -> 0 <= it_rec i' -> counted qd i' total).
    { intros i' Q1 Q2 Q3 Q4. unfold i0 in Q1, Q2, Q3. cbn [it_qf it_ql it_all] in Q1, Q2, Q3. constructor; [lia|rewrite Q1; destruct (qd =? 0); reflexivity|rewrite Q2, Q1; reflexivity|exact Q4|intros _; lia|intros _ Hq; lia]. }
    unfold goto_answers. destruct (0 <? _).
    - split; [apply goto_loop_safe|]. intros i' HX. apply goto_loop_keep in HX; [|cbn; lia]. destruct HX as (G1 & G2 & G3 & G4). apply HI; assumption.
    - split; [discriminate|]. intros i' HX. match type of HX with Ret ?x = _ => assert (i' = x) as -> by congruence end. apply HI; (reflexivity || (cbn; lia)). }
  destruct HG as (HG1 & HG2). destruct (goto_answers fuel m (Z.of_nat len) i0) as [i'| | |] eqn:EG; cbn [bind]; [|exact I|congruence|exact I]. specialize (HG2 i' eq_refl).
  pose proof (answers_ok nf m len host qd total HF Hh Ht fuel i' b0 0 (length b - 22) total [] t r0 Eb0 eq_refl (Forall_nil _) ltac:(lia) ltac:(lia)) as HA.
  assert (Hx : t = [] \/ [] = @nil (list Z) /\ total = 0 /\ total = 0 /\ t = nothing) by (destruct Htt as [->|(H1 & H2)]; [now left|right; auto]). specialize (HA Hx HG2 ltac:(lia)).
  destruct (answers_loop nf m len host fuel i' b0 0 (length b - 22) total) as [b'| | |]; [|exact I|exact HA|exact I]. destruct HA as (L & text & rest' & X1 & X2 & X3). split; [lia|]. exists text, rest'. auto.
Qed.
Print Assumptions C62_in_buffer_partial.

(** The limit is real: a packet whose header counts 131070 records makes the last line one byte too long for the log's buffer of 1024 bytes. *)
Definition a_rr (x : Z) (tail : list Z) : list Z := [0; 0; 1; 0; 1; 0; 0; 0; 60; 0; 4; x] ++ tail.
Definition big_counts : list Z :=
  [1; 2; 129; 128; 0; 1; 255; 255; 255; 255; 0; 0; 0; 0; 1; 0; 1] ++ concat (repeat (a_rr 1 [2; 3; 4]) 39) ++ a_rr 10 [2; 3; 4] ++ a_rr 1 [2; 3; 4].
Theorem C62_counts_refuted : exists m, (length m <= 1500)%nat /\ Forall is_byte m /\ get_all_answers 30 m (length m) (repeat 0 254) 100 (0 :: repeat 7 1023) = UBW.
Proof.
  exists big_counts. assert (H : Nat.leb (length big_counts) 1500 && forallb (fun c => (0 <=? c) && (c <? 256)) big_counts = true) by (vm_compute; reflexivity).
  apply andb_true_iff in H. destruct H as (H1 & H2). split; [apply Nat.leb_le, H1|]. split; [|vm_compute; reflexivity].
  apply Forall_forall. intros c Hc. rewrite forallb_forall in H2. specialize (H2 c Hc). unfold is_byte. lia.
Qed.
Print Assumptions C62_counts_refuted.
(** The response of C61 for the log: the alias, the address, the first two fields of the start of authority; the NS record is of another class, and the
    list ends. *)
Definition lines61 : list (list Z) := [log_line (txt "Canonical Name"%string) [99; 46; 98]; log_line (txt "IPv4 Address"%string) (txt "10.0.0.1"%string);
  log_line (txt "(SOA)primary name server"%string) []; log_line (txt "(SOA)responsible mail addr"%string) []].
Example C62_nonvacuous : Forall is_byte (enc_msg ex61) /\
  (exists rest, get_all_answers 30 (enc_msg ex61) (length (enc_msg ex61)) (repeat 0 254) 100 (0 :: repeat 7 400) = Ret (concat lines61 ++ and_more [51] ++ 0 :: rest)) /\
  listing 6 (concat lines61 ++ and_more [51]).
Proof.
  split; [|split].
  - apply Forall_forall. intros c Hc. assert (H2 : forallb (fun c => (0 <=? c) && (c <? 256)) (enc_msg ex61) = true) by (vm_compute; reflexivity). rewrite forallb_forall in H2. specialize (H2 c Hc). unfold is_byte. lia.
  - eexists. vm_compute. reflexivity.
  - right. exists lines61. split.
    + repeat constructor; eexists _, _; (split; [reflexivity|]); split; cbn; intuition discriminate.
    + right. exists 3, [51]. split; [lia|]. split; [repeat split; try discriminate; repeat constructor; lia|]. reflexivity.
Qed.
