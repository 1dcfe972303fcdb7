(** C83: asking again within the lifetime is answered from the cache, with the records of the response. *)
From Verif Require Import Base BaseFacts ListFacts List2Facts Hash_Model Sht_Model Name_Model Name_Spec Name_Proofs Gen_Model Gen_Spec Compress_Spec Cht_Model Cht_Inv Cache_Model Cache_Spec Cache_Proofs Cache2_Proofs Cache3_Proofs Cache4_Proofs Cache_Props
  Alias_Spec Alias_Props Rdata_Model Parser_Model Parser_Spec Rdata_Spec Rdata_Props Iheader_Spec Fetch_Model Fetch_Spec Fetch2_Proofs Fetch_Props Again_Spec Again_Proofs Again2_Proofs.
Require Import ZifyBool ZifyNat.
Import Cache_Model.

Lemma from_arrived parallel get es inf rec t : from_event parallel get es (OAdd inf rec t) ->
  exists l, arrived get parallel es rec t l /\ l = lifetime (choose_rule get inf (triplet (r_name rec) (r_type rec) (r_class rec))) (r_ttl rec).
Proof.
  intros (p & z & off & r & H1 & H2 & H3 & H4 & -> & ->). exists (life get p rec). split; [|reflexivity]. exact (arrived_in get parallel es p (z, off, r) rec H1 H2 H3 H4).
Qed.
Lemma from_ok parallel get es ops : Forall event_ok es -> Forall (from_event parallel get es) ops -> Forall op_ok ops.
Proof.
  intros HF H1. eapply Forall_impl; [|exact H1]. intros [inf rec t|]; cbn [from_event op_ok]; [|auto]. intros (p & z & off & r & I1 & _ & I3 & I4 & _). rewrite Forall_forall in HF. specialize (HF _ I1). cbn [event_ok] in HF.
  apply (stored_rec_ok (p_msg p) off r rec z); [apply HF| |exact I4]. unfold to_cache in I3. apply filter_In in I3. apply I3.
Qed.
Lemma from_wire parallel get es ops : Forall plain_event es -> Forall (from_event parallel get es) ops -> Forall op_wire_ok ops.
Proof.
  intros HF H1. eapply Forall_impl; [|exact H1]. intros [inf rec t|]; cbn [from_event op_wire_ok]; [|auto]. intros (p & z & off & r & I1 & _ & I3 & I4 & _). rewrite Forall_forall in HF. exact (HF _ I1 _ _ I3 I4).
Qed.
Lemma from_weaken parallel get es es' ops : (forall e, In e es -> In e es') -> Forall (from_event parallel get es) ops -> Forall (from_event parallel get es') ops.
Proof.
  intros HI H. eapply Forall_impl; [|exact H]. intros [inf rec t|]; cbn [from_event]; [|auto]. intros (p & z & off & r & I1 & I2). exists p, z, off, r. split; [auto|exact I2].
Qed.
Lemma last_app a b t : last_time t (a ++ b) = last_time (last_time t a) b.
Proof. unfold last_time. apply fold_left_app. Qed.
Lemma clock_app a b : forall t, clock t (a ++ b) <-> clock t a /\ clock (last_time t a) b.
Proof. induction a as [|o a IH]; intros t; cbn [app clock last_time fold_left]; [tauto|]. fold (last_time (op_time o) a). rewrite IH. tauto. Qed.
Lemma clock_le ops : forall t, clock t ops -> t <= last_time t ops.
Proof. induction ops as [|o l IHl]; intros u H; cbn [last_time fold_left clock] in *; [lia|]. destruct H as (H & H'). specialize (IHl _ H'). unfold last_time in IHl. lia. Qed.
Lemma clock_in ops o : forall t, clock t ops -> In o ops -> t <= op_time o <= last_time t ops.
Proof.
  induction ops as [|o' ops IH]; intros t H Hi; [destruct Hi|]. destruct Hi as [->|Hi]; cbn [clock last_time fold_left] in *; destruct H as (H & H').
  - split; [exact H|apply clock_le; exact H'].
  - specialize (IH _ H' Hi). unfold last_time in IH. lia.
Qed.

(** After a response that is the first to its question - whatever responses came before and whatever was removed, as long as the earlier records of the names that the response
    has records for have ended their lifetimes, and whatever responses with records for other names come afterwards and whatever is removed - a query is answered from the cache
    as by a cache that holds exactly the records of the response, with what remains of their lifetimes: the aliases and the records of the last name, all of them, and none else.
    This needs a cache with room for all the records that have come until then, records of fewer than 512 bytes with key and data, lifetimes that are not zero, and records of the same name and type
    whose data do not begin with each other.
    With CacheParallel this holds for every response, if its records of the same name, type and class have the same lifetime and come within one second ([level]).
    What is missing from the full statement: repeated responses ([C83_repeated_refuted]), a full cache, IgnoreTTL (for which see [C83_ignore_partial]), and what is missing from C63. *)
Theorem C83_again_partial raw parallel get size slots es p es' recs t0 now :
  (128 <= slots)%nat -> (128 + 4 * slots + 544 * received parallel (es ++ [Got p]) <= size)%nat ->
  Forall event_ok (es ++ Got p :: es') -> Forall plain_event (es ++ Got p :: es') -> ascending t0 (flat_map (event_times parallel) (es ++ Got p :: es')) now ->
  p_first p || parallel = true -> Forall2 (stored_as (p_msg p)) (to_cache (p_msg p)) recs -> Forall storable recs -> (forall rec, In rec recs -> life get p rec <> 0) -> ForallOrdPairs unlike recs -> level get parallel p recs ->
  (forall rec' t l, arrived get parallel es rec' t l -> forall rec x, In rec recs -> In x (to_cache (p_msg p)) -> r_name rec' = r_name rec -> t + l <= p_clk p (num x)) ->
  (forall rec' t l, arrived get parallel es' rec' t l -> forall rec, In rec recs -> r_name rec' <> r_name rec) ->
  exists f0, forall nf fuel, (f0 <= nf)%nat -> (f0 <= fuel)%nat -> exists c, do_events raw false parallel get nf fuel (cache_init size slots) (es ++ Got p :: es') = Ret c /\
  forall q q0 qs ql stack, good_msg q -> m_qs q = q0 :: qs -> q_name q0 = plain ql -> name_ok ql -> ql <> [] -> (length (dotted ql) <= 253)%nat ->
    m_an q = [] -> q_class q0 = 1 -> In (q_type q0) [1; 28; 65; 16; 15; 5] -> length stack = 254%nat ->
  exists f1, forall nf fuel post edns sent als rs, (f1 <= nf)%nat -> (length (enc_msg q ++ post) <= fuel)%nat -> Forall is_byte post ->
    Z.of_nat (length post) <= 16384 -> answers false (rev (arrivals get p recs)) now ql (q_type q0) als rs -> rs <> [] -> (q_type q0 = 5 -> (length rs <= 1)%nat) ->
    (length (enc_msg (full_reply q edns (als ++ rs))) <= length post)%nat ->
    exists a mem', fetch raw false nf stack fuel c (enc_msg q ++ post) (length (enc_msg q)) edns now sent = Ret (if sent then 0 else -861, enc_msg a ++ mem', length (enc_msg a)) /\
       length (enc_msg a ++ mem') = length (enc_msg q ++ post) /\ is_reply q edns (als ++ rs) a.
Proof.
  intros Hsl Hcap HF HP HA Hfirst HR Hst Hlife Hun Hlev Hgone Hother.
  assert (HF1 : Forall event_ok es /\ event_ok (Got p) /\ Forall event_ok es') by (apply Forall_app in HF; destruct HF as (HF1 & HF2); inversion_clear HF2; auto). destruct HF1 as (HF1 & HFp & HF2).
  assert (HP1 : Forall plain_event es /\ plain_event (Got p) /\ Forall plain_event es') by (apply Forall_app in HP; destruct HP as (HP1 & HP2); inversion_clear HP2; auto). destruct HP1 as (HP1 & HPp & HP2).
  destruct (events_ops2 raw false parallel get es HF1) as (ops & fa & A1 & A2 & A3 & _ & A4).
  destruct (events_ops2 raw false parallel get es' HF2) as (ops' & fb & B1 & B2 & _ & _ & B4).
  destruct (C61_stored_partial raw false parallel get (p_msg p) recs p HFp eq_refl HR) as (fc & C4).
  set (inf := get (p_domain p)) in *. set (l := map (fun x => (snd x, p_clk p (num (fst x)))) (combine (to_cache (p_msg p)) recs)).
  set (opsp := map (add_of inf) l).
  assert (Eop : map (fun x => OAdd inf (snd x) (p_clk p (fst (fst (fst x))))) (combine (to_cache (p_msg p)) recs) = opsp) by (unfold opsp, l; rewrite map_map; reflexivity).
  rewrite Hfirst in C4. rewrite Eop in C4.
  assert (Hll : length l = length (to_cache (p_msg p))) by (unfold l; rewrite map_length; clear - HR; induction HR as [|? ? ? ? ? ? IH]; cbn [combine length]; [reflexivity|now rewrite IH]).
  assert (Hcap' : (128 + 4 * slots + 544 * (received parallel es + length l) <= size)%nat).
  { unfold received in Hcap at 1. rewrite map_app, list_sum_app in Hcap. cbn [map] in Hcap. rewrite Hfirst in Hcap. unfold received. unfold list_sum in *. cbn [fold_right] in Hcap. lia. }
  assert (Hl1 : map fst l = recs) by (unfold l; rewrite map_map; cbn [fst]; clear - HR; induction HR as [|? ? ? ? ? ? IH]; cbn [combine map snd]; [reflexivity|now rewrite IH]).
  assert (Htimes : map op_time opsp = event_times parallel (Got p)).
  { cbn [event_times]. rewrite Hfirst. unfold opsp, l. rewrite !map_map. cbn [add_of op_time snd]. clear - HR. induction HR as [|? ? ? ? ? ? IH]; cbn [combine map fst]; [reflexivity|]. rewrite IH. reflexivity. }
  assert (HC : clock t0 (ops ++ opsp ++ ops') /\ last_time t0 (ops ++ opsp ++ ops') <= now).
  { apply ascending_clock. rewrite !map_app, A2, B2, Htimes. rewrite flat_map_app in HA. exact HA. }
  destruct HC as (HC & HT). rewrite clock_app in HC. destruct HC as (HC1 & HC2). rewrite clock_app in HC2. destruct HC2 as (HC2 & HC3). rewrite !last_app in HT.
  assert (HO1 : Forall op_ok ops) by (exact (from_ok _ _ _ _ HF1 A1)). assert (HO2 : Forall op_ok ops') by (exact (from_ok _ _ _ _ HF2 B1)).
  assert (Hfp : Forall (from_event parallel get [Got p]) opsp).
  { apply Forall_forall. intros o Ho. unfold opsp, l in Ho. rewrite map_map in Ho. apply in_map_iff in Ho. destruct Ho as ([[[z off] r] rec] & <- & Hi). cbn [from_event add_of fst snd]. exists p, z, off, r.
    split; [now left|]. split; [exact Hfirst|]. split; [exact (in_combine_l _ _ _ _ Hi)|]. split; [|split; reflexivity]. clear - HR Hi. revert Hi. induction HR as [|x y l l' Hxy HR IHR]; cbn [combine In]; [tauto|].
    intros [Eq|Hi]; [|auto]. assert (x = (z, off, r) /\ y = rec) as (-> & ->) by (split; congruence). exact Hxy. }
  assert (HOp : Forall op_ok opsp) by (refine (from_ok _ _ _ _ _ Hfp); constructor; [exact HFp|constructor]).
  assert (Hsz : sized size slots) by (unfold sized, header_size, slot_size; lia).
  exists (Nat.max fa (Nat.max fb fc)). intros nf fuel Hnf Hfuel. rewrite do_events_app, (A4 nf fuel _ ltac:(lia) ltac:(lia)). cbn [do_events].
  destruct (run_ok raw false parallel get ops _ _ (init_ok size slots ltac:(apply Hsz) ltac:(apply Hsz)) HO1) as [(_ & X)|(c1 & As & E1 & R1 & P1 & S1 & S2)].
  { cbn [cache_init c_slots] in X. rewrite repeat_length in X. unfold slot_size in X. lia. }
  cbn [cache_init c_slots c_size] in S1, S2. rewrite repeat_length in S2. rewrite E1. cbn [bind]. rewrite (C4 nf fuel c1 ltac:(lia) ltac:(lia)).
  assert (Hsm : small (received parallel es) c1).
  { rewrite <- A3. refine (run_small raw false parallel get ops 0 _ c1 _ E1). split; [cbn; lia|constructor]. }
  assert (HG1 : Forall (good (last_time t0 ops)) As) by (exact (run_good false parallel get ops [] As t0 eq_refl R1 HO1 HC1 (Forall_nil _))).
  (* the earlier records of these names *)
  assert (Hold : forall e x, In e As -> In x l -> existsb (fun rec => if list_eq_dec Z.eq_dec (e_name e) (r_name rec) then true else false) recs = true -> e_time e + e_ttl e <= snd x).
  { intros e x He Hx Hn. destruct (run_origin false parallel get ops [] As t0 e eq_refl R1 HO1 HC1 (Forall_nil _) He) as [(inf' & r & s & I1 & (I2 & _) & _ & I3)|(a & [] & _)].
    rewrite Forall_forall in A1. destruct (from_arrived _ _ _ _ _ _ (A1 _ I1)) as (lf & L1 & L2). apply existsb_exists in Hn. destruct Hn as (rec & N1 & N2). destruct (list_eq_dec Z.eq_dec (e_name e) (r_name rec)) as [N3|]; [|discriminate].
    unfold l in Hx. apply in_map_iff in Hx. destruct Hx as ((x0, rec0) & <- & Hx). cbn [snd fst]. pose proof (Hgone r s lf L1 rec x0 N1 (in_combine_l _ _ _ _ Hx) ltac:(congruence)) as Y. unfold life_of in I3. lia. }
  set (own := fun e => existsb (fun rec => if list_eq_dec Z.eq_dec (e_name e) (r_name rec) then true else false) recs) in *.
  assert (Hto : forall x, In x l -> own (to_entry get inf x) = true).
  { intros x Hx. unfold own. apply existsb_exists. exists (fst x). split; [rewrite <- Hl1; now apply in_map|]. cbn [to_entry e_name]. destruct (list_eq_dec _ _ _); congruence. }
  destruct (adds_stored raw false parallel get inf l c1 As (received parallel es) P1 Hsm) as (c2 & E2 & R2 & P2 & T1 & T2).
  - lia.
  - rewrite S1, S2. lia.
  - apply Forall_forall. intros x Hx. assert (Hr : In (fst x) recs) by (rewrite <- Hl1; now apply in_map). rewrite Forall_forall in Hst, HOp. split; [|split; [apply Hst; exact Hr|exact (Hlife _ Hr)]].
    apply (HOp (add_of inf x)). unfold opsp. now apply in_map.
  - intros e x He Hx Hm. exfalso. unfold mates in Hm. apply andb_true_iff in Hm. destruct Hm as (Hm & Hf). apply same_key_iff in Hm.
    assert (Ho : own e = true). { unfold own. apply existsb_exists. exists (fst x). split; [rewrite <- Hl1; now apply in_map|]. destruct (list_eq_dec _ _ _) as [|N]; [reflexivity|]. exfalso. apply N. apply Hm. }
    pose proof (Hold e x He Hx Ho). unfold fresh in Hf. cbn [orb] in Hf. lia.
  - revert Hun. rewrite <- Hl1. clear. induction l as [|x l IH]; intros H; [constructor|]. cbn [map] in H. inversion_clear H as [|? ? U1 U2]. constructor; [|auto]. rewrite Forall_map in U1. exact U1.
  - intros Hp x y Hx Hy N1 N2 N3. unfold l in Hx, Hy. apply in_map_iff in Hx. apply in_map_iff in Hy. destruct Hx as ((x0, rec0) & <- & Hx). destruct Hy as ((y0, rec1) & <- & Hy). cbn [fst snd to_entry e_ttl] in *.
    exact (Hlev Hp _ _ _ _ Hx Hy N1 N2 N3).
  - change (map (add_of inf) l) with opsp in E2, R2. rewrite E2. cbn [bind]. rewrite (B4 nf fuel c2 ltac:(lia) ltac:(lia)).
    destruct (run_ok raw false parallel get ops' c2 _ P2 HO2) as [(_ & X)|(c3 & A' & E3 & R3 & P3 & _ & _)]; [unfold slot_size in X; lia|]. exists c3. split; [exact E3|].
    set (E := rev (map (to_entry get inf) l)) in *.
    assert (HE : rev (arrivals get p recs) = E) by (unfold E, arrivals, l; rewrite map_map; reflexivity).
    assert (Hr : a_run false parallel get [] (ops ++ opsp ++ ops') A') by (eapply a_run_app; [exact R1|]; eapply a_run_app; [exact R2|exact R3]).
    assert (HG2 : Forall (good (last_time (last_time t0 ops) opsp)) (E ++ As)) by (exact (run_good false parallel get opsp As _ _ eq_refl R2 HOp HC2 HG1)).
    assert (HG3 : Forall (good now) A').
    { eapply Forall_impl; [|exact (run_good false parallel get ops' _ A' _ eq_refl R3 HO2 HC3 HG2)]. intros e (G1 & G2). split; [lia|exact G2]. }
    assert (Hnm : forall e e', e_name e = e_name e' -> own e = own e') by (intros e e' X; unfold own; now rewrite X).
    assert (Hview : view false own now A' = view false own now E).
    { rewrite (view_run false own parallel get ops' eq_refl Hnm _ A' _ now R3 HO2 HC3 HT HG2).
      - unfold view. rewrite filter_app. rewrite <- (app_nil_r (filter _ E)) at 2. f_equal.
        destruct l as [|x0 l0] eqn:El; [|].
        + assert (Hrec : recs = []) by (rewrite <- Hl1; reflexivity). clear - Hrec. unfold own. rewrite Hrec. cbn [existsb andb]. induction As as [|e As IH]; [reflexivity|exact IH].
        + assert (Hle : snd x0 <= now).
          { assert (Hi : In (add_of inf x0) opsp) by (unfold opsp; cbn [map]; now left). pose proof (clock_in _ _ _ HC2 Hi) as Y. cbn [add_of op_time] in Y. pose proof (clock_le _ _ HC3). lia. }
          assert (Hall : forall e, In e As -> own e && fresh false now e = false).
          { intros e He. destruct (own e) eqn:Eo; [|reflexivity]. cbn [andb]. pose proof (Hold e x0 He (or_introl eq_refl) Eo). unfold fresh. cbn [orb]. lia. }
          clear - Hall. induction As as [|e As IH]; [reflexivity|]. cbn [filter]. rewrite (Hall e (or_introl eq_refl)). apply IH. intros; apply Hall; now right.
      - intros inf' r s Hi. unfold own. destruct (existsb _ recs) eqn:Ex; [|reflexivity]. exfalso. apply existsb_exists in Ex. destruct Ex as (rec & N1 & N2). cbn [to_entry e_name fst] in N2. destruct (list_eq_dec _ _ _) as [N3|]; [|discriminate].
        rewrite Forall_forall in B1. destruct (from_arrived _ _ _ _ _ _ (B1 _ Hi)) as (lf & L1 & _). exact (Hother _ _ _ L1 _ N1 N3). }
    assert (Howned : forall e, In e E -> owned own (e_name e)).
    { intros e He e' Hn. unfold E in He. apply in_rev in He. apply in_map_iff in He. destruct He as (x & <- & Hx). pose proof (Hto x Hx) as Y. unfold own in Y |- *. rewrite Hn. exact Y. }
    assert (Hw : Forall op_wire_ok (ops ++ opsp ++ ops')).
    { rewrite !Forall_app. split; [exact (from_wire _ _ _ _ HP1 A1)|]. split; [|exact (from_wire _ _ _ _ HP2 B1)]. refine (from_wire _ _ _ _ _ Hfp). constructor; [exact HPp|constructor]. }
    pose proof (question_answered raw false c3 A' now P3 (run_data _ _ _ _ _ Hr (ops_data _ Hw)) (fun _ => HG3)) as HQ.
    pose proof (ttl_in_range false A' now c3 P3 (fun _ => HG3)) as HTT. pose proof (lookup_data _ _ _ _ _ now Hr HTT) as HL.
    intros q q0 qs ql stack Q1 Q2 Q3 Q4 Q5 Q6 Q7 Q8 Q9 Q10.
    destruct (fetch_answers raw false c3 A' now HTT HL) with (q := q) (q0 := q0) (qs := qs) (ql := ql) (stack := stack) as (f1 & H1); try assumption.
    { intros fuel' name ty g G1 G2 G3 G4 G5. apply (HQ fuel' name ty 1 g G1 G2 G3 G4); auto. }
    exists f1. intros nf' fuel' post edns sent als rs N1 N2 N3 N4 N5 N6 N7 N8. rewrite HE in N5.
    apply (H1 nf' fuel' post edns sent als rs N1 N2 N3 N4); [exact (answers_view false own A' E ql (q_type q0) als rs now Hview Howned N6 N5)|exact N7|exact N8|exact N6].
Qed.
Print Assumptions C83_again_partial.

Lemma from_here parallel get es es' o : (forall e, In e es -> In e es') -> from_event parallel get es o -> from_event parallel get es' o.
Proof. intros HI. destruct o as [inf rec t|]; cbn [from_event]; [|auto]. intros (p & z & off & r & I1 & I2). exists p, z, off, r. split; [auto|exact I2]. Qed.
(** With IgnoreTTL nothing is removed, and the records of a response whose names no other response has records for are sent at any later time, with the lifetimes that they came with. *)
Theorem C83_ignore_partial raw parallel get size slots es p es' recs :
  (128 <= slots)%nat -> (128 + 4 * slots + 544 * received parallel (es ++ [Got p]) <= size)%nat ->
  Forall event_ok (es ++ Got p :: es') -> Forall plain_event (es ++ Got p :: es') -> (forall t, ~ In (Swept t) (es ++ Got p :: es')) ->
  p_first p || parallel = true -> Forall2 (stored_as (p_msg p)) (to_cache (p_msg p)) recs -> Forall storable recs -> (forall rec, In rec recs -> life get p rec <> 0) -> ForallOrdPairs unlike recs -> level get parallel p recs ->
  (forall rec' t l, arrived get parallel (es ++ es') rec' t l -> forall rec, In rec recs -> r_name rec' <> r_name rec) ->
  exists f0, forall nf fuel, (f0 <= nf)%nat -> (f0 <= fuel)%nat -> exists c, do_events raw true parallel get nf fuel (cache_init size slots) (es ++ Got p :: es') = Ret c /\
  forall now q q0 qs ql stack, good_msg q -> m_qs q = q0 :: qs -> q_name q0 = plain ql -> name_ok ql -> ql <> [] -> (length (dotted ql) <= 253)%nat ->
    m_an q = [] -> q_class q0 = 1 -> In (q_type q0) [1; 28; 65; 16; 15; 5] -> length stack = 254%nat ->
  exists f1, forall nf fuel post edns sent als rs, (f1 <= nf)%nat -> (length (enc_msg q ++ post) <= fuel)%nat -> Forall is_byte post ->
    Z.of_nat (length post) <= 16384 -> answers true (rev (arrivals get p recs)) now ql (q_type q0) als rs -> rs <> [] -> (q_type q0 = 5 -> (length rs <= 1)%nat) ->
    (length (enc_msg (full_reply q edns (als ++ rs))) <= length post)%nat ->
    exists a mem', fetch raw true nf stack fuel c (enc_msg q ++ post) (length (enc_msg q)) edns now sent = Ret (if sent then 0 else -861, enc_msg a ++ mem', length (enc_msg a)) /\
       length (enc_msg a ++ mem') = length (enc_msg q ++ post) /\ is_reply q edns (als ++ rs) a.
Proof.
  intros Hsl Hcap HF HP HA Hfirst HR Hst Hlife Hun Hlev Hother0.
  assert (HF1 : Forall event_ok es /\ event_ok (Got p) /\ Forall event_ok es') by (apply Forall_app in HF; destruct HF as (HF1 & HF2); inversion_clear HF2; auto). destruct HF1 as (HF1 & HFp & HF2).
  assert (HP1 : Forall plain_event es /\ plain_event (Got p) /\ Forall plain_event es') by (apply Forall_app in HP; destruct HP as (HP1 & HP2); inversion_clear HP2; auto). destruct HP1 as (HP1 & HPp & HP2).
  destruct (events_ops2 raw true parallel get es HF1) as (ops & fa & A1 & A2 & A3 & _ & A4).
  destruct (events_ops2 raw true parallel get es' HF2) as (ops' & fb & B1 & B2 & _ & B5 & B4).
  destruct (C61_stored_partial raw true parallel get (p_msg p) recs p HFp eq_refl HR) as (fc & C4).
  set (inf := get (p_domain p)) in *. set (l := map (fun x => (snd x, p_clk p (num (fst x)))) (combine (to_cache (p_msg p)) recs)).
  set (opsp := map (add_of inf) l).
  assert (Eop : map (fun x => OAdd inf (snd x) (p_clk p (fst (fst (fst x))))) (combine (to_cache (p_msg p)) recs) = opsp) by (unfold opsp, l; rewrite map_map; reflexivity).
  rewrite Hfirst in C4. rewrite Eop in C4.
  assert (Hll : length l = length (to_cache (p_msg p))) by (unfold l; rewrite map_length; clear - HR; induction HR as [|? ? ? ? ? ? IH]; cbn [combine length]; [reflexivity|now rewrite IH]).
  assert (Hcap' : (128 + 4 * slots + 544 * (received parallel es + length l) <= size)%nat).
  { unfold received in Hcap at 1. rewrite map_app, list_sum_app in Hcap. cbn [map] in Hcap. rewrite Hfirst in Hcap. unfold received. unfold list_sum in *. cbn [fold_right] in Hcap. lia. }
  assert (Hl1 : map fst l = recs) by (unfold l; rewrite map_map; cbn [fst]; clear - HR; induction HR as [|? ? ? ? ? ? IH]; cbn [combine map snd]; [reflexivity|now rewrite IH]).
  assert (Hsw : forall t, ~ In (OSweep t) ops').
  { intros t Ht. apply (HA t). apply in_or_app. right. right. exact (B5 t Ht). }
  assert (HO1 : Forall op_ok ops) by (exact (from_ok _ _ _ _ HF1 A1)). assert (HO2 : Forall op_ok ops') by (exact (from_ok _ _ _ _ HF2 B1)).
  assert (Hfp : Forall (from_event parallel get [Got p]) opsp).
  { apply Forall_forall. intros o Ho. unfold opsp, l in Ho. rewrite map_map in Ho. apply in_map_iff in Ho. destruct Ho as ([[[z off] r] rec] & <- & Hi). cbn [from_event add_of fst snd]. exists p, z, off, r.
    split; [now left|]. split; [exact Hfirst|]. split; [exact (in_combine_l _ _ _ _ Hi)|]. split; [|split; reflexivity]. clear - HR Hi. revert Hi. induction HR as [|x y l l' Hxy HR IHR]; cbn [combine In]; [tauto|].
    intros [Eq|Hi]; [|auto]. assert (x = (z, off, r) /\ y = rec) as (-> & ->) by (split; congruence). exact Hxy. }
  assert (HOp : Forall op_ok opsp) by (refine (from_ok _ _ _ _ _ Hfp); constructor; [exact HFp|constructor]).
  assert (Hsz : sized size slots) by (unfold sized, header_size, slot_size; lia).
  exists (Nat.max fa (Nat.max fb fc)). intros nf fuel Hnf Hfuel. rewrite do_events_app, (A4 nf fuel _ ltac:(lia) ltac:(lia)). cbn [do_events].
  destruct (run_ok raw true parallel get ops _ _ (init_ok size slots ltac:(apply Hsz) ltac:(apply Hsz)) HO1) as [(_ & X)|(c1 & As & E1 & R1 & P1 & S1 & S2)].
  { cbn [cache_init c_slots] in X. rewrite repeat_length in X. unfold slot_size in X. lia. }
  cbn [cache_init c_slots c_size] in S1, S2. rewrite repeat_length in S2. rewrite E1. cbn [bind]. rewrite (C4 nf fuel c1 ltac:(lia) ltac:(lia)).
  assert (Hsm : small (received parallel es) c1).
  { rewrite <- A3. refine (run_small raw true parallel get ops 0 _ c1 _ E1). split; [cbn; lia|constructor]. }
  set (own := fun e => existsb (fun rec => if list_eq_dec Z.eq_dec (e_name e) (r_name rec) then true else false) recs) in *.
  assert (Hold : forall e, In e As -> own e = false).
  { intros e He. unfold own. destruct (existsb _ recs) eqn:Ex; [|reflexivity]. exfalso. apply existsb_exists in Ex. destruct Ex as (rec & N1 & N2). destruct (list_eq_dec _ _ _) as [N3|]; [|discriminate].
    destruct (run_source true parallel get ops [] As e R1 He) as [(inf' & r & s & I1 & (I2 & _) & _)|(a & [] & _)].
    rewrite Forall_forall in A1. destruct (from_arrived _ _ _ _ _ _ (from_here _ _ _ (es ++ es') _ (fun e' H => in_or_app _ _ _ (or_introl H)) (A1 _ I1))) as (lf & L1 & _). apply (Hother0 _ _ _ L1 _ N1). congruence. }
  assert (Hto : forall x, In x l -> own (to_entry get inf x) = true).
  { intros x Hx. unfold own. apply existsb_exists. exists (fst x). split; [rewrite <- Hl1; now apply in_map|]. cbn [to_entry e_name]. destruct (list_eq_dec _ _ _); congruence. }
  destruct (adds_stored raw true parallel get inf l c1 As (received parallel es) P1 Hsm) as (c2 & E2 & R2 & P2 & T1 & T2).
  - lia.
  - rewrite S1, S2. lia.
  - apply Forall_forall. intros x Hx. assert (Hr : In (fst x) recs) by (rewrite <- Hl1; now apply in_map). rewrite Forall_forall in Hst, HOp. split; [|split; [apply Hst; exact Hr|exact (Hlife _ Hr)]].
    apply (HOp (add_of inf x)). unfold opsp. now apply in_map.
  - intros e x He Hx Hm. exfalso. unfold mates in Hm. apply andb_true_iff in Hm. destruct Hm as (Hm & Hf). apply same_key_iff in Hm.
    assert (Ho : own e = true). { unfold own. apply existsb_exists. exists (fst x). split; [rewrite <- Hl1; now apply in_map|]. destruct (list_eq_dec _ _ _) as [|N]; [reflexivity|]. exfalso. apply N. apply Hm. }
    rewrite (Hold e He) in Ho. discriminate.
  - revert Hun. rewrite <- Hl1. clear. induction l as [|x l IH]; intros H; [constructor|]. cbn [map] in H. inversion_clear H as [|? ? U1 U2]. constructor; [|auto]. rewrite Forall_map in U1. exact U1.
  - intros Hp x y Hx Hy N1 N2 N3. unfold l in Hx, Hy. apply in_map_iff in Hx. apply in_map_iff in Hy. destruct Hx as ((x0, rec0) & <- & Hx). destruct Hy as ((y0, rec1) & <- & Hy). cbn [fst snd to_entry e_ttl] in *.
    exact (Hlev Hp _ _ _ _ Hx Hy N1 N2 N3).
  - change (map (add_of inf) l) with opsp in E2, R2. rewrite E2. cbn [bind]. rewrite (B4 nf fuel c2 ltac:(lia) ltac:(lia)).
    destruct (run_ok raw true parallel get ops' c2 _ P2 HO2) as [(_ & X)|(c3 & A' & E3 & R3 & P3 & _ & _)]; [unfold slot_size in X; lia|]. exists c3. split; [exact E3|].
    set (E := rev (map (to_entry get inf) l)) in *.
    assert (HE : rev (arrivals get p recs) = E) by (unfold E, arrivals, l; rewrite map_map; reflexivity).
    assert (Hr : a_run true parallel get [] (ops ++ opsp ++ ops') A') by (eapply a_run_app; [exact R1|]; eapply a_run_app; [exact R2|exact R3]).
    assert (Hnm : forall e e', e_name e = e_name e' -> own e = own e') by (intros e e' X; unfold own; now rewrite X).
    assert (Hview : forall now, view true own now A' = view true own now E).
    { intros now. rewrite (view_adds true own parallel get ops' Hnm _ A' now R3 Hsw).
      - unfold view. rewrite filter_app. rewrite <- (app_nil_r (filter _ E)) at 2. f_equal. clear - Hold. induction As as [|e As IH]; [reflexivity|]. cbn [filter]. rewrite (Hold e (or_introl eq_refl)). apply IH. intros; apply Hold; now right.
      - intros inf' r s Hi. unfold own. destruct (existsb _ recs) eqn:Ex; [|reflexivity]. exfalso. apply existsb_exists in Ex. destruct Ex as (rec & N1 & N2). cbn [to_entry e_name fst] in N2. destruct (list_eq_dec _ _ _) as [N3|]; [|discriminate].
        rewrite Forall_forall in B1. destruct (from_arrived _ _ _ _ _ _ (from_here _ _ _ (es ++ es') _ (fun e' H => in_or_app _ _ _ (or_intror H)) (B1 _ Hi))) as (lf & L1 & _). exact (Hother0 _ _ _ L1 _ N1 N3). }
    assert (Howned : forall e, In e E -> owned own (e_name e)).
    { intros e He e' Hn. unfold E in He. apply in_rev in He. apply in_map_iff in He. destruct He as (x & <- & Hx). pose proof (Hto x Hx) as Y. unfold own in Y |- *. rewrite Hn. exact Y. }
    assert (Hw : Forall op_wire_ok (ops ++ opsp ++ ops')).
    { rewrite !Forall_app. split; [exact (from_wire _ _ _ _ HP1 A1)|]. split; [|exact (from_wire _ _ _ _ HP2 B1)]. refine (from_wire _ _ _ _ _ Hfp). constructor; [exact HPp|constructor]. }
    intros now q q0 qs ql stack Q1 Q2 Q3 Q4 Q5 Q6 Q7 Q8 Q9 Q10.
    assert (HN : true = false -> Forall (good now) A') by discriminate.
    pose proof (question_answered raw true c3 A' now P3 (run_data _ _ _ _ _ Hr (ops_data _ Hw)) HN) as HQ.
    pose proof (ttl_in_range true A' now c3 P3 HN) as HTT. pose proof (lookup_data _ _ _ _ _ now Hr HTT) as HL.
    destruct (fetch_answers raw true c3 A' now HTT HL) with (q := q) (q0 := q0) (qs := qs) (ql := ql) (stack := stack) as (f1 & H1); try assumption.
    { intros fuel' name ty g G1 G2 G3 G4 G5. apply (HQ fuel' name ty 1 g G1 G2 G3 G4); auto. }
    exists f1. intros nf' fuel' post edns sent als rs N1 N2 N3 N4 N5 N6 N7 N8. rewrite HE in N5.
    apply (H1 nf' fuel' post edns sent als rs N1 N2 N3 N4); [exact (answers_view true own A' E ql (q_type q0) als rs now (Hview now) Howned N6 N5)|exact N7|exact N8|exact N6].
Qed.
Print Assumptions C83_ignore_partial.

(** ** Nothing else is sent *)
Lemma entry_brought ignore parallel get es ops A now t0 e : Forall (from_event parallel get es) ops -> Forall op_ok ops -> clock t0 ops -> a_run ignore parallel get [] ops A -> In e A -> fresh ignore now e = true ->
  e_class e = 1 -> forall n w, e_name e = dotted n -> wire_data (e_type e) (e_data e) w -> brought get ignore es now (mk_rr (plain n) (e_type e) 1 (remaining ignore now e) w).
Proof.
  intros HF HO HC Hr He Hf Hk n w Hn Hw.
  assert (HS : exists inf r t, In (OAdd inf r t) ops /\ same_rec r e /\ (ignore = false -> e_time e + e_ttl e <= t + lifetime (choose_rule get inf (triplet (r_name r) (r_type r) (r_class r))) (r_ttl r))).
  { destruct ignore.
    - destruct (run_source true parallel get ops [] A e Hr He) as [(inf & r & t & I1 & I2 & _)|(a & [] & _)]. exists inf, r, t. split; [exact I1|]. split; [exact I2|discriminate].
    - destruct (run_origin false parallel get ops [] A t0 e eq_refl Hr HO HC (Forall_nil _) He) as [(inf & r & t & I1 & I2 & _ & I3)|(a & [] & _)]. exists inf, r, t. split; [exact I1|]. split; [exact I2|]. intros _. exact I3. }
  destruct HS as (inf & r & t & I1 & (S1 & S2 & S3 & S4) & I3). rewrite Forall_forall in HF. destruct (HF _ I1) as (p & z & off & r0 & H1 & _ & H3 & (nm & d & N1 & N2 & ->) & -> & ->).
  cbn [r_name r_type r_class r_data r_ttl] in *. assert (En : nm = dotted n) by congruence. rewrite En in *. rewrite S4, S2 in Hw.
  assert (Ek : Parser_Spec.r_class r0 = 1) by (unfold to_cache in H3; apply filter_In in H3; destruct H3 as (_ & H3); unfold cacheable in H3; cbn [snd] in H3; lia). exists p, z, off, r0, n, d. split; [exact H1|]. split; [exact H3|]. cbn [Parser_Spec.r_name Parser_Spec.r_type Parser_Spec.r_class Parser_Spec.r_data Parser_Spec.r_ttl].
  split; [reflexivity|]. split; [exact N1|]. split; [exact S2|]. split; [congruence|]. split; [exact N2|]. split; [exact Hw|]. rewrite Ek. intros ->. specialize (I3 eq_refl). unfold fresh in Hf. cbn [orb] in Hf. unfold remaining. split; lia.
Qed.
Lemma answers_brought ignore parallel get es ops A now t0 ql ty als rs : Forall (from_event parallel get es) ops -> Forall op_ok ops -> clock t0 ops -> a_run ignore parallel get [] ops A ->
  answers ignore A now ql ty als rs -> Forall (brought get ignore es now) (als ++ rs).
Proof.
  intros HF HO HC Hr (n' & H1 & H2). pose proof (fun e => entry_brought ignore parallel get es ops A now t0 e HF HO HC Hr) as HB. apply Forall_app. split.
  - destruct (ty =? 5); [destruct H1 as (-> & _); constructor|]. clear H2. induction H1 as [n Ha|n e c rs' n' Ha Hw Hc He Hr' IH]; constructor; [|exact IH].
    unfold alias in Ha. apply find_some in Ha. destruct Ha as (Hi & Hk). apply andb_true_iff in Hk. destruct Hk as (Hk & Hf). apply same_key_iff in Hk. destruct Hk as (K1 & K2 & K3).
    rewrite <- K2 in Hw |- *. exact (HB e Hi Hf K3 n (wire c) K1 Hw).
  - assert (HL : forall v, In v (a_lookup ignore A (dotted n') ty 1 now) -> exists e, v = (e_data e, remaining ignore now e) /\ In e A /\ fresh ignore now e = true /\ e_name e = dotted n' /\ e_type e = ty /\ e_class e = 1).
    { intros v Hv. unfold a_lookup in Hv. apply in_map_iff in Hv. destruct Hv as (e & <- & He). apply filter_In in He. destruct He as (He & Hk). rewrite !andb_true_iff in Hk. destruct Hk as ((Hk & Hf) & _). apply same_key_iff in Hk. exists e. tauto. }
    revert HL. induction H2 as [|v r vs rs' Hv H2 IH]; intros HL; constructor; [|apply IH; intros; apply HL; now right].
    destruct (HL v (or_introl eq_refl)) as (e & -> & E1 & E2 & E3 & E4 & E5). destruct r as [rn rt rk rl rd]. destruct Hv as (V1 & V2 & V3 & V4 & V5). cbn [Parser_Spec.r_name Parser_Spec.r_type Parser_Spec.r_class Parser_Spec.r_data Parser_Spec.r_ttl fst snd] in *.
    subst rn rt rk rl. rewrite <- E4 in V5 |- *. exact (HB e E1 E2 E5 n' rd E3 V5).
Qed.
(** After any history of well-formed responses (whose names can be sent) and removals, for any setting of IgnoreTTL and CacheParallel: what is sent from the cache as a reply has only
    records of the responses, with their own names, types, classes and data; and unless IgnoreTTL is set, with a positive TTL that does not go beyond the end of the lifetime counted from its arrival.
    What is missing from the full statement: as for C63, and responses as in [C61_short_mx_refuted], [C61_beyond_packet_refuted]. *)
Theorem C83_sound_partial raw ignore parallel get size slots es t0 now : sized size slots -> (128 <= slots)%nat -> Forall event_ok es -> Forall plain_event es ->
  ascending t0 (flat_map (event_times parallel) es) now ->
  exists f0, forall nf fuel, (f0 <= nf)%nat -> (f0 <= fuel)%nat -> exists c A, do_events raw ignore parallel get nf fuel (cache_init size slots) es = Ret c /\
  forall q q0 qs ql stack, good_msg q -> m_qs q = q0 :: qs -> q_name q0 = plain ql -> name_ok ql -> ql <> [] -> (length (dotted ql) <= 253)%nat ->
    m_an q = [] -> q_class q0 = 1 -> In (q_type q0) [1; 28; 65; 16; 15; 5] -> length stack = 254%nat ->
  exists f1, forall nf fuel post edns sent als rs, (f1 <= nf)%nat -> (length (enc_msg q ++ post) <= fuel)%nat -> Forall is_byte post ->
    Z.of_nat (length post) <= 16384 -> answers ignore A now ql (q_type q0) als rs -> (q_type q0 = 5 -> (length rs <= 1)%nat) ->
    (length (enc_msg (full_reply q edns (als ++ rs))) <= length post)%nat ->
    Forall (brought get ignore es now) (als ++ rs) /\
    (rs = [] -> exists mem', fetch raw ignore nf stack fuel c (enc_msg q ++ post) (length (enc_msg q)) edns now sent = Ret (-3, enc_msg q ++ mem', length (enc_msg q)) /\ length mem' = length post) /\
    (rs <> [] -> exists a mem', fetch raw ignore nf stack fuel c (enc_msg q ++ post) (length (enc_msg q)) edns now sent = Ret (if sent then 0 else -861, enc_msg a ++ mem', length (enc_msg a)) /\
       length (enc_msg a ++ mem') = length (enc_msg q ++ post) /\ is_reply q edns (als ++ rs) a).
Proof.
  intros Hs Hsl HF HP HA. destruct (events_ops2 raw ignore parallel get es HF) as (ops & f0 & A1 & A2 & _ & _ & A4). exists f0. intros nf fuel Hn Hf. rewrite (A4 nf fuel _ Hn Hf).
  rewrite <- A2 in HA. apply ascending_clock in HA. destruct HA as (HC & HT). pose proof (from_ok _ _ _ _ HF A1) as HO. pose proof (from_wire _ _ _ _ HP A1) as HW.
  destruct (C12_no_stray_access raw ignore parallel get size slots ops Hs Hsl HO) as (c & Ec).
  destruct (C63_cached_answer_partial raw ignore parallel get size slots ops c t0 now Hs HO HW Ec HC HT) as (A & Hr & _ & H). exists c, A. split; [exact Ec|].
  intros q q0 qs ql stack Q1 Q2 Q3 Q4 Q5 Q6 Q7 Q8 Q9 Q10. destruct (H q q0 qs ql stack Q1 Q2 Q3 Q4 Q5 Q6 Q7 Q8 Q9 Q10) as (f1 & H1). exists f1. intros nf' fuel' post edns sent als rs N1 N2 N3 N4 N5 N6 N7.
  split; [exact (answers_brought ignore parallel get es ops A now t0 ql (q_type q0) als rs A1 HO HC Hr N5)|]. exact (H1 nf' fuel' post edns sent als rs N1 N2 N3 N4 N5 N6 N7).
Qed.
Print Assumptions C83_sound_partial.

(** * Examples *)
(** The response of C61 (a.b is an alias of c.b, which has an address; a mail exchanger) at two times, with a removal in between; a response that is not the first and a removal afterwards. *)
Definition resp83 (first : bool) (t : Z) : response := mk_response first ex61 [7; 7] [97; 46; 98] (fun k => t + k) (repeat 1 254) (repeat 1 512).
Lemma resp83_ok first t : response_ok (resp83 first t).
Proof. exact (proj1 (resp61_ok first)). Qed.
Lemma name3 a b c : (0 < a < 256 /\ a <> 46) -> (0 < b < 256 /\ b <> 46) -> (0 < c < 256 /\ c <> 46) -> name_ok [[a]; [b]; [c]].
Proof. intros Ha Hb Hc. constructor; [|constructor; [|constructor; [|constructor]]]; (split; [cbn; lia|]); constructor; try constructor; try lia. Qed.
Lemma stored61 x rec : In x (to_cache ex61) -> stored_as ex61 x rec -> In rec recs61.
Proof.
  pose proof (proj2 (resp61_ok true)) as H. revert H. generalize recs61 as l'. generalize (to_cache ex61) as l. induction l as [|y l IH]; intros l' H Hi Hs; [destruct Hi|]. inversion H as [|? y' ? ? Hy Hl]; subst.
  destruct Hi as [->|Hi]; [left; exact (C61_stored_unique _ _ _ _ Hy Hs)|right; exact (IH _ Hl Hi Hs)].
Qed.
Lemma plain83 first t : plain_event (Got (resp83 first t)).
Proof.
  intros x rec Hx Hs. apply (stored61 x rec Hx) in Hs. destruct Hs as [<-|[<-|[<-|[]]]]; cbn [r_type r_data].
  - exists (wire [[99]; [98]]). apply (wd_name 5 [[99]; [98]]); [cbn; auto|apply fx_name; lia|discriminate|cbn; lia].
  - exists [10; 0; 0; 1]. apply wd_raw; [cbn; auto|]. repeat (constructor; [unfold is_byte; lia|]). constructor.
  - exists (be16 10 ++ wire [[109]; [97]; [98]]). apply (wd_mx 10 [[109]; [97]; [98]]); [lia|apply name3; lia|cbn; lia].
Qed.
Definition before83 : list event := [Got (resp83 true 100); Swept 500].
Definition after83 : list event := [Got (resp83 false 1010); Swept 1020].
Definition q83 : message := mk_msg [18; 52; 1; 32] [mk_q (plain [[97]; [98]]) 1 1] [] [] [opt_record].
Definition als83 : list rr := [mk_rr (plain [[97]; [98]]) 5 1 32 (wire [[99]; [98]])].
Definition rs83 : list rr := [mk_rr (plain [[99]; [98]]) 1 1 33 [10; 0; 0; 1]].
Definition all83 : list event := before83 ++ Got (resp83 true 1000) :: after83.
Definition sent83 (es : list event) (now : Z) : Z * list Z :=
  match do_events no_raw false false no_rule 30 30 (cache_init 4000 128) es with
  | Ret c => fx_get (fetch no_raw false 50 (repeat 0 254) 200 c (enc_msg q83 ++ repeat 0 100) (length (enc_msg q83)) true now true)
  | _ => (98, [])
  end.
Example C83_nonvacuous : (128 + 4 * 128 + 544 * received false (before83 ++ [Got (resp83 true 1000)]) <= 4000)%nat /\ Forall event_ok all83 /\ Forall plain_event all83 /\ ascending 0 (flat_map (event_times false) all83) 1030 /\
  Forall2 (stored_as ex61) (to_cache ex61) recs61 /\ Forall storable recs61 /\ (forall rec, In rec recs61 -> life no_rule (resp83 true 1000) rec <> 0) /\ ForallOrdPairs unlike recs61 /\
  (forall rec' t l, arrived no_rule false before83 rec' t l -> forall rec x, In rec recs61 -> In x (to_cache ex61) -> r_name rec' = r_name rec -> t + l <= 1000 + num x) /\
  (forall rec' t l, arrived no_rule false after83 rec' t l -> forall rec, In rec recs61 -> r_name rec' <> r_name rec) /\
  answers false (rev (arrivals no_rule (resp83 true 1000) recs61)) 1030 [[97]; [98]] 1 als83 rs83 /\ (length (enc_msg (full_reply q83 true (als83 ++ rs83))) <= 100)%nat /\
  sent83 all83 1030 = (0, [18; 52; 129; 160; 0; 1; 0; 2; 0; 0; 0; 1; 1; 97; 1; 98; 0; 0; 1; 0; 1;
       192; 12; 0; 5; 0; 1; 0; 0; 0; 32; 0; 5; 1; 99; 1; 98; 0;
       192; 33; 0; 1; 0; 1; 0; 0; 0; 33; 0; 4; 10; 0; 0; 1;
       0; 0; 41; 5; 0; 0; 0; 0; 0; 0; 0]).
Proof.
  assert (Eto : map num (to_cache ex61) = [2; 3; 6]) by (vm_compute; reflexivity).
  split; [apply Nat.leb_le; vm_compute; reflexivity|].
  split; [repeat (constructor; [first [apply resp83_ok|exact I]|]); constructor|]. split; [repeat (constructor; [first [apply plain83|exact I]|]); constructor|].
  split; [vm_compute; repeat split; discriminate|]. split; [exact (proj2 (resp61_ok true))|].
  split; [repeat (constructor; [split; [discriminate|apply Nat.ltb_lt; vm_compute; reflexivity]|]); constructor|].
  split; [intros rec [<-|[<-|[<-|[]]]]; vm_compute; discriminate|].
  assert (HU : forall r r', r_type r <> r_type r' -> unlike r r') by (intros r r' H _ H' _; contradiction).
  split; [repeat first [apply FOP_nil|apply FOP_cons|apply Forall_nil|apply Forall_cons|apply HU; discriminate]|].
  split.
  { intros rec' t l H rec x Hr Hx _. destruct H as [p y rec' Hp Hf Hy Hs]. destruct Hp as [Hp|[Hp|[]]]; [|discriminate]. assert (p = resp83 true 100) by congruence. subst p. change (p_msg (resp83 true 100)) with ex61 in Hy, Hs.
    pose proof (stored61 y rec' Hy Hs) as Hi. apply (in_map num) in Hy. apply (in_map num) in Hx. rewrite Eto in Hy, Hx. change (p_clk (resp83 true 100) (num y)) with (100 + num y).
    assert (life no_rule (resp83 true 100) rec' <= 90) by (destruct Hi as [<-|[<-|[<-|[]]]]; vm_compute; discriminate). cbn [In] in Hx, Hy. lia. }
  split.
  { intros rec' t l H. exfalso. destruct H as [p y rec' Hp Hf Hy Hs]. destruct Hp as [Hp|[Hp|[]]]; [|discriminate]. assert (p = resp83 false 1010) by congruence. subst p. discriminate. }
  split.
  { exists [[99]; [98]]. split.
    - change (1 =? 5) with false. cbv iota. eapply al_step with (e := mk_entry [97; 46; 98] 5 1 [99; 46; 98; 0] 60 1002);
        [vm_compute; reflexivity|apply (wd_name 5 [[99]; [98]]); [cbn; auto|apply fx_name; lia|discriminate|cbn; lia]|apply fx_name; lia|reflexivity|]. apply al_end. vm_compute. reflexivity.
    - replace (a_lookup false _ _ _ _ _) with [([10; 0; 0; 1], 33)] by (vm_compute; reflexivity). constructor; [|constructor]. repeat split. apply wd_raw; [cbn; auto|]. repeat (constructor; [unfold is_byte; lia|]). constructor. }
  split; [apply Nat.leb_le; vm_compute; reflexivity|]. vm_compute. reflexivity.
Qed.

(** With IgnoreTTL, the response comes at 1000 and, not as the first to a question, at 1010; its records are sent a day later, with the TTLs that they came with. *)
Example C83_ignore_nonvacuous : let es' := [Got (resp83 false 1010)] in
  (128 + 4 * 128 + 544 * received false ([] ++ [Got (resp83 true 1000)]) <= 4000)%nat /\ Forall event_ok (Got (resp83 true 1000) :: es') /\ Forall plain_event (Got (resp83 true 1000) :: es') /\
  (forall t, ~ In (Swept t) (Got (resp83 true 1000) :: es')) /\ level no_rule false (resp83 true 1000) recs61 /\
  (forall rec' t l, arrived no_rule false ([] ++ es') rec' t l -> forall rec, In rec recs61 -> r_name rec' <> r_name rec) /\
  answers true (rev (arrivals no_rule (resp83 true 1000) recs61)) 87400 [[97]; [98]] 1 [mk_rr (plain [[97]; [98]]) 5 1 60 (wire [[99]; [98]])] [mk_rr (plain [[99]; [98]]) 1 1 60 [10; 0; 0; 1]] /\
  (match do_events no_raw true false no_rule 30 30 (cache_init 4000 128) (Got (resp83 true 1000) :: es') with
   | Ret c => fx_get (fetch no_raw true 50 (repeat 0 254) 200 c (enc_msg q83 ++ repeat 0 100) (length (enc_msg q83)) true 87400 true)
   | _ => (98, [])
   end) = (0, [18; 52; 129; 160; 0; 1; 0; 2; 0; 0; 0; 1; 1; 97; 1; 98; 0; 0; 1; 0; 1;
       192; 12; 0; 5; 0; 1; 0; 0; 0; 60; 0; 5; 1; 99; 1; 98; 0;
       192; 33; 0; 1; 0; 1; 0; 0; 0; 60; 0; 4; 10; 0; 0; 1;
       0; 0; 41; 5; 0; 0; 0; 0; 0; 0; 0]).
Proof.
  split; [apply Nat.leb_le; vm_compute; reflexivity|].
  split; [repeat (constructor; [apply resp83_ok|]); constructor|]. split; [repeat (constructor; [apply plain83|]); constructor|].
  split; [intros t [X|[X|[]]]; discriminate|]. split; [discriminate|].
  split; [intros rec' t l H; exfalso; destruct H as [p y rec' Hp Hf Hy Hs]; destruct Hp as [Hp|[]]; assert (p = resp83 false 1010) by congruence; subst p; discriminate|].
  split; [|vm_compute; reflexivity].
  exists [[99]; [98]]. split.
  - change (1 =? 5) with false. cbv iota. eapply al_step with (e := mk_entry [97; 46; 98] 5 1 [99; 46; 98; 0] 60 1002);
      [vm_compute; reflexivity|apply (wd_name 5 [[99]; [98]]); [cbn; auto|apply fx_name; lia|discriminate|cbn; lia]|apply fx_name; lia|reflexivity|]. apply al_end. vm_compute. reflexivity.
  - replace (a_lookup true _ _ _ _ _) with [([10; 0; 0; 1], 60)] by (vm_compute; reflexivity). constructor; [|constructor]. repeat split. apply wd_raw; [cbn; auto|]. repeat (constructor; [unfold is_byte; lia|]). constructor.
Qed.

(** The general statement is false: when a record of the response is in the cache already, the lifetime that the response gives it does not count.  Here the same response comes at 1000 and again, as the first
    to a new question, at 1050; its records live for 60 seconds and more.  At 1080 nothing is left to be sent. *)
Theorem C83_repeated_refuted : Forall event_ok [Got (resp83 true 1000); Got (resp83 true 1050)] /\ Forall plain_event [Got (resp83 true 1000); Got (resp83 true 1050)] /\
  (forall rec, In rec recs61 -> 60 <= life no_rule (resp83 true 1050) rec) /\ (forall x, In x (to_cache ex61) -> 1050 <= p_clk (resp83 true 1050) (num x) <= 1080 /\ 1080 < p_clk (resp83 true 1050) (num x) + 60) /\
  (exists als rs, rs <> [] /\ answers false (rev (arrivals no_rule (resp83 true 1050) recs61)) 1080 [[97]; [98]] 1 als rs) /\
  sent83 [Got (resp83 true 1000); Got (resp83 true 1050)] 1080 = (-3, enc_msg q83) /\ fst (sent83 [Got (resp83 true 1050)] 1080) = 0.
Proof.
  assert (Eto : map num (to_cache ex61) = [2; 3; 6]) by (vm_compute; reflexivity).
  split; [repeat (constructor; [apply resp83_ok|]); constructor|]. split; [repeat (constructor; [apply plain83|]); constructor|].
  split; [intros rec [<-|[<-|[<-|[]]]]; vm_compute; discriminate|].
  split; [intros x Hx; apply (in_map num) in Hx; rewrite Eto in Hx; change (p_clk (resp83 true 1050) (num x)) with (1050 + num x); cbn [In] in Hx; lia|].
  split.
  { exists [mk_rr (plain [[97]; [98]]) 5 1 32 (wire [[99]; [98]])], [mk_rr (plain [[99]; [98]]) 1 1 33 [10; 0; 0; 1]]. split; [discriminate|]. exists [[99]; [98]]. split.
    - change (1 =? 5) with false. cbv iota. eapply al_step with (e := mk_entry [97; 46; 98] 5 1 [99; 46; 98; 0] 60 1052);
        [vm_compute; reflexivity|apply (wd_name 5 [[99]; [98]]); [cbn; auto|apply fx_name; lia|discriminate|cbn; lia]|apply fx_name; lia|reflexivity|]. apply al_end. vm_compute. reflexivity.
    - replace (a_lookup false _ _ _ _ _) with [([10; 0; 0; 1], 33)] by (vm_compute; reflexivity). constructor; [|constructor]. repeat split. apply wd_raw; [cbn; auto|]. repeat (constructor; [unfold is_byte; lia|]). constructor. }
  split; vm_compute; reflexivity.
Qed.
Print Assumptions C83_repeated_refuted.
