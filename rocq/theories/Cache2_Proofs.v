(** Lemmas about dnscache.c: the cache as a list of records. *)
From Verif Require Import Base BaseFacts ListFacts List2Facts Hash_Model Sht_Model Sht_Proofs Gen_Model Cht_Model Cht_Proofs Cht_Inv Cache_Model Cache_Spec Cache_Proofs.
From Coq Require Import Permutation.
Require Import ZifyBool ZifyNat.

(** * Keys *)
Definition dig (d : Z) : Z := if d <? 58 then d - 48 else d - 55.
Definition unhex (l : list Z) : Z := fold_left (fun a d => a * 16 + dig d) l 0.
Lemma hex_digit_range d : 0 <= d < 16 -> 48 <= hex_digit d <= 70 /\ dig (hex_digit d) = d.
Proof. intros H. unfold hex_digit, dig. destruct (Z.ltb_spec d 10); [destruct (Z.ltb_spec (48 + d) 58)|destruct (Z.ltb_spec (55 + d) 58)]; lia. Qed.
Lemma hex_loop_range fuel : forall v d, 0 <= v -> In d (hex_loop fuel v) -> 48 <= d <= 70.
Proof.
  induction fuel as [|fuel IH]; intros v d Hv; cbn [hex_loop]; [intros []|]. destruct (Z.ltb_spec v 16).
  - intros [<-|[]]. apply hex_digit_range. lia.
  - rewrite in_app_iff. intros [Hd|[<-|[]]]; [eapply IH; [|exact Hd]; apply Z.div_pos; lia|]. apply hex_digit_range. apply Z.mod_pos_bound. lia.
Qed.
Lemma unhex_loop fuel : forall v, 0 <= v < 16 ^ Z.of_nat fuel -> unhex (hex_loop fuel v) = v.
Proof.
  induction fuel as [|fuel IH]; intros v Hv; cbn [hex_loop].
  - change (16 ^ Z.of_nat 0) with 1 in Hv. cbn. lia.
  - destruct (Z.ltb_spec v 16) as [Hl|Hl].
    + unfold unhex. cbn [fold_left]. rewrite (proj2 (hex_digit_range v ltac:(lia))). lia.
    + unfold unhex. rewrite fold_left_app. fold (unhex (hex_loop fuel (v / 16))). rewrite IH.
      * cbn [fold_left]. rewrite (proj2 (hex_digit_range (v mod 16) (Z.mod_pos_bound v 16 ltac:(lia)))). pose proof (Z.div_mod v 16 ltac:(lia)). lia.
      * rewrite Nat2Z.inj_succ, Z.pow_succ_r in Hv by lia. split; [apply Z.div_pos; lia|]. apply Z.div_lt_upper_bound; lia.
Qed.
Lemma hex_inj a b : 0 <= a < 65536 -> 0 <= b < 65536 -> hex a = hex b -> a = b.
Proof.
  intros Ha Hb E. unfold hex in E. rewrite <- (unhex_loop 8 a), <- (unhex_loop 8 b), E; [reflexivity| |];
    change (16 ^ Z.of_nat 8) with 4294967296; lia.
Qed.
Lemma hex_no v x : 0 <= v -> (x < 48 \/ 70 < x) -> ~ In x (hex v).
Proof. intros Hv Hx Hi. apply hex_loop_range in Hi; lia. Qed.
Lemma split_right (x : Z) a b a' b' : ~ In x b -> ~ In x b' -> a ++ x :: b = a' ++ x :: b' -> a = a' /\ b = b'.
Proof.
  revert a'. induction a as [|y a IH]; intros [|y' a'] Hb Hb' E; cbn [app] in E.
  - injection E as E. auto.
  - exfalso. injection E as _ E. apply Hb. rewrite E. apply in_or_app. cbn; auto.
  - exfalso. injection E as _ E. apply Hb'. rewrite <- E. apply in_or_app. cbn; auto.
  - injection E as -> E. destruct (IH a' Hb Hb' E) as (-> & ->). auto.
Qed.
Lemma triplet_inj n t k n' t' k' : 0 <= t < 65536 -> 0 <= k < 65536 -> 0 <= t' < 65536 -> 0 <= k' < 65536 ->
  triplet n t k = triplet n' t' k' -> n = n' /\ t = t' /\ k = k'.
Proof.
  intros H1 H2 H3 H4. unfold triplet. rewrite !app_comm_cons, !app_assoc. intros E.
  apply split_right in E; [|apply hex_no; lia|apply hex_no; lia]. destruct E as (E & E2).
  apply split_right in E; [|apply hex_no; lia|apply hex_no; lia]. destruct E as (-> & E1).
  apply hex_inj in E1; [|lia|lia]. apply hex_inj in E2; [|lia|lia]. auto.
Qed.
Lemma triplet_no_nul n t k : ~ In 0 n -> 0 <= t -> 0 <= k -> ~ In 0 (triplet n t k).
Proof.
  intros Hn Ht Hk. unfold triplet. rewrite in_app_iff. cbn [In]. rewrite in_app_iff. cbn [In].
  pose proof (hex_no t 0 Ht ltac:(lia)). pose proof (hex_no k 0 Hk ltac:(lia)). intuition discriminate.
Qed.

(** * The list of records *)
Definition item (e : entry) : sitem := mk_si (triplet (e_name e) (e_type e) (e_class e) ++ 0 :: e_data e) (e_ttl e) (e_time e).
Definition wf_entry (e : entry) : Prop := ~ In 0 (e_name e) /\ 0 <= e_type e < 65536 /\ 0 <= e_class e < 65536 /\ 0 <= e_ttl e < 4294967296.
Definition kform (L : list (nat * sitem)) : Prop := forall i e, In (i, e) L -> exists d, si_bytes e = si_key e ++ 0 :: d.
Record rep (c : cache) (A : list entry) : Prop := {
  r_inv : exists L F, inv0 c [] L F /\ map snd L = map item A;
  r_end : c_end c = start (c_nodes c);
  r_count : c_count c = Z.of_nat (length A);
  r_wf : Forall wf_entry A }.

Lemma item_key e : wf_entry e -> si_key (item e) = triplet (e_name e) (e_type e) (e_class e).
Proof. intros (H1 & H2 & H3 & _). unfold si_key, item. cbn [si_bytes]. apply cstr_nul. apply triplet_no_nul; [exact H1|lia|lia]. Qed.
Lemma kform_of L A : map snd L = map item A -> Forall wf_entry A -> kform L.
Proof.
  intros E HA i e Hi. assert (Hin : In e (map item A)) by (rewrite <- E; apply in_map_iff; exists (i, e); auto).
  apply in_map_iff in Hin. destruct Hin as (a & <- & Ha). exists (e_data a). rewrite item_key; [reflexivity|]. rewrite Forall_forall in HA. auto.
Qed.
Lemma same_key_iff name ty kl e : same_key name ty kl e = true <-> e_name e = name /\ e_type e = ty /\ e_class e = kl.
Proof. unfold same_key. rewrite !andb_true_iff, !Z.eqb_eq. destruct (list_eq_dec Z.eq_dec (e_name e) name); intuition congruence. Qed.
Lemma same_key_item name ty kl e : wf_entry e -> 0 <= ty < 65536 -> 0 <= kl < 65536 ->
  same_key name ty kl e = if list_eq_dec Z.eq_dec (si_key (item e)) (triplet name ty kl) then true else false.
Proof.
  intros He Ht Hk. rewrite item_key by exact He. destruct He as (_ & H2 & H3 & _).
  destruct (list_eq_dec Z.eq_dec _ _) as [E|E].
  - apply same_key_iff. apply triplet_inj in E; auto.
  - destruct (same_key name ty kl e) eqn:Es; [|reflexivity]. apply same_key_iff in Es. destruct Es as (<- & <- & <-). congruence.
Qed.

(** * Searching by key *)
Section Search.
Context (raw : list Z -> list cnode -> nat -> Z) (ignore : bool).
Notation find_from := (find_from raw ignore).
Notation sfresh := (sfresh ignore).

Definition keyQ (key : list Z) (now : Z) (e : sitem) : bool := sfresh now e && (if list_eq_dec Z.eq_dec (si_key e) key then true else false).
Definition keyP (key : list Z) (now : Z) (p : nat * sitem) : bool := keyQ key now (snd p).
Definition slotP (c : cache) (s : nat) (p : nat * sitem) : bool := Nat.eqb (slot_of c (si_key (snd p))) s.

(** The search has come to the end of [L1]. *)
Definition from_ (c : cache) (s : nat) (L1 : list (nat * sitem)) (start : option Z) : Prop :=
  match start with
  | None => L1 = []
  | Some z => exists L0 i e, z = Z.of_nat i /\ L1 = L0 ++ [(i, e)] /\ slot_of c (si_key e) = s
  end.
Lemma inv_length c X L F : inv0 c X L F -> (length L <= length (c_nodes c))%nat.
Proof.
  intros H. pose proof (Permutation_length (v_part _ _ _ _ H)) as E. rewrite !app_length, map_length, seq_length in E. lia.
Qed.
Lemma live_bottom c X L F i e n : inv0 c X L F -> In (i, e) L -> nth_error (c_nodes c) i = Some n -> (n_off n + 1 + length (si_bytes e) <= bottom c)%nat.
Proof.
  intros H Hi Hn. destruct (v_live _ _ _ _ H i e Hi) as (m & Hm & [_ _ _ _ E _]). assert (m = n) by congruence. subst m.
  pose proof (chunk_end _ _ _ _ _ _ H Hn). pose proof (bottom_ge _ _ _ _ H). pose proof (round16_le (1 + length (si_bytes e))). lia.
Qed.
Lemma from_at c X L1 L2 F key start : inv0 c X (L1 ++ L2) F -> from_ c (slot_of c key) L1 start ->
  at_ c key start (map fst (filter (slotP c (slot_of c key)) L2)) /\ seg n_next (c_nodes c) (map fst (filter (slotP c (slot_of c key)) L2)) (-1).
Proof.
  intros H Hf. set (s := slot_of c key) in *. destruct (v_chain _ _ _ _ H s (slot_of_lt c key (v_slots _ _ _ _ H))) as (Hh & Hs).
  change (map fst (filter (slotP c s) L2)) with (bucket c L2 s).
  destruct start as [z|]; cbn [from_ at_] in *.
  - destruct Hf as (L0 & i & e & -> & -> & Es). rewrite !bucket_app, bucket_cons, Es, Nat.eqb_refl in Hs. cbn [app] in Hs. rewrite <- app_assoc in Hs.
    cbn [app] in Hs. change (bucket c [] s) with (@nil nat) in Hs. pose proof Hs as Hs'. rewrite seg_app in Hs. destruct Hs as (_ & Hs). cbn [seg] in Hs. destruct Hs as ((n & Hn & E) & Hs).
    split; [|exact Hs]. exists i, n. auto.
  - subst L1. cbn [app] in *. auto.
Qed.
Lemma find_key c X L1 L2 F key start now : inv0 c X (L1 ++ L2) F -> kform (L1 ++ L2) -> ~ In 0 key -> from_ c (slot_of c key) L1 start ->
  find_from c (key ++ [0]) start now = Ret (first (filter (keyP key now) L2)).
Proof.
  intros H HK Hn Hf. unfold Cache_Model.find_from. destruct (from_at c X L1 L2 F key start H Hf) as (Ha & Hs).
  set (P := filter (slotP c (slot_of c key)) L2) in *.
  rewrite (find_loop_ok raw ignore c (key ++ [0]) now (keyQ key now) P start).
  - f_equal. f_equal. unfold P. rewrite filter_filter. apply filter_ext. intros [i e]. unfold slotP, keyP, keyQ. cbn [snd].
    destruct (list_eq_dec Z.eq_dec (si_key e) key) as [->|]; [rewrite Nat.eqb_refl; reflexivity|rewrite !andb_false_r; reflexivity].
  - rewrite cstr_nul by exact Hn. exact Ha.
  - exact Hs.
  - pose proof (inv_length _ _ _ _ H). rewrite app_length in *. pose proof (filter_length_le' (slotP c (slot_of c key)) L2). unfold P. lia.
  - intros i e Hi. assert (Hin : In (i, e) (L1 ++ L2)) by (apply in_or_app; right; unfold P in Hi; apply filter_In in Hi; tauto).
    destruct (v_live _ _ _ _ H i e Hin) as (n & Hn' & [C1 C2 C3 C4 C5 C6]). exists n. split; [exact Hn'|]. split; [exact C2|]. split; [exact C3|].
    destruct (HK i e Hin) as (d & Ed). unfold keyQ. split; [intros ->|intros ->; reflexivity]. cbn [andb].
    rewrite (mem_eq_spec raw c (si_bytes e)); [|exact C6|eapply live_bottom; eauto].
    assert (Hk : ~ In 0 (si_key e)) by (intros Hx; apply cstr_in in Hx; congruence).
    rewrite Ed, (prefix_key key (si_key e) d Hn Hk). destruct (list_eq_dec Z.eq_dec (si_key e) key) as [|Hne]; [reflexivity|].
    destruct (is_prefix (si_key e ++ 0 :: d) (key ++ [0])) eqn:Ep; [|reflexivity]. exfalso. apply is_prefix_iff in Ep. destruct Ep as (z & Ep).
    apply Hne. rewrite <- (cstr_nul (si_key e) (d ++ z) Hk), <- (cstr_nul key [] Hn), Ep, <- app_assoc. reflexivity.
Qed.

(** Reading the data. *)
Lemma rd_bytes_ok c bs : forall off, slice (c_mem c) off (length bs) = Some bs -> (off + length bs <= bottom c)%nat -> rd_bytes raw c off (length bs) = Ret bs.
Proof.
  induction bs as [|b bs IH]; intros off Hs Hb; cbn [length rd_bytes]; [reflexivity|]. cbn [length] in *.
  rewrite (rd_mem raw c off b); [|lia|].
  2:{ pose proof (slice_nth _ _ _ _ 0 Hs ltac:(lia)) as E. rewrite Nat.add_0_r in E. cbn in E. congruence. }
  cbn [bind]. rewrite IH; [reflexivity| |lia].
  assert (E : slice (c_mem c) (S off) (length bs) = Some (skipn 1 (b :: bs))).
  { apply slice_some in Hs. destruct Hs as (Hl & Hs). apply slice_some. split; [lia|]. rewrite Hs.
    change (S (length bs)) with (1 + length bs)%nat. rewrite skipn_firstn_comm. replace (1 + length bs - 1)%nat with (length bs) by lia. rewrite skipn_skipn'. f_equal. f_equal. lia. }
  exact E.
Qed.
Lemma slice_tail {A} (m : list A) off (a b : list A) : slice m off (length (a ++ b)) = Some (a ++ b) -> slice m (off + length a) (length b) = Some b.
Proof.
  rewrite !slice_some, app_length. intros (H1 & H2). split; [lia|].
  assert (E : skipn (length a) (a ++ b) = b) by (rewrite skipn_app, skipn_all, Nat.sub_diag; reflexivity).
  rewrite <- E at 1. rewrite H2, skipn_firstn_comm, skipn_skipn'. f_equal; lia.
Qed.

Definition sdata (key : list Z) (e : sitem) : list Z := skipn (length key + 1) (si_bytes e).
Definition sserved (now : Z) (e : sitem) : Z := if ignore then si_ttl e else u32 (si_ttl e - (now - si_time e)).
Lemma raw_loop_ok c X F name ty kl now : ~ In 0 (triplet name ty kl) -> forall R L1 L2 start fuel ret g,
  inv0 c X (L1 ++ L2) F -> kform (L1 ++ L2) -> from_ c (slot_of c (triplet name ty kl)) L1 start ->
  filter (keyP (triplet name ty kl) now) L2 = R -> (length R < fuel)%nat ->
  raw_loop raw ignore fuel c name ty kl start now ret g =
    serve name ty kl (map (fun p => (sdata (triplet name ty kl) (snd p), sserved now (snd p))) (filter (fun p => negb (si_ttl (snd p) =? 0)) R)) ret g.
Proof.
  intros Hn. set (key := triplet name ty kl) in *. induction R as [|[i e] R IH]; intros L1 L2 start fuel ret g H HK Hf HR Hfu;
    (destruct fuel as [|fuel]; [cbn [length] in Hfu; lia|]); cbn [raw_loop]; fold key; rewrite (find_key c X L1 L2 F key start now H HK Hn Hf), HR; cbn [first bind].
  - reflexivity.
  - destruct (filter_split _ _ _ _ HR) as (La & Lb & -> & Hq & HLa & HLb).
    assert (Hin : In (i, e) (L1 ++ La ++ (i, e) :: Lb)) by (apply in_or_app; right; apply in_or_app; cbn; auto).
    destruct (v_live _ _ _ _ H i e Hin) as (n & Hn' & [C1 C2 C3 C4 C5 C6]). rewrite (derefn_nat c i n Hn'). cbn [bind].
    unfold keyP, keyQ in Hq. cbn [snd] in Hq. apply andb_true_iff in Hq. destruct Hq as (_ & Hq). destruct (list_eq_dec Z.eq_dec (si_key e) key) as [Ek|]; [|discriminate].
    assert (IH' : forall ret g, raw_loop raw ignore fuel c name ty kl (Some (Z.of_nat i)) now ret g =
       serve name ty kl (map (fun p => (sdata key (snd p), sserved now (snd p))) (filter (fun p => negb (si_ttl (snd p) =? 0)) R)) ret g).
    { intros ret' g'. apply (IH (L1 ++ La ++ [(i, e)]) Lb); [| | |exact HLb|cbn [length] in Hfu; lia].
      - rewrite <- !app_assoc. exact H.
      - rewrite <- !app_assoc. exact HK.
      - cbn [from_]. exists (L1 ++ La), i, e. rewrite app_assoc, Ek. auto. }
    cbn [filter snd]. rewrite C2. destruct (si_ttl e =? 0) eqn:Ez; cbn [negb]; [apply IH'|].
    destruct (HK i e Hin) as (d & Ed). rewrite Ek in Ed.
    assert (Hd : sdata key e = d).
    { unfold sdata. rewrite Ed. replace (length key + 1)%nat with (length (key ++ [0])) by (rewrite app_length; reflexivity). change (key ++ 0 :: d) with (key ++ [0] ++ d). rewrite app_assoc.
      rewrite skipn_app, skipn_all, Nat.sub_diag. reflexivity. }
    assert (Hlen : length (si_bytes e) = (length key + 1 + length d)%nat) by (rewrite Ed, app_length; cbn [length]; lia).
    rewrite C4. replace (Z.to_nat _) with (length d) by lia.
    rewrite rd_bytes_ok.
    + cbn [bind map serve snd]. rewrite Hd. replace (served_ttl ignore n now) with (sserved now e) by (unfold served_ttl, sserved; rewrite C2, C3; reflexivity).
      destruct (gen_generate name ty kl d (sserved now e) g) as [[e' g']| | |]; cbn [bind]; try reflexivity. destruct (e' =? 0); [apply IH'|reflexivity].
    + replace (n_off n + 1 + length key + 1)%nat with ((n_off n + 1) + length (key ++ [0%Z]))%nat by (rewrite app_length; cbn [length]; lia).
      apply slice_tail. rewrite <- app_assoc. cbn [app]. rewrite <- Ed. exact C6.
    + pose proof (live_bottom c X _ F i e n H Hin Hn'). lia.
Qed.
End Search.

(** * Lifetimes of records of one key *)
Section Level.
Context (raw : list Z -> list cnode -> nat -> Z) (ignore : bool).
Notation keyP := (keyP ignore).

Lemma min_loop_ok c X F key now : ~ In 0 key -> forall R L1 L2 start fuel ttl,
  inv0 c X (L1 ++ L2) F -> kform (L1 ++ L2) -> from_ c (slot_of c key) L1 start -> filter (keyP key now) L2 = R -> (length R < fuel)%nat ->
  min_loop raw ignore fuel c (key ++ [0]) start now ttl = Ret (fold_left Z.min (map (fun p => u32 (si_ttl (snd p) - (now - si_time (snd p)))) R) ttl).
Proof.
  intros Hn. induction R as [|[i e] R IH]; intros L1 L2 start fuel ttl H HK Hf HR Hfu;
    (destruct fuel as [|fuel]; [cbn [length] in Hfu; lia|]); cbn [min_loop]; rewrite (find_key raw ignore c X L1 L2 F key start now H HK Hn Hf), HR; cbn [first bind].
  - reflexivity.
  - destruct (filter_split _ _ _ _ HR) as (La & Lb & -> & Hq & HLa & HLb).
    assert (Hin : In (i, e) (L1 ++ La ++ (i, e) :: Lb)) by (apply in_or_app; right; apply in_or_app; cbn; auto).
    destruct (v_live _ _ _ _ H i e Hin) as (n & Hn' & [C1 C2 C3 C4 C5 C6]). rewrite (derefn_nat c i n Hn'). cbn [bind].
    unfold Cache2_Proofs.keyP, keyQ in Hq. cbn [snd] in Hq. apply andb_true_iff in Hq. destruct Hq as (_ & Hq). destruct (list_eq_dec Z.eq_dec (si_key e) key) as [Ek|]; [|discriminate].
    rewrite (IH (L1 ++ La ++ [(i, e)]) Lb); [| | | |exact HLb|cbn [length] in Hfu; lia].
    + cbn [map fold_left snd]. rewrite C2, C3. f_equal. f_equal. destruct (Z.ltb_spec (u32 (si_ttl e - (now - si_time e))) ttl); lia.
    + rewrite <- !app_assoc. exact H.
    + rewrite <- !app_assoc. exact HK.
    + cbn [from_]. exists (L1 ++ La), i, e. rewrite app_assoc, Ek. auto.
Qed.

Definition upd (key : list Z) (now t : Z) (p : nat * sitem) : nat * sitem := if keyP key now p then (fst p, mk_si (si_bytes (snd p)) t now) else p.
Lemma upd_none key now t L : filter (keyP key now) L = [] -> map (upd key now t) L = L.
Proof.
  induction L as [|p L IH]; cbn [filter map]; [reflexivity|]. unfold upd at 1. destruct (keyP key now p); [discriminate|]. intros H. rewrite IH by exact H. reflexivity.
Qed.
Lemma from_key c c' s L1 L2 start : length (c_slots c') = length (c_slots c) -> map (fun p => (fst p, si_key (snd p))) L1 = map (fun p => (fst p, si_key (snd p))) L2 -> from_ c s L1 start -> from_ c' s L2 start.
Proof.
  intros Hs E H. destruct start as [z|]; cbn [from_] in *.
  - destruct H as (L0 & i & e & -> & -> & Hx). rewrite map_app in E. cbn [map fst snd] in E. symmetry in E. apply map_eq_app in E. destruct E as (l1 & l2 & -> & E1 & E2).
    destruct l2 as [|[i' e'] [|? ?]]; try discriminate. cbn [map fst snd] in E2. injection E2 as -> E2. exists l1, i, e'. split; [reflexivity|]. split; [reflexivity|].
    rewrite <- Hx. unfold slot_of. rewrite Hs, E2. reflexivity.
  - subst. destruct L2; [reflexivity|discriminate].
Qed.
(** What stays the same. *)
Definition keeps (c c' : cache) (X : list nat) : Prop :=
  c_mem c' = c_mem c /\ c_size c' = c_size c /\ c_slots c' = c_slots c /\ c_free c' = c_free c /\ c_end c' = c_end c /\ c_count c' = c_count c /\ map lay (c_nodes c') = map lay (c_nodes c) /\
  forall i, In i X -> nth_error (c_nodes c') i = nth_error (c_nodes c) i.
Lemma equal_loop_ok X F key now t : ~ In 0 key -> forall R c L1 L2 start fuel,
  inv0 c X (L1 ++ L2) F -> kform (L1 ++ L2) -> from_ c (slot_of c key) L1 start -> filter (keyP key now) L2 = R -> (length R < fuel)%nat ->
  exists c', equal_loop raw ignore fuel c (key ++ [0]) start now t = Ret c' /\ inv0 c' X (L1 ++ map (upd key now t) L2) F /\ keeps c c' X.
Proof.
  intros Hn. induction R as [|[i e] R IH]; intros c L1 L2 start fuel H HK Hf HR Hfu;
    (destruct fuel as [|fuel]; [cbn [length] in Hfu; lia|]); cbn [equal_loop]; rewrite (find_key raw ignore c X L1 L2 F key start now H HK Hn Hf), HR; cbn [first bind].
  - exists c. split; [reflexivity|]. rewrite upd_none by exact HR. split; [exact H|]. unfold keeps. auto 10.
  - destruct (filter_split _ _ _ _ HR) as (La & Lb & -> & Hq & HLa & HLb).
    assert (Hin : In (i, e) (L1 ++ La ++ (i, e) :: Lb)) by (apply in_or_app; right; apply in_or_app; cbn; auto).
    destruct (v_live _ _ _ _ H i e Hin) as (n & Hn' & _). rewrite (derefn_nat c i n Hn'). cbn [bind].
    pose proof Hq as Hq'. unfold Cache2_Proofs.keyP, keyQ in Hq. cbn [snd] in Hq. apply andb_true_iff in Hq. destruct Hq as (_ & Hq). destruct (list_eq_dec Z.eq_dec (si_key e) key) as [Ek|]; [|discriminate].
    rewrite app_assoc in H. pose proof (live_upd c X i n e t now (L1 ++ La) Lb F H Hn') as H1. set (c1 := setn c (Z.of_nat i) (n_set_time (n_set_ttl n t) now)) in *.
    set (e1 := mk_si (si_bytes e) t now) in *.
    assert (Hnodes : c_nodes c1 = lset (c_nodes c) i (n_set_time (n_set_ttl n t) now)) by (unfold c1; rewrite setn_nat; reflexivity).
    destruct (IH c1 (L1 ++ La ++ [(i, e1)]) Lb (Some (Z.of_nat i)) fuel) as (c' & E & H2 & K1 & K2 & K3 & K3' & K4 & K5 & K6 & K7).
    + rewrite <- !app_assoc in *. exact H1.
    + intros j f Hj. assert (Hc : (j, f) = (i, e1) \/ In (j, f) (L1 ++ La ++ (i, e) :: Lb)).
      { rewrite !in_app_iff in *. cbn [In] in *. intuition congruence. }
      destruct Hc as [Ec|Hc]; [|exact (HK j f Hc)]. injection Ec as -> ->. exact (HK i e Hin).
    + cbn [from_]. exists (L1 ++ La), i, e1. rewrite app_assoc. split; [reflexivity|]. split; [reflexivity|]. unfold si_key in *. cbn [si_bytes e1]. rewrite Ek. reflexivity.
    + exact HLb.
    + cbn [length] in Hfu; lia.
    + exists c'. split; [exact E|]. split.
      * rewrite map_app. cbn [map]. rewrite (upd_none key now t La HLa). unfold upd at 1. rewrite Hq'. cbn [fst snd]. fold e1.
        rewrite <- !app_assoc in H2. exact H2.
      * unfold keeps. rewrite K1, K2, K3, K3', K4, K5, K6. unfold c1 at 1 2 3 4 5 6. rewrite setn_nat. cbn [c_mem c_size c_slots c_free c_end c_count with_nodes].
        repeat (split; [reflexivity|]). split; [rewrite Hnodes; eapply map_lset; [exact Hn'|reflexivity]|].
        intros j Hj. rewrite K7 by exact Hj. rewrite Hnodes. apply nth_lset_other. intros ->.
        pose proof (inv_nodup _ _ _ _ H) as HN. eapply nodup_app_disj; [exact HN|exact Hj|]. apply in_or_app. left. rewrite map_app. apply in_or_app. cbn; auto.
Qed.
End Level.
