(** Lemmas about dnscache.c: storing and removing. *)
From Verif Require Import Base BaseFacts ListFacts List2Facts Hash_Model Sht_Model Sht_Proofs Gen_Model Cht_Model Cht_Proofs Cht_Inv Cache_Model Cache_Spec Cache_Proofs Cache2_Proofs.
From Coq Require Import Permutation.
Require Import ZifyBool ZifyNat.

Lemma prefix_item t d t' d' : ~ In 0 t -> ~ In 0 t' -> prefix (t ++ 0 :: d) (t' ++ 0 :: d') <-> t = t' /\ prefix d d'.
Proof.
  intros H H'. split.
  - intros (z & E). rewrite <- app_assoc in E. cbn [app] in E. assert (Et : t = t') by (rewrite <- (cstr_nul t (d ++ z) H), <- (cstr_nul t' d' H'); congruence).
    subst t'. split; [reflexivity|]. exists z. apply app_inv_head in E. congruence.
  - intros (<- & z & ->). exists z. rewrite <- app_assoc. reflexivity.
Qed.
Lemma lift_filter (L : list (nat * sitem)) : forall A Q q, map snd L = map item A -> (forall a, In a A -> Q (item a) = q a) ->
  map snd (filter (fun p => Q (snd p)) L) = map item (filter q A).
Proof.
  induction L as [|[i e] L IH]; intros [|a A] Q q E H; try discriminate; cbn [map filter snd] in *; [reflexivity|].
  injection E as -> E. rewrite (H a (or_introl eq_refl)). pose proof (IH A Q q E ltac:(intros; apply H; cbn; auto)) as IH'. destruct (q a); cbn [map snd]; [f_equal|]; exact IH'.
Qed.
Lemma in_item (L : list (nat * sitem)) A a : map snd L = map item A -> In a A -> exists i, In (i, item a) L.
Proof.
  intros E Ha. assert (Hi : In (item a) (map snd L)) by (rewrite E; now apply in_map). apply in_map_iff in Hi. destruct Hi as ([i e] & <- & Hi). eauto.
Qed.
Lemma item_in (L : list (nat * sitem)) A i e : map snd L = map item A -> In (i, e) L -> exists a, In a A /\ e = item a.
Proof.
  intros E Hi. assert (Hx : In e (map item A)) by (rewrite <- E; apply in_map_iff; exists (i, e); auto). apply in_map_iff in Hx. destruct Hx as (a & <- & Ha). eauto.
Qed.

Lemma item_of_ok r : (exists code, item_of r = inl code /\ code < 0 /\ ~ storable r) \/
  (item_of r = inr (triplet (r_name r) (r_type r) (r_class r) ++ 0 :: r_data r) /\ storable r).
Proof.
  unfold item_of, storable. set (t := triplet (r_name r) (r_type r) (r_class r)).
  assert (Ht : (length (r_name r) <= length t)%nat) by (unfold t, triplet; rewrite app_length; lia).
  destruct (Nat.leb_spec 512 (1 + length (r_name r))); [left; eexists; split; [reflexivity|]; split; [lia|]; intros (_ & ?); lia|].
  destruct (Nat.leb_spec 512 (1 + length t)); [left; eexists; split; [reflexivity|]; split; [lia|]; intros (_ & ?); lia|].
  destruct (Nat.leb_spec 512 (1 + length t + 1)); [left; eexists; split; [reflexivity|]; split; [lia|]; intros (_ & ?); lia|].
  destruct (r_data r) as [|x d] eqn:Ed; [left; eexists; split; [reflexivity|]; split; [lia|]; intros (Hx & ?); congruence|].
  destruct (Nat.leb_spec 512 (1 + length t + 1 + length (x :: d))).
  - left; eexists; split; [reflexivity|]; split; [lia|]; intros (_ & ?); lia.
  - right. split; [reflexivity|]. split; [discriminate|lia].
Qed.

Section Add.
Context (raw : list Z -> list cnode -> nat -> Z) (ignore parallel : bool) (get : list Z -> option ctrl).
Notation fresh := (fresh ignore). Notation mates := (mates ignore).

Lemma fresh_item now a : sfresh ignore now (item a) = fresh now a. Proof. reflexivity. Qed.
Lemma mates_item r now a : rec_ok r -> wf_entry a -> keyQ ignore (triplet (r_name r) (r_type r) (r_class r)) now (item a) = mates r now a.
Proof.
  intros (_ & H1 & H2 & _) Ha. unfold keyQ, Cache_Spec.mates. rewrite fresh_item, (same_key_item _ _ _ a Ha H1 H2). apply andb_comm.
Qed.

(** Storing into a chunk that has been found. *)
Lemma store_ok c i n L F A r now life : rec_ok r -> inv0 c [i] L F -> nth_error (c_nodes c) i = Some n -> map snd L = map item A -> Forall wf_entry A ->
  let it := triplet (r_name r) (r_type r) (r_class r) ++ 0 :: r_data r in
  n_len n = round16 (1 + length it) -> c_end c = start (c_nodes c) -> c_count c = Z.of_nat (length A) -> 0 <= life < 4294967296 ->
  exists c', (let! c2 := mem_write c (n_off n) (255 :: it) in
          let c3 := setn c2 (Z.of_nat i) (n_set_used n (Z.of_nat (1 + length it))) in
          let! y := (if parallel then min_ttl raw ignore c3 (cstr it ++ [0]) life now else Ret (life, c3)) in
          let '(ttl', c4) := y in
          let! n4 := derefn c4 (Z.of_nat i) in
          let! c5 := insert_to_slot (setn c4 (Z.of_nat i) (n_set_time (n_set_ttl n4 ttl') now)) (cstr it) (Z.of_nat i) in
          Ret (0, with_count c5 (c_count c5 + 1))) = Ret (0, c') /\ c_size c' = c_size c /\ length (c_slots c') = length (c_slots c) /\
    let t := a_min ignore parallel A r now life in
    rep c' (mk_entry (r_name r) (r_type r) (r_class r) (r_data r) t now :: a_level ignore parallel A r now t).
Proof.
  intros Hr H Hn HL HA it Hlen He Hc Hlife. set (key := triplet (r_name r) (r_type r) (r_class r)) in *.
  assert (Hkey : ~ In 0 key) by (apply triplet_no_nul; destruct Hr as (? & ? & ? & _); [assumption|lia|lia]).
  assert (Hcs : cstr it = key) by (apply cstr_nul; exact Hkey). rewrite Hcs.
  destruct (inv0_write c [i] L F i n (n_off n) (255 :: it) H Hn) as (m & Ew & Hw & H2); [lia| |left; cbn; auto|].
  { cbn [length]. rewrite Hlen. pose proof (round16_le (1 + length it)). lia. }
  rewrite Ew. cbn [bind]. set (c2 := with_mem c m) in *. set (n3 := n_set_used n (Z.of_nat (1 + length it))).
  assert (H3 : inv0 (setn c2 (Z.of_nat i) n3) [i] L F) by (eapply inv0_set; [exact H2|cbn; auto|exact Hn|reflexivity]).
  set (c3 := setn c2 (Z.of_nat i) n3) in *.
  assert (Hn3 : nth_error (c_nodes c3) i = Some n3) by (unfold c3; rewrite setn_nat; cbn [c_nodes with_nodes]; eapply nth_lset_same; exact Hn).
  assert (Hlay3 : map lay (c_nodes c3) = map lay (c_nodes c)) by (unfold c3; rewrite setn_nat; cbn [c_nodes with_nodes]; eapply map_lset; [exact Hn|reflexivity]).
  set (t := a_min ignore parallel A r now life).
  assert (HK : kform L) by (eapply kform_of; eauto).
  assert (Hmates : forall a, In a A -> keyQ ignore key now (item a) = mates r now a) by (intros a Ha; apply mates_item; [exact Hr|rewrite Forall_forall in HA; auto]).
  set (L' := if parallel then map (upd ignore key now t) L else L).
  assert (Hpar : exists c4, (if parallel then min_ttl raw ignore c3 (key ++ [0]) life now else Ret (life, c3)) = Ret (t, c4) /\ inv0 c4 [i] L' F /\ keeps c3 c4 [i]).
  { unfold L', t, a_min. destruct parallel.
    - unfold min_ttl. assert (HfL : (length (filter (keyP ignore key now) L) < S (length (c_nodes c3)))%nat).
      { pose proof (filter_length_le' (keyP ignore key now) L). pose proof (inv_length _ _ _ _ H3). lia. }
      rewrite (min_loop_ok raw ignore c3 [i] F key now Hkey _ [] L None (S (length (c_nodes c3))) life H3 HK eq_refl eq_refl HfL). cbn [bind].
      assert (Et : fold_left Z.min (map (fun p => u32 (si_ttl (snd p) - (now - si_time (snd p)))) (filter (keyP ignore key now) L)) life =
                   fold_left Z.min (map (fun e => u32 (e_ttl e - (now - e_time e))) (filter (mates r now) A)) life).
      { f_equal. rewrite <- (map_map snd (fun e => u32 (si_ttl e - (now - si_time e)))). unfold keyP. rewrite (lift_filter L A (keyQ ignore key now) (mates r now) HL Hmates).
        rewrite map_map. reflexivity. }
      rewrite Et. destruct (equal_loop_ok raw ignore [i] F key now (fold_left Z.min (map (fun e => u32 (e_ttl e - (now - e_time e))) (filter (mates r now) A)) life) Hkey _ c3 [] L None (S (length (c_nodes c3))) H3 HK eq_refl eq_refl HfL) as (c4 & E4 & H4 & K4).
      rewrite E4. cbn [bind]. exists c4. auto.
    - exists c3. split; [reflexivity|]. split; [exact H3|]. unfold keeps. auto 10. }
  destruct Hpar as (c4 & E4 & H4 & (K1 & K2 & K3 & _ & K5 & K6 & K7 & K8)). rewrite E4. cbn [bind].
  assert (Hn4 : nth_error (c_nodes c4) i = Some n3) by (rewrite K8 by (cbn; auto); exact Hn3).
  rewrite (derefn_nat c4 i n3 Hn4). cbn [bind]. set (n5 := n_set_time (n_set_ttl n3 t) now). set (c5 := setn c4 (Z.of_nat i) n5).
  assert (H5 : inv0 c5 [i] L' F) by (eapply inv0_set; [exact H4|cbn; auto|exact Hn4|reflexivity]).
  assert (Hn5 : nth_error (c_nodes c5) i = Some n5) by (unfold c5; rewrite setn_nat; cbn [c_nodes with_nodes]; eapply nth_lset_same; exact Hn4).
  assert (Hlay5 : map lay (c_nodes c5) = map lay (c_nodes c)) by (unfold c5; rewrite setn_nat; cbn [c_nodes with_nodes]; rewrite <- Hlay3, <- K7; eapply map_lset; [exact Hn4|reflexivity]).
  assert (Hmem5 : c_mem c5 = m) by (unfold c5; rewrite setn_nat; cbn [c_mem with_nodes]; rewrite K1; unfold c3; rewrite setn_nat; reflexivity).
  set (e := mk_si it t now).
  destruct (insert_ok c5 i n5 e L' F H5 Hn5) as (c6 & E6 & H6 & A1 & A2 & A3 & A4 & A5); [reflexivity|reflexivity|reflexivity|exact Hlen| |].
  { rewrite Hmem5. unfold n5, n3. cbn [n_off n_set_time n_set_ttl n_set_used si_bytes e]. pose proof (slice_write_same _ _ _ _ Hw) as Hsl.
    change (255 :: it) with ([255] ++ it) in Hsl. apply slice_tail in Hsl. exact Hsl. }
  unfold si_key in E6. cbn [si_bytes e] in E6. rewrite Hcs in E6. rewrite E6. cbn [bind].
  exists (with_count c6 (c_count c6 + 1)). split; [reflexivity|].
  assert (Hsz : c_size c5 = c_size c) by (unfold c5; rewrite setn_nat; cbn [c_size with_nodes]; rewrite K2; unfold c3; rewrite setn_nat; reflexivity).
  assert (Hsl : c_slots c5 = c_slots c) by (unfold c5; rewrite setn_nat; cbn [c_slots with_nodes]; rewrite K3; unfold c3; rewrite setn_nat; reflexivity).
  assert (Hen : c_end c5 = c_end c) by (unfold c5; rewrite setn_nat; cbn [c_end with_nodes]; rewrite K5; unfold c3; rewrite setn_nat; reflexivity).
  assert (Hco : c_count c5 = c_count c) by (unfold c5; rewrite setn_nat; cbn [c_count with_nodes]; rewrite K6; unfold c3; rewrite setn_nat; reflexivity).
  split; [cbn [c_size with_count]; congruence|]. split; [cbn [c_slots with_count]; congruence|]. cbn zeta.
  assert (Ht : 0 <= t < 4294967296).
  { unfold t, a_min. destruct parallel; [|exact Hlife].
    assert (Hg : forall l x, 0 <= x < 4294967296 -> 0 <= fold_left Z.min (map (fun e => u32 (e_ttl e - (now - e_time e))) l) x < 4294967296).
    { induction l as [|a l IH]; intros x Hx; cbn [map fold_left]; [exact Hx|]. apply IH. unfold u32. pose proof (Z.mod_pos_bound (e_ttl a - (now - e_time a)) 4294967296 ltac:(lia)). lia. }
    apply Hg. exact Hlife. }
  constructor.
  - exists ((i, e) :: L'), F. split; [apply inv0_count; exact H6|]. cbn [map snd]. f_equal. unfold L', a_level. destruct parallel; [|exact HL].
    clearbody t. clear - HL Hmates. revert A HL Hmates. induction L as [|[j f] L IH]; intros [|a A] HL Hmates; try discriminate; [reflexivity|]. cbn [map snd] in *. injection HL as -> HL.
    f_equal; [|apply IH; [exact HL|intros; apply Hmates; cbn; auto]]. unfold upd, keyP. cbn [snd fst]. rewrite (Hmates a (or_introl eq_refl)). destruct (mates r now a); reflexivity.
  - cbn [c_end c_nodes with_count]. rewrite A3, Hen, (lay_start _ _ A5), (lay_start _ _ Hlay5). exact He.
  - cbn [c_count with_count length]. rewrite A4, Hco, Hc. unfold a_level. destruct parallel; [rewrite map_length|]; lia.
  - constructor.
    + destruct Hr as (R1 & R2 & R3 & R4). unfold wf_entry. cbn. auto.
    + unfold a_level. destruct parallel; [|exact HA]. apply Forall_map. eapply Forall_impl; [|exact HA]. intros a Ha. destruct (mates r now a); [|exact Ha].
      destruct Ha as (R1 & R2 & R3 & R4). unfold wf_entry. cbn. auto.
Qed.

Lemma lifetime_range rule ttl : 0 <= ttl < 4294967296 -> 0 <= lifetime rule ttl < 4294967296.
Proof.
  intros H. unfold lifetime. destruct rule as [t|]; [|exact H]. destruct (ct_state t =? 0); [lia|]. destruct (ct_state t =? -1); [exact H|]. apply Z.mod_pos_bound. lia.
Qed.

Definition has_room (c : cache) (r : crec) : Prop :=
  (c_end c + round16 (1 + length (triplet (r_name r) (r_type r) (r_class r) ++ 0%Z :: r_data r)) + node_size * (length (c_nodes c) + 1) + slot_size * length (c_slots c) <= c_size c)%nat.
Lemma add_ok c A infected r now : rep c A -> rec_ok r ->
  let life := lifetime (choose_rule get infected (triplet (r_name r) (r_type r) (r_class r))) (r_ttl r) in
  (add_item raw ignore parallel get infected c r now = UBR /\ (slot_size * length (c_slots c) < 512)%nat /\
     exists a, In a A /\ mates r now a = true /\ prefix (e_data a) (r_data r)) \/
  exists code c' A', add_item raw ignore parallel get infected c r now = Ret (code, c') /\ a_add ignore parallel life A r now code A' /\
    rep c' A' /\ c_size c' = c_size c /\ length (c_slots c') = length (c_slots c) /\ (code = -1 -> storable r -> ~ has_room c r).
Proof.
  intros [(L & F & H & HL) He Hc HA] Hr life. unfold add_item.
  destruct (item_of_ok r) as [(code & E & Hneg & Hns)|(E & Hst)]; rewrite E.
  { right. exists code, c, A. split; [reflexivity|]. split; [constructor 1; assumption|]. split; [constructor; eauto|]. split; [reflexivity|]. split; [reflexivity|]. tauto. }
  set (key := triplet (r_name r) (r_type r) (r_class r)) in *. set (it := key ++ 0 :: r_data r).
  assert (Hkey : ~ In 0 key) by (apply triplet_no_nul; destruct Hr as (? & ? & ? & _); [assumption|lia|lia]).
  assert (Hcs : cstr it = key) by (apply cstr_nul; exact Hkey).
  assert (Hitl : (length it < 512)%nat) by (unfold it; rewrite app_length; cbn [length]; destruct Hst as (_ & Hst); fold key in Hst; lia).
  destruct (from_at c [] [] L F key None H eq_refl) as (Ha & Hs). cbn [app] in *.
  pose proof (find_item_ok raw ignore c it now (v_mem _ _ _ _ H) (filter (slotP c (slot_of c key)) L) None (S (length (c_nodes c)))) as HF. rewrite Hcs in HF.
  specialize (HF Ha Hs).
  assert (Hwf : forall a, In a A -> wf_entry a) by (rewrite Forall_forall in HA; exact HA).
  assert (Hfind : (find_from raw ignore c it None now = UBR /\ (slot_size * length (c_slots c) < 512)%nat /\ exists a, In a A /\ mates r now a = true /\ prefix (e_data a) (r_data r)) \/
     (find_from raw ignore c it None now = Ret None /\ forall a, In a A -> mates r now a = true -> ~ prefix (r_data r) (e_data a)) \/
     (exists z a, find_from raw ignore c it None now = Ret (Some z) /\ In a A /\ mates r now a = true /\ (prefix (r_data r) (e_data a) \/ prefix (e_data a) (r_data r)))).
  { assert (Hmate : forall i e, In (i, e) L -> sfresh ignore now e = true -> prefix it (si_bytes e) \/ prefix (si_bytes e) it ->
       exists a, In a A /\ e = item a /\ mates r now a = true /\ (prefix it (si_bytes e) -> prefix (r_data r) (e_data a)) /\ (prefix (si_bytes e) it -> prefix (e_data a) (r_data r))).
    { intros i e E1 E3 E4. destruct (item_in L A i e HL E1) as (a & Ha' & ->). exists a. split; [exact Ha'|]. split; [reflexivity|].
      destruct (Hwf a Ha') as (W1 & W2 & W3 & _). assert (Hka : ~ In 0 (triplet (e_name a) (e_type a) (e_class a))) by (apply triplet_no_nul; [exact W1|lia|lia]).
      cbn [si_bytes item] in E4 |- *. unfold it in E4 |- *. rewrite !prefix_item in E4 |- * by assumption.
      assert (Heq : key = triplet (e_name a) (e_type a) (e_class a)) by (destruct E4 as [(E4 & _)|(E4 & _)]; congruence).
      split; [|tauto]. destruct Hr as (_ & R2 & R3 & _). apply triplet_inj in Heq; [|assumption|assumption|lia|lia].
      unfold Cache_Spec.mates. rewrite andb_true_iff. split; [apply same_key_iff; intuition congruence|exact E3]. }
    destruct HF as [(E1 & E2 & i & e & E3 & E4 & E5)|[(E1 & E2)|(i & e & E1 & E2 & E3 & E4)]].
    - pose proof (inv_length _ _ _ _ H). pose proof (filter_length_le' (slotP c (slot_of c key)) L). lia.
    - intros i e Hi. apply filter_In in Hi. destruct Hi as (Hi & _). destruct (v_live _ _ _ _ H i e Hi) as (n & Hn & [C1 C2 C3 C4 C5 C6]). exists n. repeat (split; [assumption|]). eapply live_bottom; eauto.
    - left. split; [exact E1|]. split; [lia|]. apply filter_In in E3. destruct (Hmate i e (proj1 E3) E4 (or_intror E5)) as (a & M1 & M2 & M3 & M4 & M5). eauto.
    - right; left. split; [exact E1|]. intros a Ha' Hm Hp. unfold Cache_Spec.mates in Hm. apply andb_true_iff in Hm. destruct Hm as (Hm1 & Hm2). apply same_key_iff in Hm1. destruct Hm1 as (M1 & M2 & M3).
      destruct (in_item L A a HL Ha') as (i & Hi). assert (Hka : si_key (item a) = key) by (rewrite item_key by auto; unfold key; congruence).
      apply (E2 i (item a)); [apply filter_In; split; [exact Hi|]; unfold slotP; cbn [snd]; rewrite Hka; apply Nat.eqb_refl|exact Hm2|].
      cbn [si_bytes item]. rewrite M1, M2, M3. apply prefix_item; auto.
    - right; right. apply filter_In in E1. destruct (Hmate i e (proj1 E1) E3 E4) as (a & M1 & M2 & M3 & M4 & M5). exists (Z.of_nat i), a. split; [exact E2|]. split; [exact M1|]. split; [exact M3|]. tauto. }
  destruct Hfind as [(E1 & E2 & E2')|[(E1 & E2)|(z & a & E1 & E2 & E3 & E4)]]; rewrite E1; cbn [bind].
  - left. auto.
  - right. rewrite Hcs. fold key in life. fold life. destruct (Z.eqb_spec life 0) as [Ez|Ez].
    + exists 0, c, A. split; [reflexivity|]. split; [constructor 3; auto|]. split; [constructor; eauto|]. split; [reflexivity|]. split; [reflexivity|]. discriminate.
    + destruct (get_chunk_ok c L F (1 + length it) now H He) as (o & c1 & E3 & He1 & Hc1 & Hs1 & Hs2 & Ho). rewrite E3. cbn [bind]. destruct o as [z|].
      * destruct Ho as (i & n & F' & -> & Hn & Hlen & H1). rewrite (derefn_nat c1 i n Hn). cbn [bind].
        destruct (store_ok c1 i n L F' A r now life Hr H1 Hn HL HA Hlen He1) as (c' & E4 & S1 & S2 & S3); [congruence|apply lifetime_range; apply Hr|].
        fold key in E4. fold it in E4. rewrite Hcs in E4. exists 0, c'. eexists. split; [exact E4|]. split; [constructor 5; auto|]. split; [exact S3|]. split; [congruence|]. split; [congruence|discriminate].
      * destruct Ho as (H1 & _ & Hroom). exists (-1), c1, A. split; [reflexivity|]. split; [constructor 4; auto|]. split; [constructor; [eauto|exact He1|congruence|exact HA]|]. split; [congruence|]. split; [congruence|].
        intros _ _. unfold has_room. fold key. fold it. lia.
  - right. exists 0, c, A. split; [reflexivity|]. split; [econstructor 2; eauto|]. split; [constructor; eauto|]. split; [reflexivity|]. split; [reflexivity|]. discriminate.
Qed.
End Add.

(** * Removing *)
Definition sexpired (now : Z) (e : sitem) : bool := (0 <? si_ttl e) && (si_ttl e <=? now - si_time e).
Definition gone (k : nat) (now : Z) (p : nat * sitem) : bool := Nat.ltb (fst p) k && sexpired now (snd p).
Definition count_gone (k : nat) (now : Z) (L : list (nat * sitem)) : Z := Z.of_nat (length (filter (gone k now) L)).

Lemma sweep_loop_ok now : forall k c L F got, inv0 c [] L F -> (k <= length (c_nodes c))%nat ->
  exists c' F' got', sweep_loop c k now got = Ret (c', got') /\ inv0 c' [] (filter (fun p => negb (gone k now p)) L) F' /\
    c_size c' = c_size c /\ length (c_slots c') = length (c_slots c) /\ c_end c' = c_end c /\ c_count c' = c_count c - count_gone k now L /\
    (got' = false -> c' = c) /\ (got = true -> got' = true).
Proof.
  induction k as [|k IH]; intros c L F got H Hk; cbn [sweep_loop].
  - exists c, F, got. split; [reflexivity|]. unfold count_gone, gone.
    assert (E : forall l : list (nat * sitem), filter (fun p => negb (Nat.ltb (fst p) 0 && sexpired now (snd p))) l = l /\ filter (fun p => Nat.ltb (fst p) 0 && sexpired now (snd p)) l = []).
    { induction l as [|x l (IH1 & IH2)]; cbn [filter Nat.ltb Nat.leb andb negb]; [auto|]. split; [f_equal; exact IH1|exact IH2]. }
    destruct (E L) as (-> & ->). cbn [length]. repeat (split; [assumption || reflexivity || lia|]). auto.
  - destruct (nth_error (c_nodes c) k) as [n|] eqn:Hn; [|apply nth_error_None in Hn; lia].
    destruct ((0 <? n_ttl n) && (n_ttl n <=? now - n_time n)) eqn:Ex.
    + (* expired: a live node *)
      assert (Hin : exists e, In (k, e) L).
      { pose proof (proj2 (inv_lt c [] L F k H) ltac:(lia)) as Hi. cbn [app] in Hi. apply in_app_or in Hi. destruct Hi as [Hi|Hi].
        - apply in_map_iff in Hi. destruct Hi as ([j e] & <- & Hi). eauto.
        - exfalso. rewrite (v_zero _ _ _ _ H k n Hi Hn) in Ex. cbn in Ex. discriminate. }
      destruct Hin as (e & Hin). destruct (in_split _ _ Hin) as (L1 & L2 & ->).
      destruct (v_live _ _ _ _ H k e Hin) as (n' & Hn' & [C1 C2 C3 C4 C5 C6]). assert (n' = n) by congruence. subst n'.
      pose proof (live_upd c [] k n e 0 (n_time n) L1 L2 F H Hn) as H1.
      replace (n_set_time (n_set_ttl n 0) (n_time n)) with (n_set_ttl n 0) in H1 by reflexivity. set (c1 := setn c (Z.of_nat k) (n_set_ttl n 0)) in *.
      assert (Hn1 : nth_error (c_nodes c1) k = Some (n_set_ttl n 0)) by (unfold c1; rewrite setn_nat; cbn [c_nodes with_nodes]; eapply nth_lset_same; eauto).
      assert (Hlen1 : length (c_nodes c1) = length (c_nodes c)) by (unfold c1; rewrite setn_nat; cbn [c_nodes with_nodes]; apply lay_length; eapply map_lset; [exact Hn|reflexivity]).
      assert (Hr16 : (1 <= n_len n)%nat) by (rewrite C5; pose proof (round16_le (1 + length (si_bytes e))); lia).
      destruct (inv0_write c1 [] _ F k (n_set_ttl n 0) (n_off n) [253] H1 Hn1) as (m & Ew & _ & H2); [cbn; lia|cbn [n_off n_len n_set_ttl length]; lia|right; cbn [n_off n_set_ttl length]; lia|].
      rewrite Ew. cbn [bind].
      destruct (remove_ok (with_mem c1 m) k _ (n_set_ttl n 0) L1 L2 F H2 Hn1 eq_refl) as (c3 & F3 & E3 & H3 & A1 & A2 & A3 & A4 & A5 & A6).
      rewrite E3. cbn [bind].
      assert (Hk3 : (k <= length (c_nodes (with_count c3 (c_count c3 - 1))))%nat).
      { cbn [c_nodes with_count]. apply (f_equal (@length _)) in A6. rewrite !map_length in A6. rewrite A6. cbn [c_nodes with_mem].
        destruct (Nat.eqb_spec (S k) (length (c_nodes c1))); [|lia].
        destruct (split_last (c_nodes c1)) as [Ex'|(l' & x' & Ex')]; rewrite Ex' in *; [cbn in *; lia|]. rewrite removelast_last. rewrite app_length in *. cbn [length] in *. lia. }
      destruct (IH (with_count c3 (c_count c3 - 1)) (L1 ++ L2) F3 true (inv0_count _ _ _ _ _ H3) Hk3) as (c' & F' & got' & E & Hi & B1 & B2 & B3 & B4 & B5 & B6).
      exists c', F', got'. split; [exact E|].
      assert (Hother : forall p, In p (L1 ++ L2) -> gone (S k) now p = gone k now p).
      { intros [j f] Hp. assert (Hj : j <> k).
        { intros ->. pose proof (inv_nodup _ _ _ _ H) as HN. cbn [app] in HN. apply NoDup_app_iff in HN. destruct HN as (HN & _). rewrite map_app in HN. cbn [map fst] in HN. apply NoDup_remove_2 in HN. apply HN.
          rewrite <- map_app. apply in_map_iff. exists (k, f). auto. }
        unfold gone. cbn [fst]. destruct (Nat.ltb_spec j (S k)), (Nat.ltb_spec j k); try reflexivity; lia. }
      assert (Hthis : gone (S k) now (k, e) = true).
      { unfold gone. cbn [fst snd]. destruct (Nat.ltb_spec k (S k)); [|lia]. cbn [andb]. unfold sexpired. rewrite <- C2, <- C3. exact Ex. }
      assert (Efil : filter (fun p => negb (gone (S k) now p)) (L1 ++ (k, e) :: L2) = filter (fun p => negb (gone k now p)) (L1 ++ L2)).
      { rewrite !filter_app. cbn [filter]. rewrite Hthis. cbn [negb]. f_equal; apply filter_ext_in; intros p Hp; rewrite Hother by (apply in_or_app; auto); reflexivity. }
      rewrite Efil. split; [exact Hi|].
      assert (Ecnt : count_gone (S k) now (L1 ++ (k, e) :: L2) = 1 + count_gone k now (L1 ++ L2)).
      { unfold count_gone. rewrite !filter_app. cbn [filter]. rewrite Hthis, !app_length. cbn [length].
        rewrite (filter_ext_in (gone (S k) now) (gone k now) L1), (filter_ext_in (gone (S k) now) (gone k now) L2) by (intros p Hp; apply Hother; apply in_or_app; auto). lia. }
      cbn [c_size c_slots c_end c_count with_count with_mem] in *. rewrite Ecnt.
      unfold c1 in A2, A3, A4, A5. rewrite setn_nat in A2, A3, A4, A5. cbn [c_size c_slots c_end c_count with_nodes] in *.
      split; [congruence|]. split; [congruence|]. split; [congruence|]. split; [lia|]. split; [rewrite B6 by reflexivity; discriminate|auto].
    + destruct (IH c L F got H ltac:(lia)) as (c' & F' & got' & E & Hi & B1 & B2 & B3 & B4 & B5 & B6). exists c', F', got'. split; [exact E|].
      assert (Hsame : forall p, In p L -> gone (S k) now p = gone k now p).
      { intros [j f] Hp. unfold gone. cbn [fst snd]. destruct (Nat.eq_dec j k) as [->|Hj].
        - destruct (v_live _ _ _ _ H k f Hp) as (n' & Hn' & [C1 C2 C3 C4 C5 C6]). assert (n' = n) by congruence. subst n'.
          unfold sexpired. rewrite <- C2, <- C3, Ex, !andb_false_r. reflexivity.
        - destruct (Nat.ltb_spec j (S k)), (Nat.ltb_spec j k); try reflexivity; lia. }
      rewrite (filter_ext_in (fun p => negb (gone (S k) now p)) (fun p => negb (gone k now p)) L) by (intros p Hp; rewrite Hsame by exact Hp; reflexivity).
      unfold count_gone in *. rewrite (filter_ext_in (gone (S k) now) (gone k now) L) by exact Hsame. auto 10.
Qed.

Lemma sweep_ok c A now : rep c A -> exists c', cache_sweep c now = Ret c' /\ rep c' (a_sweep A now) /\ c_size c' = c_size c /\ length (c_slots c') = length (c_slots c).
Proof.
  intros [(L & F & H & HL) He Hc HA]. unfold cache_sweep.
  destruct (sweep_loop_ok now (length (c_nodes c)) c L F false H (Nat.le_refl _)) as (c' & F' & got' & E & Hi & B1 & B2 & B3 & B4 & B5 & _). rewrite E. cbn [bind].
  assert (Hg : forall p, In p L -> gone (length (c_nodes c)) now p = sexpired now (snd p)).
  { intros [j f] Hp. unfold gone. cbn [fst snd]. assert (Hj : (j < length (c_nodes c))%nat).
    { apply (inv_lt c [] L F j H). cbn [app]. apply in_or_app. left. apply in_map_iff. exists (j, f). auto. }
    destruct (Nat.ltb_spec j (length (c_nodes c))); [reflexivity|lia]. }
  assert (EL : map snd (filter (fun p => negb (gone (length (c_nodes c)) now p)) L) = map item (a_sweep A now)).
  { rewrite (filter_ext_in _ (fun p => negb (sexpired now (snd p)))) by (intros p Hp; rewrite Hg by exact Hp; reflexivity).
    apply (lift_filter L A (fun e => negb (sexpired now e)) (fun a => negb (expired now a)) HL). reflexivity. }
  assert (Ecnt : c_count c' = Z.of_nat (length (a_sweep A now))).
  { rewrite B4, Hc. unfold count_gone. rewrite (filter_ext_in _ (fun p => sexpired now (snd p)) L Hg).
    pose proof (lift_filter L A (sexpired now) (expired now) HL (fun _ _ => eq_refl)) as E1. apply (f_equal (@length _)) in E1. rewrite !map_length in E1. rewrite E1.
    unfold a_sweep. clear. induction A as [|a A IH]; cbn [filter length]; [reflexivity|]. destruct (expired now a); cbn [negb length]; lia. }
  assert (HA' : Forall wf_entry (a_sweep A now)).
  { rewrite Forall_forall in HA |- *. intros a Ha. unfold a_sweep in Ha. apply filter_In in Ha. apply HA. tauto. }
  assert (Hfin : forall e, e = start (c_nodes c') -> rep (with_end c' e) (a_sweep A now)).
  { intros e ->. constructor; [eexists _, F'; split; [apply inv0_end; exact Hi|exact EL]|reflexivity|exact Ecnt|exact HA']. }
  destruct got'.
  - destruct (length (c_nodes c')) as [|u] eqn:Eu.
    + eexists. split; [reflexivity|]. split; [apply Hfin; destruct (c_nodes c'); [reflexivity|discriminate]|cbn; auto].
    + destruct (split_last (c_nodes c')) as [Ex|(ns & x & Ex)]; [rewrite Ex in Eu; discriminate|].
      assert (Hu : nth_error (c_nodes c') u = Some x).
      { rewrite Ex in Eu |- *. rewrite app_length in Eu. cbn [length] in Eu. rewrite nth_error_app2 by lia. replace (u - length ns)%nat with 0%nat by lia. reflexivity. }
      rewrite Hu. eexists. split; [reflexivity|]. split; [|cbn; auto]. apply Hfin. rewrite (v_off _ _ _ _ Hi u x Hu). pose proof (start_split _ _ _ Hu) as Es.
      replace (skipn (S u) (c_nodes c')) with (@nil cnode) in Es by (symmetry; apply skipn_all2; lia). cbn [map list_sum fold_right] in Es. lia.
  - rewrite B5 in * by reflexivity. exists c. split; [reflexivity|]. split; [|auto]. constructor; [eauto|exact He|exact Ecnt|exact HA'].
Qed.

(** * Histories *)
Lemma init_ok size slots : (0 < slots)%nat -> (header_size + slot_size * slots <= size)%nat -> rep (cache_init size slots) [].
Proof.
  intros Hs Hz. constructor; [|reflexivity|reflexivity|constructor]. exists [], []. split; [|reflexivity]. unfold cache_init.
  constructor; cbn [c_slots c_mem c_nodes c_size c_free].
  - rewrite repeat_length. exact Hs.
  - apply repeat_length.
  - intros [|i] n; discriminate.
  - rewrite repeat_length. unfold start. cbn [map list_sum fold_right length]. lia.
  - constructor.
  - intros s Hs'. rewrite repeat_length in Hs'. split; [|exact I]. cbn [bucket filter map hz].
    rewrite (nth_error_nth' _ (-1)) by (rewrite repeat_length; exact Hs'). f_equal. apply nth_repeat.
  - intros i e [].
  - split; [reflexivity|]. split; [exact I|]. intros g [].
  - intros i n [].
Qed.
Section Run.
Context (raw : list Z -> list cnode -> nat -> Z) (ignore parallel : bool) (get : list Z -> option ctrl).
Lemma run_ok ops : forall c A, rep c A -> Forall op_ok ops ->
  (run raw ignore parallel get c ops = UBR /\ (slot_size * length (c_slots c) < 512)%nat) \/
  exists c' A', run raw ignore parallel get c ops = Ret c' /\ a_run ignore parallel get A ops A' /\ rep c' A' /\ c_size c' = c_size c /\ length (c_slots c') = length (c_slots c).
Proof.
  induction ops as [|o ops IH]; intros c A H Ho; cbn [run].
  - right. exists c, A. split; [reflexivity|]. split; [constructor|]. auto.
  - inversion_clear Ho as [|? ? Ho1 Ho2]. destruct o as [infected r now|now]; cbn [run_op op_ok] in *.
    + destruct (add_ok raw ignore parallel get c A infected r now H Ho1) as [(E & Hs & _)|(code & c1 & A1 & E & Ha & H1 & S1 & S2 & _)]; rewrite E; cbn [bind snd]; [left; auto|].
      destruct (IH c1 A1 H1 Ho2) as [(E2 & Hs)|(c' & A' & E2 & Hr & H2 & T1 & T2)].
      * left. split; [exact E2|congruence].
      * right. exists c', A'. split; [exact E2|]. split; [econstructor; eauto|]. split; [exact H2|]. split; congruence.
    + destruct (sweep_ok c A now H) as (c1 & E & H1 & S1 & S2). rewrite E. cbn [bind].
      destruct (IH c1 _ H1 Ho2) as [(E2 & Hs)|(c' & A' & E2 & Hr & H2 & T1 & T2)].
      * left. split; [exact E2|congruence].
      * right. exists c', A'. split; [exact E2|]. split; [econstructor; eauto|]. split; [exact H2|]. split; congruence.
Qed.
End Run.
