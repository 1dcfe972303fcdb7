(** Consequences for histories of the cache. *)
From Verif Require Import Base BaseFacts ListFacts List2Facts Hash_Model Sht_Model Sht_Proofs Gen_Model Cht_Model Cht_Proofs Cht_Inv Cache_Model Cache_Spec Cache_Proofs Cache2_Proofs Cache3_Proofs.
From Coq Require Import Permutation.
Require Import ZifyBool ZifyNat.

Lemma seg_chain c f l : seg f (c_nodes c) l (-1) -> chain c f (hz l (-1)) l.
Proof.
  induction l as [|i l IH]; cbn [seg hz]; [constructor; lia|]. intros ((n & Hn & E) & Hs). econstructor; [exact Hn|]. rewrite E. auto.
Qed.

(** The slots' chains together are the live nodes. *)
Lemma buckets_perm c L k : Permutation (concat (map (bucket c L) (seq 0 k))) (map fst (filter (fun p => Nat.ltb (slot_of c (si_key (snd p))) k) L)).
Proof.
  induction k as [|k IH].
  - cbn [seq map concat]. induction L as [|p L IHL]; cbn [filter map]; [constructor|]. cbn [Nat.ltb Nat.leb]. exact IHL.
  - rewrite seq_S, map_app, concat_app. cbn [map concat Nat.add]. rewrite app_nil_r, IH. clear IH. unfold bucket. induction L as [|p L IHL]; cbn [filter map]; [constructor|].
    set (s := slot_of c (si_key (snd p))). destruct (Nat.ltb_spec s (S k)), (Nat.ltb_spec s k), (Nat.eqb_spec s k); try lia; cbn [map].
    + cbn [app]. now constructor.
    + rewrite <- Permutation_middle. now constructor.
    + exact IHL.
Qed.

Definition same_rec (r : crec) (e : entry) : Prop := e_name e = r_name r /\ e_type e = r_type r /\ e_class e = r_class r /\ e_data e = r_data r.
Section Run.
Context (ignore parallel : bool) (get : list Z -> option ctrl).
Definition life_of (infected : option ctrl) (r : crec) : Z :=
  lifetime (choose_rule get infected (triplet (r_name r) (r_type r) (r_class r))) (r_ttl r).
(** Where an entry comes from. *)
Definition origin (ops : list op) (e : entry) : Prop :=
  exists infected r t0, In (OAdd infected r t0) ops /\ same_rec r e /\ storable r /\ e_time e + e_ttl e <= t0 + life_of infected r.

(** Of entries at the time [t]. *)
Definition good (t : Z) (e : entry) : Prop := e_time e <= t /\ 0 < e_ttl e < 4294967296.

Lemma in_level A r now t e : In e (a_level ignore parallel A r now t) ->
  In e A \/ exists a, In a A /\ mates ignore r now a = true /\ parallel = true /\ e = mk_entry (e_name a) (e_type a) (e_class a) (e_data a) t now.
Proof.
  unfold a_level. destruct parallel; [|auto]. rewrite in_map_iff. intros (a & <- & Ha). destruct (mates ignore r now a) eqn:E; [right; exists a; auto|auto].
Qed.
Lemma fold_min_le l : forall x, fold_left Z.min l x <= x /\ forall y, In y l -> fold_left Z.min l x <= y.
Proof.
  induction l as [|a l IH]; intros x; cbn [fold_left]; [split; [lia|intros ? []]|]. destruct (IH (Z.min x a)) as (H1 & H2). split; [lia|].
  intros y [<-|Hy]; [lia|auto].
Qed.
Lemma fold_min_pos l : forall x, 0 < x -> (forall y, In y l -> 0 < y) -> 0 < fold_left Z.min l x.
Proof.
  induction l as [|a l IH]; intros x Hx Hl; cbn [fold_left]; [exact Hx|]. apply IH; [specialize (Hl a (or_introl eq_refl)); lia|intros; apply Hl; cbn; auto].
Qed.

Lemma add_good life A r now code A' t : ignore = false -> a_add ignore parallel life A r now code A' -> 0 <= life < 4294967296 -> t <= now -> Forall (good t) A -> Forall (good now) A'.
Proof.
  intros Hi Ha Hl Ht HA. assert (HA1 : Forall (good now) A) by (eapply Forall_impl; [|exact HA]; intros e (G1 & G2); split; [lia|exact G2]).
  destruct Ha; try exact HA1.
  assert (Hpos : 0 < t0 < 4294967296).
  { unfold t0, a_min. destruct parallel; [|lia]. split; [|eapply Z.le_lt_trans; [apply (proj1 (fold_min_le _ _))|lia]]. apply fold_min_pos; [lia|].
    intros y Hy. apply in_map_iff in Hy. destruct Hy as (a & <- & Ha). apply filter_In in Ha. destruct Ha as (Ha & Hm). rewrite Forall_forall in HA1. destruct (HA1 a Ha) as (G1 & G2).
    unfold mates, fresh in Hm. rewrite Hi in Hm. cbn [orb] in Hm. apply andb_true_iff in Hm. unfold u32. rewrite Z.mod_small; lia. }
  constructor; [split; cbn; lia|]. rewrite Forall_forall in HA1 |- *. intros e He. apply in_level in He. destruct He as [He|(a & Ha & _ & _ & ->)]; [auto|]. split; cbn; lia.
Qed.
Lemma add_origin life A r now code A' t e : ignore = false -> a_add ignore parallel life A r now code A' -> t <= now -> Forall (good t) A -> In e A' ->
  (same_rec r e /\ storable r /\ e_time e + e_ttl e <= now + life) \/ exists a, In a A /\ e_name a = e_name e /\ e_type a = e_type e /\ e_class a = e_class e /\ e_data a = e_data e /\ e_time e + e_ttl e <= e_time a + e_ttl a.
Proof.
  intros Hi Ha Ht HA. assert (Hsame : In e A -> exists a, In a A /\ e_name a = e_name e /\ e_type a = e_type e /\ e_class a = e_class e /\ e_data a = e_data e /\ e_time e + e_ttl e <= e_time a + e_ttl a).
  { intros He. exists e. repeat (split; [reflexivity || assumption|]). lia. }
  destruct Ha; auto. intros [<-|He].
  - left. split; [repeat split|]. split; [assumption|]. cbn. unfold t0, a_min. destruct parallel; [|lia].
    pose proof (proj1 (fold_min_le (map (fun e => u32 (e_ttl e - (now - e_time e))) (filter (mates ignore r now) A)) life)). lia.
  - right. apply in_level in He. destruct He as [He|(a & Ha & Hm & Hp & ->)]; [auto|]. exists a. cbn. repeat (split; [reflexivity || assumption|]).
    unfold t0, a_min. rewrite Hp. rewrite Forall_forall in HA. destruct (HA a Ha) as (G1 & G2).
    assert (Hin : In (u32 (e_ttl a - (now - e_time a))) (map (fun e => u32 (e_ttl e - (now - e_time e))) (filter (mates ignore r now) A))).
    { apply in_map_iff. exists a. split; [reflexivity|]. apply filter_In. auto. }
    pose proof (proj2 (fold_min_le (map (fun e => u32 (e_ttl e - (now - e_time e))) (filter (mates ignore r now) A)) life) _ Hin) as Hle.
    unfold mates, fresh in Hm. rewrite Hi in Hm. cbn [orb] in Hm. apply andb_true_iff in Hm. unfold u32 in Hle at 2. rewrite Z.mod_small in Hle by lia. lia.
Qed.

Lemma run_inv A o ops A' : a_run ignore parallel get A (o :: ops) A' ->
  match o with
  | OAdd infected r now => exists code A1, a_add ignore parallel (life_of infected r) A r now code A1 /\ a_run ignore parallel get A1 ops A'
  | OSweep now => a_run ignore parallel get (a_sweep A now) ops A'
  end.
Proof. intros H. inversion H; eauto. Qed.
Lemma run_nil A A' : a_run ignore parallel get A [] A' -> A' = A.
Proof. intros H. inversion H; reflexivity. Qed.
Lemma sweep_good A t now : t <= now -> Forall (good t) A -> Forall (good now) (a_sweep A now).
Proof.
  intros Ht HA. rewrite Forall_forall in HA |- *. intros e He. unfold a_sweep in He. apply filter_In in He. destruct (HA e (proj1 He)) as (G1 & G2). split; [lia|exact G2].
Qed.

Lemma run_good ops : forall A A' t, ignore = false -> a_run ignore parallel get A ops A' -> Forall op_ok ops -> clock t ops -> Forall (good t) A -> Forall (good (last_time t ops)) A'.
Proof.
  induction ops as [|o ops IH]; intros A A' t Hi Hr Ho Hc HA; cbn [last_time fold_left].
  - rewrite (run_nil _ _ Hr). exact HA.
  - cbn [clock] in Hc. destruct Hc as (Hc1 & Hc2). inversion_clear Ho as [|? ? Ho1 Ho2]. apply run_inv in Hr. destruct o as [infected r now|now]; cbn [op_time] in *.
    + destruct Hr as (code & A1 & Ha & Hr). apply (IH A1 A' now Hi Hr Ho2 Hc2). eapply add_good; eauto. apply lifetime_range. apply Ho1.
    + apply (IH _ A' now Hi Hr Ho2 Hc2). eapply sweep_good; eauto.
Qed.
Lemma run_origin ops : forall A A' t e, ignore = false -> a_run ignore parallel get A ops A' -> Forall op_ok ops -> clock t ops -> Forall (good t) A -> In e A' ->
  origin ops e \/ exists a, In a A /\ e_name a = e_name e /\ e_type a = e_type e /\ e_class a = e_class e /\ e_data a = e_data e /\ e_time e + e_ttl e <= e_time a + e_ttl a.
Proof.
  induction ops as [|o ops IH]; intros A A' t e Hi Hr Ho Hc HA He.
  - rewrite (run_nil _ _ Hr) in He. right; exists e; repeat (split; [reflexivity || assumption|]); lia.
  - cbn [clock] in Hc. destruct Hc as (Hc1 & Hc2). inversion_clear Ho as [|? ? Ho1 Ho2]. apply run_inv in Hr. destruct o as [infected r now|now]; cbn [op_time] in *.
    + destruct Hr as (code & A1 & Ha & Hr). assert (HA1 : Forall (good now) A1) by (eapply add_good; eauto; apply lifetime_range; apply Ho1).
      destruct (IH A1 A' now e Hi Hr Ho2 Hc2 HA1 He) as [(inf & r' & t0 & B1 & B2)|(a & B1 & B2 & B3 & B4 & B5 & B6)].
      * left. exists inf, r', t0. split; [right; exact B1|exact B2].
      * destruct (add_origin _ A r now code A1 t a Hi Ha Hc1 HA B1) as [((S1 & S2 & S3 & S4) & S5 & S6)|(a' & D1 & D2 & D3 & D4 & D5 & D6)].
        -- left. exists infected, r, now. split; [left; reflexivity|]. split; [unfold same_rec; repeat split; congruence|]. split; [exact S5|]. unfold life_of in *. lia.
        -- right. exists a'. repeat (split; [congruence || assumption|]). lia.
    + destruct (IH (a_sweep A now) A' now e Hi Hr Ho2 Hc2 (sweep_good _ _ _ Hc1 HA) He) as [(inf & r' & t0 & B1 & B2)|(a & B1 & B2)].
      * left. exists inf, r', t0. split; [right; exact B1|exact B2].
      * right. exists a. split; [unfold a_sweep in B1; apply filter_In in B1; tauto|exact B2].
Qed.
(** The same without the clock: only the record. *)
Lemma run_source ops : forall A A' e, a_run ignore parallel get A ops A' -> In e A' ->
  (exists infected r t0, In (OAdd infected r t0) ops /\ same_rec r e /\ storable r) \/ exists a, In a A /\ e_name a = e_name e /\ e_type a = e_type e /\ e_class a = e_class e /\ e_data a = e_data e.
Proof.
  induction ops as [|o ops IH]; intros A A' e Hr He.
  - rewrite (run_nil _ _ Hr) in He. right; exists e; auto.
  - apply run_inv in Hr. destruct o as [infected r now|now].
    + destruct Hr as (code & A1 & Ha & Hr). destruct (IH A1 A' e Hr He) as [(inf & r' & t0 & B1 & B2)|(a & B1 & B2 & B3 & B4 & B5)].
      * left. exists inf, r', t0. split; [right; exact B1|exact B2].
      * destruct Ha; try (right; exists a; auto; fail). destruct B1 as [<-|B1].
        -- left. exists infected, r, now. split; [left; reflexivity|]. split; [|assumption]. cbn in *. unfold same_rec. repeat split; congruence.
        -- apply in_level in B1. destruct B1 as [B1|(a0 & Ha & _ & _ & ->)]; [right; exists a; auto|right; exists a0; cbn in *; auto].
    + destruct (IH _ A' e Hr He) as [(inf & r' & t0 & B1 & B2)|(a & B1 & B2)].
      * left. exists inf, r', t0. split; [right; exact B1|exact B2].
      * right. exists a. split; [unfold a_sweep in B1; apply filter_In in B1; tauto|exact B2].
Qed.
End Run.

(** * Answers *)
Section Answer.
Context (raw : list Z -> list cnode -> nat -> Z) (ignore : bool).
Lemma get_raw_ok c A name ty kl now g : rep c A -> ~ In 0 name -> 0 <= ty < 65536 -> 0 <= kl < 65536 -> (length (triplet name ty kl) < 264)%nat ->
  (ignore = false -> Forall (good now) A) ->
  get_raw raw ignore c name ty kl now g = serve name ty kl (a_lookup ignore A name ty kl now) (-100) g.
Proof.
  intros [(L & F & H & HL) He Hc HA] Hn Ht Hk Hfit Hg. unfold get_raw, key_fits. rewrite (proj2 (Nat.ltb_lt _ _) Hfit).
  assert (Hkey : ~ In 0 (triplet name ty kl)) by (apply triplet_no_nul; [exact Hn|lia|lia]).
  rewrite (raw_loop_ok raw ignore c [] F name ty kl now Hkey (filter (keyP ignore (triplet name ty kl) now) L) [] L None); [|exact H|eapply kform_of; eauto|reflexivity|reflexivity|].
  2:{ pose proof (filter_length_le' (keyP ignore (triplet name ty kl) now) L). pose proof (inv_length _ _ _ _ H). lia. }
  f_equal. unfold a_lookup. set (key := triplet name ty kl) in *. rewrite filter_filter.
  rewrite <- (map_map snd (fun e => (sdata key e, sserved ignore now e))).
  unfold keyP. rewrite (lift_filter L A (fun e => keyQ ignore key now e && negb (si_ttl e =? 0)) (fun e => same_key name ty kl e && fresh ignore now e && negb (e_ttl e =? 0)) HL).
  - rewrite map_map. apply map_ext_in. intros a Ha. apply filter_In in Ha. destruct Ha as (Ha & Hq). rewrite !andb_true_iff in Hq. destruct Hq as ((Hq1 & Hq2) & Hq3).
    apply same_key_iff in Hq1. destruct Hq1 as (E1 & E2 & E3). f_equal.
    + unfold sdata. cbn [si_bytes item]. rewrite E1, E2, E3. fold key. replace (length key + 1)%nat with (length (key ++ [0%Z])) by (rewrite app_length; reflexivity).
      change (key ++ 0 :: e_data a) with (key ++ [0] ++ e_data a). rewrite app_assoc, skipn_app, skipn_all, Nat.sub_diag. reflexivity.
    + unfold sserved, remaining. cbn [si_ttl si_time item]. destruct ignore; [reflexivity|]. specialize (Hg eq_refl). rewrite Forall_forall in Hg. destruct (Hg a Ha) as (G1 & G2).
      unfold fresh in Hq2. cbn [orb] in Hq2. unfold u32. apply Z.mod_small. lia.
  - intros a Ha. rewrite Forall_forall in HA. unfold keyQ. rewrite (same_key_item name ty kl a (HA a Ha) Ht Hk). fold key. cbn [si_ttl item]. rewrite fresh_item.
    destruct (list_eq_dec Z.eq_dec (si_key (item a)) key); rewrite ?andb_true_r, ?andb_false_r; reflexivity.
Qed.
End Answer.
