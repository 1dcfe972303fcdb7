(** The invariant of the cache's storage and its preservation. *)
From Verif Require Import Base BaseFacts ListFacts List2Facts Hash_Model Sht_Model Sht_Proofs Gen_Model Cht_Model Cht_Proofs.
From Coq Require Import Permutation.
Require Import ZifyBool ZifyNat.

(** A stored item: its bytes after the marker (key, NUL, data), its lifetime and the time it was stored. *)
Record sitem := mk_si { si_bytes : list Z; si_ttl : Z; si_time : Z }.
Definition si_key (e : sitem) : list Z := cstr (si_bytes e).

Definition lay (n : cnode) : nat * nat := (n_off n, n_len n).
Definition start (ns : list cnode) : nat := (header_size + list_sum (map n_len ns))%nat.

Definition bucket (c : cache) (L : list (nat * sitem)) (s : nat) : list nat :=
  map fst (filter (fun p => Nat.eqb (slot_of c (si_key (snd p))) s) L).

Record live (c : cache) (n : cnode) (e : sitem) : Prop := {
  lv_slot : n_slot n = Z.of_nat (slot_of c (si_key e));
  lv_ttl : n_ttl n = si_ttl e;
  lv_time : n_time n = si_time e;
  lv_used : n_used n = Z.of_nat (1 + length (si_bytes e));
  lv_len : n_len n = round16 (1 + length (si_bytes e));
  lv_mem : slice (c_mem c) (n_off n + 1) (length (si_bytes e)) = Some (si_bytes e) }.

(** [X]: nodes that are neither live nor free at the moment. *)
Record inv0 (c : cache) (X : list nat) (L : list (nat * sitem)) (F : list group) : Prop := {
  v_slots : (0 < length (c_slots c))%nat;
  v_mem : length (c_mem c) = c_size c;
  v_off : forall i n, nth_error (c_nodes c) i = Some n -> n_off n = start (firstn i (c_nodes c));
  v_room : (start (c_nodes c) + node_size * length (c_nodes c) + slot_size * length (c_slots c) <= c_size c)%nat;
  v_part : Permutation (X ++ map fst L ++ all_members F) (seq 0 (length (c_nodes c)));
  v_chain : forall s, (s < length (c_slots c))%nat ->
    nth_error (c_slots c) s = Some (hz (bucket c L s) (-1)) /\ seg n_next (c_nodes c) (bucket c L s) (-1);
  v_live : forall i e, In (i, e) L -> exists n, nth_error (c_nodes c) i = Some n /\ live c n e;
  v_free : finv (c_nodes c) (c_free c) F;
  v_zero : forall i n, In i (all_members F) -> nth_error (c_nodes c) i = Some n -> n_ttl n = 0 }.

(** ** Consequences *)
Lemma round16_le n : (n <= round16 n)%nat.
Proof. unfold round16. pose proof (Nat.div_mod (n + 15) 16 ltac:(lia)). pose proof (Nat.mod_upper_bound (n + 15) 16 ltac:(lia)). lia. Qed.
Lemma slot_of_lt c k : (0 < length (c_slots c))%nat -> (slot_of c k < length (c_slots c))%nat.
Proof. intros H. unfold slot_of. pose proof (Z.mod_pos_bound (bkdr k) (Z.of_nat (length (c_slots c))) ltac:(lia)). lia. Qed.
Lemma inv_nodup c X L F : inv0 c X L F -> NoDup (X ++ map fst L ++ all_members F).
Proof. intros H. eapply Permutation_NoDup; [symmetry; apply (v_part _ _ _ _ H)|apply seq_NoDup]. Qed.
Lemma inv_lt c X L F i : inv0 c X L F -> In i (X ++ map fst L ++ all_members F) <-> (i < length (c_nodes c))%nat.
Proof.
  intros H. split.
  - intros Hi. apply (Permutation_in _ (v_part _ _ _ _ H)) in Hi. apply in_seq in Hi. lia.
  - intros Hi. apply (Permutation_in _ (Permutation_sym (v_part _ _ _ _ H))). apply in_seq. lia.
Qed.
Lemma start_app a b : start (a ++ b) = (start a + list_sum (map n_len b))%nat.
Proof. unfold start. rewrite map_app, list_sum_app. lia. Qed.
Lemma start_split ns i n : nth_error ns i = Some n -> (start (firstn i ns) + n_len n + list_sum (map n_len (skipn (S i) ns)) = start ns)%nat.
Proof.
  intros H. rewrite <- (firstn_skipn i ns) at 3. rewrite start_app. rewrite (skipn_nth i ns n H). cbn [map list_sum fold_right]. unfold list_sum. lia.
Qed.
Lemma start_mono ns i j n : nth_error ns i = Some n -> (i < j)%nat -> (start (firstn i ns) + n_len n <= start (firstn j ns))%nat.
Proof.
  intros H Hij. assert (H1 : nth_error (firstn j ns) i = Some n) by (rewrite nth_error_firstn; destruct (Nat.ltb_spec i j); [exact H|lia]).
  pose proof (start_split _ _ _ H1) as E. rewrite firstn_firstn in E. replace (Nat.min i j) with i in E by lia. lia.
Qed.
Lemma chunk_end c X L F i n : inv0 c X L F -> nth_error (c_nodes c) i = Some n -> (header_size <= n_off n /\ n_off n + n_len n <= start (c_nodes c))%nat.
Proof.
  intros H Hn. rewrite (v_off _ _ _ _ H i n Hn). pose proof (start_split _ _ _ Hn). unfold start in *. lia.
Qed.
(** Chunks of different nodes do not overlap. *)
Lemma chunk_disj c X L F i j n m : inv0 c X L F -> nth_error (c_nodes c) i = Some n -> nth_error (c_nodes c) j = Some m -> i <> j ->
  (n_off n + n_len n <= n_off m \/ n_off m + n_len m <= n_off n)%nat.
Proof.
  intros H Hn Hm Hij. rewrite (v_off _ _ _ _ H i n Hn), (v_off _ _ _ _ H j m Hm).
  destruct (Nat.lt_total i j) as [Hl|[Hl|Hl]]; [left; now apply start_mono|lia|right; now apply start_mono].
Qed.
Lemma bottom_ge c X L F : inv0 c X L F -> (start (c_nodes c) <= bottom c)%nat.
Proof. intros H. pose proof (v_room _ _ _ _ H). unfold bottom. lia. Qed.
Lemma bucket_in c L s i : In i (bucket c L s) <-> exists e, In (i, e) L /\ slot_of c (si_key e) = s.
Proof.
  unfold bucket. rewrite in_map_iff. split.
  - intros ([j e] & <- & H). apply filter_In in H. cbn [fst snd] in *. exists e. split; [tauto|]. apply Nat.eqb_eq. tauto.
  - intros (e & H & E). exists (i, e). split; [reflexivity|]. apply filter_In. split; [exact H|]. now apply Nat.eqb_eq.
Qed.

(** ** Changes to nodes that are neither live nor free *)
Lemma lay_start ns ns' : map lay ns' = map lay ns -> start ns' = start ns.
Proof. intros H. unfold start. f_equal. f_equal. change n_len with (fun n => snd (lay n)). rewrite <- !(map_map lay snd). congruence. Qed.
Lemma lay_length ns ns' : map lay ns' = map lay ns -> length ns' = length ns.
Proof. intros H. rewrite <- (map_length lay ns'), H. apply map_length. Qed.
Lemma lay_firstn ns ns' i : map lay ns' = map lay ns -> map lay (firstn i ns') = map lay (firstn i ns).
Proof. intros H. rewrite <- !firstn_map. congruence. Qed.
Lemma lay_nth ns ns' i n' : map lay ns' = map lay ns -> nth_error ns' i = Some n' -> exists n, nth_error ns i = Some n /\ lay n' = lay n.
Proof.
  intros H Hn. assert (E : nth_error (map lay ns') i = Some (lay n')) by (now apply map_nth_error). rewrite H, nth_error_map in E.
  destruct (nth_error ns i) as [n|]; [|discriminate]. exists n. split; [reflexivity|]. cbn in E. congruence.
Qed.
Lemma lay_off c c' : (forall i n, nth_error (c_nodes c) i = Some n -> n_off n = start (firstn i (c_nodes c))) -> map lay (c_nodes c') = map lay (c_nodes c) ->
  forall i n, nth_error (c_nodes c') i = Some n -> n_off n = start (firstn i (c_nodes c')).
Proof.
  intros H E i n' Hn'. destruct (lay_nth _ _ i n' E Hn') as (n & Hn & El). rewrite (lay_start _ _ (lay_firstn _ _ i E)), <- (H i n Hn).
  unfold lay in El. congruence.
Qed.

Lemma inv0_nodes c X L F ns' : inv0 c X L F -> map lay ns' = map lay (c_nodes c) ->
  (forall i, ~ In i X -> nth_error ns' i = nth_error (c_nodes c) i) -> inv0 (with_nodes c ns') X L F.
Proof.
  intros H HL HO. pose proof (inv_nodup _ _ _ _ H) as HN. apply NoDup_app_iff in HN. destruct HN as (_ & HN2 & HD).
  assert (HLX : forall i e, In (i, e) L -> nth_error ns' i = nth_error (c_nodes c) i).
  { intros i e Hi. apply HO. intros Hx. apply (HD i Hx). apply in_or_app. left. apply in_map_iff. exists (i, e). auto. }
  assert (HFX : forall i, In i (all_members F) -> nth_error ns' i = nth_error (c_nodes c) i).
  { intros i Hi. apply HO. intros Hx. apply (HD i Hx). apply in_or_app. auto. }
  constructor; cbn [c_slots c_mem c_nodes c_size c_free with_nodes].
  - apply H.
  - apply H.
  - apply (lay_off c (with_nodes c ns')); [apply H|exact HL].
  - rewrite (lay_start _ _ HL), (lay_length _ _ HL). apply H.
  - rewrite (lay_length _ _ HL). apply H.
  - intros s Hs. destruct (v_chain _ _ _ _ H s Hs) as (A & B). split; [exact A|]. eapply seg_ext; [|exact B]. intros i Hi.
    apply bucket_in in Hi. destruct Hi as (e & Hi & _). rewrite (HLX i e Hi). reflexivity.
  - intros i e Hi. destruct (v_live _ _ _ _ H i e Hi) as (n & Hn & Hl). exists n. rewrite (HLX i e Hi). split; [exact Hn|].
    destruct Hl; constructor; assumption.
  - destruct (v_free _ _ _ _ H) as (A & B & C). split; [exact A|]. split.
    + eapply seg_ext; [|exact B]. intros i Hi. rewrite HFX; [reflexivity|now apply heads_in].
    + intros g Hg. destruct (C g Hg) as (D & k & Hk). split.
      * eapply seg_ext; [|exact D]. intros i Hi. rewrite HFX; [reflexivity|eapply in_members; eauto].
      * exists k. intros i Hi. rewrite HFX by (eapply in_members; eauto). auto.
  - intros i n Hi Hn. rewrite HFX in Hn by exact Hi. eapply (v_zero _ _ _ _ H); eauto.
Qed.
Lemma inv0_set c X L F i n n' : inv0 c X L F -> In i X -> nth_error (c_nodes c) i = Some n -> lay n' = lay n ->
  inv0 (setn c (Z.of_nat i) n') X L F.
Proof.
  intros H Hi Hn E. rewrite setn_nat. apply inv0_nodes; [exact H|eapply map_lset; eauto|]. intros j Hj. apply nth_lset_other. congruence.
Qed.
Lemma inv0_end c X L F e : inv0 c X L F -> inv0 (with_end c e) X L F.
Proof. intros [A1 A2 A3 A4 A5 A6 A7 A8 A9]. constructor; auto. intros i x Hi. destruct (A7 i x Hi) as (n & Hn & [B1 B2 B3 B4 B5 B6]). exists n. split; [exact Hn|]. constructor; assumption. Qed.
Lemma inv0_count c X L F k : inv0 c X L F -> inv0 (with_count c k) X L F.
Proof. intros [A1 A2 A3 A4 A5 A6 A7 A8 A9]. constructor; auto. intros i x Hi. destruct (A7 i x Hi) as (n & Hn & [B1 B2 B3 B4 B5 B6]). exists n. split; [exact Hn|]. constructor; assumption. Qed.

(** ** Writing bytes inside of a chunk *)
Lemma inv0_write c X L F i n off l : inv0 c X L F -> nth_error (c_nodes c) i = Some n ->
  (n_off n <= off)%nat -> (off + length l <= n_off n + n_len n)%nat -> (In i X \/ (off + length l <= n_off n + 1)%nat) ->
  exists m, mem_write c off l = Ret (with_mem c m) /\ write (c_mem c) off l = Some m /\ inv0 (with_mem c m) X L F.
Proof.
  intros H Hn H1 H2 H3. pose proof (chunk_end _ _ _ _ _ _ H Hn) as [Ha Hb]. pose proof (bottom_ge _ _ _ _ H) as Hc.
  assert (Hbs : (bottom c <= c_size c)%nat) by (unfold bottom; lia). pose proof (v_mem _ _ _ _ H) as Hm.
  unfold mem_write. destruct (Nat.ltb_spec (bottom c) (off + length l)); [lia|].
  destruct (write (c_mem c) off l) as [m|] eqn:Ew; [|unfold write in Ew; destruct (Nat.leb_spec (off + length l) (length (c_mem c))); [discriminate|lia]].
  exists m. split; [reflexivity|]. split; [reflexivity|]. pose proof (write_length _ _ _ _ Ew) as Hlen.
  pose proof (inv_nodup _ _ _ _ H) as HN. apply NoDup_app_iff in HN. destruct HN as (_ & HN2 & HD).
  constructor; cbn [c_slots c_mem c_nodes c_size c_free with_mem]; try apply H; [lia|].
  intros j e Hj. destruct (v_live _ _ _ _ H j e Hj) as (nj & Hnj & [B1 B2 B3 B4 B5 B6]). exists nj. split; [exact Hnj|].
  constructor; auto. cbn [c_mem with_mem]. rewrite <- B6.
  destruct (Nat.eq_dec i j) as [->|Hij].
  - rewrite Hn in Hnj. injection Hnj as <-. destruct H3 as [H3|H3].
    + exfalso. apply (HD j H3). apply in_or_app. left. apply in_map_iff. exists (j, e). auto.
    + eapply slice_write_out; [exact Ew|]. lia.
  - pose proof (chunk_disj _ _ _ _ _ _ _ _ H Hn Hnj Hij) as HC. pose proof (round16_le (1 + length (si_bytes e))) as HR. eapply slice_write_out; [exact Ew|]. lia.
Qed.

(** ** Taking a chunk *)
Lemma sim_lay S ns ns' : sim S ns ns' -> map lay ns' = map lay ns.
Proof. intros (H & _). change lay with (fun n => fst (core n)). rewrite <- !(map_map core fst). congruence. Qed.
(** Only free nodes (and how they are linked) have changed; [h] nodes have left the free list. *)
Lemma inv0_free c X L F ns' f' h F' : inv0 c X L F -> sim (all_members F) (c_nodes c) ns' ->
  Permutation (all_members F) (h ++ all_members F') -> finv ns' f' F' -> inv0 (with_free (with_nodes c ns') f') (h ++ X) L F'.
Proof.
  intros H HS HP HF. pose proof (sim_lay _ _ _ HS) as HL. pose proof (inv_nodup _ _ _ _ H) as HN.
  assert (HLF : forall i e, In (i, e) L -> nth_error ns' i = nth_error (c_nodes c) i).
  { intros i e Hi. apply (proj2 HS). intros Hx. apply NoDup_app_remove_l in HN. eapply nodup_app_disj; [exact HN| |exact Hx]. apply in_map_iff. exists (i, e). auto. }
  constructor; cbn [c_slots c_mem c_nodes c_size c_free with_nodes with_free].
  - apply H.
  - apply H.
  - apply (lay_off c (with_nodes c ns')); [apply H|exact HL].
  - rewrite (lay_start _ _ HL), (lay_length _ _ HL). apply H.
  - rewrite (lay_length _ _ HL). rewrite <- (v_part _ _ _ _ H), HP. rewrite <- !app_assoc. etransitivity; [apply Permutation_app_comm|]. rewrite <- !app_assoc.
    apply Permutation_app_head. apply Permutation_app_head. apply Permutation_app_comm.
  - intros s Hs. destruct (v_chain _ _ _ _ H s Hs) as (A & B). split; [exact A|]. eapply seg_ext; [|exact B]. intros i Hi.
    apply bucket_in in Hi. destruct Hi as (e & Hi & _). rewrite (HLF i e Hi). reflexivity.
  - intros i e Hi. destruct (v_live _ _ _ _ H i e Hi) as (n & Hn & Hl). exists n. rewrite (HLF i e Hi). split; [exact Hn|].
    destruct Hl; constructor; assumption.
  - exact HF.
  - intros i n Hi Hn. assert (HiF : In i (all_members F)) by (apply (Permutation_in _ (Permutation_sym HP)); apply in_or_app; auto).
    pose proof (core_nth _ _ i (proj1 HS)) as E. rewrite Hn in E. destruct (nth_error (c_nodes c) i) as [n0|] eqn:E0; [|discriminate].
    cbn in E. unfold core in E. pose proof (v_zero _ _ _ _ H i n0 HiF E0). congruence.
Qed.

Lemma lset_last {A} (l : list A) x y : lset (l ++ [x]) (length l) y = l ++ [y].
Proof. induction l as [|z l IH]; cbn [length app lset]; [reflexivity|]. f_equal. exact IH. Qed.

Lemma get_chunk_ok c L F len now : inv0 c [] L F -> c_end c = start (c_nodes c) ->
  exists o c', get_chunk c len now = Ret (o, c') /\ c_end c' = start (c_nodes c') /\ c_count c' = c_count c /\
    c_size c' = c_size c /\ c_slots c' = c_slots c /\
    match o with
    | Some z => exists i n F', z = Z.of_nat i /\ nth_error (c_nodes c') i = Some n /\ n_len n = round16 len /\ inv0 c' [i] L F'
    | None => inv0 c' [] L F /\ (forall g, In g F -> ~ glen (c_nodes c) g (round16 len)) /\
              (c_size c < c_end c + round16 len + node_size * (length (c_nodes c) + 1) + slot_size * length (c_slots c))%nat
    end.
Proof.
  intros H He. pose proof (inv_nodup _ _ _ _ H) as HN. apply NoDup_app_remove_l, NoDup_app_remove_l in HN.
  unfold get_chunk. destruct (find_unused_ok c F (round16 len) (c_end c + round16 len) now (v_free _ _ _ _ H) HN) as (res & E & [HC|HP]); rewrite E; cbn [bind].
  - destruct HC as (HG & ns' & HS & HF & ->). pose proof (sim_lay _ _ _ HS) as HL.
    assert (H1 : inv0 (with_nodes c ns') [] L F).
    { change (with_nodes c ns') with (with_free (with_nodes c ns') (c_free c)). apply (inv0_free c [] L F ns' (c_free c) [] F); auto. }
    unfold create_node. cbn [c_nodes c_size c_slots with_nodes]. rewrite (lay_length _ _ HL).
    destruct (Nat.ltb_spec (c_size c) (c_end c + round16 len + node_size * (length (c_nodes c) + 1) + slot_size * length (c_slots c))) as [Hs|Hs].
    + eexists _, _. split; [reflexivity|]. cbn [c_end c_nodes c_count c_size c_slots with_nodes]. rewrite (lay_start _ _ HL). auto 10.
    + (* a new node *)
      set (u := length (c_nodes c)) in *. assert (Hu : length ns' = u) by (apply (lay_length _ _ HL)).
      set (n0 := mk_cn 0 (-1) 0 0 0 (round16 len) 0).
      assert (Hn0 : nth_error (ns' ++ [n0]) u = Some n0) by (rewrite nth_error_app2 by lia; rewrite Hu, Nat.sub_diag; reflexivity).
      rewrite (derefn_nat _ u n0) by (cbn [c_nodes with_nodes]; exact Hn0). cbn [bind]. rewrite setn_nat. cbn [c_nodes c_end with_nodes].
      set (n1 := n_set_off n0 (c_end c)).
      assert (Hls : lset (ns' ++ [n0]) u n1 = ns' ++ [n1]).
      { rewrite <- Hu. apply lset_last. }
      rewrite Hls. set (c2 := with_end _ _).
      assert (Hc2 : inv0 c2 [u] L F).
      { unfold c2. apply inv0_end. constructor; cbn [c_slots c_mem c_nodes c_size c_free with_nodes].
        - apply H1.
        - apply H1.
        - intros i n Hi. destruct (Nat.lt_ge_cases i (length ns')) as [Hlt|Hge].
          + rewrite nth_error_app1 in Hi by lia. rewrite firstn_app. replace (i - length ns')%nat with 0%nat by lia. cbn [firstn]. rewrite app_nil_r.
            apply (v_off _ _ _ _ H1 i n Hi).
          + rewrite nth_error_app2 in Hi by lia. destruct (i - length ns')%nat as [|q] eqn:Eq; [|destruct q; discriminate]. cbn [nth_error] in Hi. assert (En : n1 = n) by congruence. rewrite <- En.
            assert (i = length ns') by lia. subst i. rewrite firstn_app, Nat.sub_diag, firstn_all. cbn [firstn]. rewrite app_nil_r. cbn [n_off n1 n_set_off].
            rewrite (lay_start _ _ HL). exact He.
        - rewrite start_app, app_length. cbn [map list_sum fold_right n_len n1 n_set_off n0 length]. rewrite (lay_start _ _ HL), Hu.
          rewrite He in Hs. lia.
        - rewrite app_length. cbn [length]. rewrite Nat.add_1_r, seq_S. rewrite <- (v_part _ _ _ _ H1). cbn [app plus]. rewrite Hu. cbn [plus].
          apply Permutation_cons_append.
        - intros s Hs1. destruct (v_chain _ _ _ _ H1 s Hs1) as (A & B). split; [exact A|]. cbn [c_nodes with_nodes] in B. eapply seg_ext; [|exact B].
          intros i Hi. apply bucket_in in Hi. destruct Hi as (e & Hi & _). destruct (v_live _ _ _ _ H1 i e Hi) as (n & Hn & _). cbn [c_nodes with_nodes] in Hn.
          rewrite nth_error_app1; [reflexivity|]. apply nth_error_Some. congruence.
        - intros i e Hi. destruct (v_live _ _ _ _ H1 i e Hi) as (n & Hn & Hl). cbn [c_nodes with_nodes] in Hn. exists n. split.
          + rewrite nth_error_app1; [exact Hn|]. apply nth_error_Some. congruence.
          + destruct Hl; constructor; assumption.
        - assert (Hfl : forall i, In i (all_members F) -> nth_error (ns' ++ [n1]) i = nth_error ns' i).
          { intros i Hi. apply nth_error_app1. pose proof (inv_lt _ _ _ _ i H1) as HH. cbn [c_nodes with_nodes] in HH. apply HH.
            apply in_or_app. right. apply in_or_app. auto. }
          destruct HF as (A & B & C). split; [exact A|]. split.
          + eapply seg_ext; [|exact B]. intros i Hi. rewrite Hfl; [reflexivity|now apply heads_in].
          + intros g Hg. destruct (C g Hg) as (D & k & Hk). split.
            * eapply seg_ext; [|exact D]. intros i Hi. rewrite Hfl; [reflexivity|eapply in_members; eauto].
            * exists k. intros i Hi. rewrite Hfl by (eapply in_members; eauto). auto.
        - intros i n Hi Hn. apply (v_zero _ _ _ _ H1 i n Hi). cbn [c_nodes with_nodes]. rewrite nth_error_app1 in Hn; [exact Hn|].
          pose proof (inv_lt _ _ _ _ i H1) as HH. cbn [c_nodes with_nodes] in HH. apply HH. apply in_or_app. right. apply in_or_app. auto. }
      assert (Hn1 : nth_error (c_nodes c2) u = Some n1).
      { unfold c2. cbn [c_nodes with_end with_nodes]. rewrite nth_error_app2 by lia. rewrite Hu, Nat.sub_diag. reflexivity. }
      rewrite (derefn_nat _ u n1 Hn1). cbn [bind].
      pose proof (round16_le len) as HR.
      destruct (inv0_write c2 [u] L F u n1 (n_off n1 + len) (repeat 254 (round16 len - len)) Hc2 Hn1) as (m & Em & _ & Hc3).
      * lia.
      * rewrite repeat_length. cbn [n_len n1 n_set_off n0]. lia.
      * left. cbn; auto.
      * rewrite Em. cbn [bind]. eexists _, _. split; [reflexivity|]. split; [|split; [reflexivity|split; [reflexivity|split; [reflexivity|]]]].
        -- cbn [c_end c_nodes with_mem with_end c2 with_nodes]. rewrite start_app. cbn [map list_sum fold_right n_len n1 n_set_off n0]. rewrite (lay_start _ _ HL). lia.
        -- exists u, n1, F. split; [reflexivity|]. split; [exact Hn1|]. split; [reflexivity|exact Hc3].
  - destruct HP as (ns' & f' & h & F' & n & -> & HS & HPm & HF & Hn & Hlen & _ & _).
    assert (H1 : inv0 (with_free (with_nodes c ns') f') [h] L F').
    { apply (inv0_free c [] L F ns' f' [h] F'); auto. }
    cbn [c_nodes with_free with_nodes] in Hn. rewrite (derefn_nat _ h n) by exact Hn. cbn [bind].
    pose proof (round16_le len) as HR.
    destruct (inv0_write _ [h] L F' h n (n_off n + len) (repeat 254 (round16 len - len)) H1 Hn) as (m & Em & _ & Hc3).
    + lia.
    + rewrite repeat_length. lia.
    + left; cbn; auto.
    + rewrite Em. cbn [bind]. eexists _, _. split; [reflexivity|]. split; [|split; [reflexivity|split; [reflexivity|split; [reflexivity|]]]].
      * cbn [c_end c_nodes with_mem with_free with_nodes]. rewrite (lay_start _ _ (sim_lay _ _ _ HS)). exact He.
      * exists h, n, F'. split; [reflexivity|]. split; [exact Hn|]. split; [exact Hlen|exact Hc3].
Qed.

(** ** Linking *)
Lemma bucket_cons c i e L s : bucket c ((i, e) :: L) s = (if Nat.eqb (slot_of c (si_key e)) s then [i] else []) ++ bucket c L s.
Proof. unfold bucket. cbn [filter snd]. destruct (Nat.eqb _ s); reflexivity. Qed.
Lemma bucket_app c L L' s : bucket c (L ++ L') s = bucket c L s ++ bucket c L' s.
Proof. unfold bucket. rewrite filter_app, map_app. reflexivity. Qed.
Lemma bucket_slots c c' L s : length (c_slots c') = length (c_slots c) -> bucket c' L s = bucket c L s.
Proof. intros E. unfold bucket, slot_of. rewrite E. reflexivity. Qed.
Lemma live_slots c c' n e : length (c_slots c') = length (c_slots c) -> c_mem c' = c_mem c -> live c n e -> live c' n e.
Proof. intros E1 E2 [A B C D E G]. constructor; auto; [unfold slot_of in *; rewrite E1; exact A|rewrite E2; exact G]. Qed.

Lemma insert_ok c i n e L F : inv0 c [i] L F -> nth_error (c_nodes c) i = Some n ->
  n_ttl n = si_ttl e -> n_time n = si_time e -> n_used n = Z.of_nat (1 + length (si_bytes e)) -> n_len n = round16 (1 + length (si_bytes e)) ->
  slice (c_mem c) (n_off n + 1) (length (si_bytes e)) = Some (si_bytes e) ->
  exists c', insert_to_slot c (si_key e) (Z.of_nat i) = Ret c' /\ inv0 c' [] ((i, e) :: L) F /\
    c_size c' = c_size c /\ length (c_slots c') = length (c_slots c) /\ c_end c' = c_end c /\ c_count c' = c_count c /\ map lay (c_nodes c') = map lay (c_nodes c).
Proof.
  intros H Hn H1 H2 H3 H4 H5. unfold insert_to_slot. rewrite (derefn_nat c i n Hn). cbn [bind].
  set (s := slot_of c (si_key e)). pose proof (slot_of_lt c (si_key e) (v_slots _ _ _ _ H)) as Hs. fold s in Hs.
  destruct (v_chain _ _ _ _ H s Hs) as (Hhead & Hseg).
  change (c_slots (setn c (Z.of_nat i) (n_set_slot n (Z.of_nat s)))) with (c_slots c). rewrite Hhead. rewrite setn_nat.
  rewrite (derefn_nat _ i (n_set_slot n (Z.of_nat s))) by (cbn [c_nodes with_nodes]; eapply nth_lset_same; eauto). cbn [bind].
  rewrite setn_nat. cbn [c_nodes with_nodes]. set (n2 := n_set_next _ _). eexists. split; [reflexivity|].
  set (ns' := lset (lset (c_nodes c) i (n_set_slot n (Z.of_nat s))) i n2).
  assert (Hlay : map lay ns' = map lay (c_nodes c)).
  { unfold ns'. etransitivity; [eapply map_lset; [eapply nth_lset_same; eauto|reflexivity]|]. eapply map_lset; [exact Hn|reflexivity]. }
  assert (HO : forall j, j <> i -> nth_error ns' j = nth_error (c_nodes c) j) by (intros j Hj; unfold ns'; rewrite !nth_lset_other by exact Hj; reflexivity).
  assert (Hi' : nth_error ns' i = Some n2) by (unfold ns'; eapply nth_lset_same, nth_lset_same; eauto).
  assert (H0 : inv0 (with_nodes c ns') [i] L F).
  { apply inv0_nodes; [exact H|exact Hlay|]. intros j Hj. apply HO. cbn in Hj. intuition congruence. }
  change (with_nodes (with_nodes c (lset (c_nodes c) i (n_set_slot n (Z.of_nat s)))) ns') with (with_nodes c ns').
  assert (HSL : length (lset (c_slots c) s (Z.of_nat i)) = length (c_slots c)) by apply lset_length.
  split; [|cbn [c_size c_slots c_end c_count c_nodes with_slots with_nodes]; auto 10].
  constructor; cbn [c_slots c_mem c_nodes c_size c_free with_slots with_nodes].
  - rewrite HSL. apply H.
  - apply H.
  - apply (v_off _ _ _ _ H0).
  - rewrite HSL. apply (v_room _ _ _ _ H0).
  - rewrite <- (v_part _ _ _ _ H0). cbn [app map fst]. reflexivity.
  - intros t Ht. rewrite HSL in Ht. rewrite (bucket_slots (with_nodes c ns')) by exact HSL. rewrite bucket_cons.
    destruct (v_chain _ _ _ _ H0 t Ht) as (A & B). cbn [c_slots c_nodes with_nodes] in A, B.
    change (slot_of (with_nodes c ns') (si_key e)) with s. destruct (Nat.eqb_spec s t) as [->|Hst].
    + cbn [app hz seg]. split; [eapply nth_lset_same; eauto|]. split; [|exact B]. exists n2. split; [exact Hi'|]. reflexivity.
    + cbn [app]. split; [rewrite nth_lset_other by congruence; exact A|exact B].
  - intros j x [E|Hj].
    + injection E as <- <-. exists n2. split; [exact Hi'|]. constructor; auto.
      change (n_slot n2) with (Z.of_nat s). unfold slot_of. cbn [c_slots with_slots with_nodes]. rewrite HSL. reflexivity.
    + destruct (v_live _ _ _ _ H0 j x Hj) as (m & Hm & Hl). exists m. split; [exact Hm|]. apply (live_slots (with_nodes c ns')); [exact HSL|reflexivity|exact Hl].
  - apply (v_free _ _ _ _ H0).
  - apply (v_zero _ _ _ _ H0).
Qed.

(** ** Unlinking *)
Lemma pred_loop_ok c l : forall a i b fuel, seg n_next (c_nodes c) (l ++ a :: i :: b) (-1) -> NoDup (l ++ a :: i :: b) -> (length l < fuel)%nat ->
  pred_loop fuel c (hz (l ++ [a]) (-1)) (Z.of_nat i) = Ret (Some (Z.of_nat a)).
Proof.
  induction l as [|x l IH]; intros a i b fuel Hs HN Hf; (destruct fuel as [|fuel]; [cbn [length] in Hf; lia|]); cbn [pred_loop app hz].
  - replace (Z.of_nat a <? 0) with false by lia. cbn [app seg hz] in Hs. destruct Hs as ((n & Hn & E) & _). rewrite (derefn_nat c a n Hn). cbn [bind]. rewrite E, Z.eqb_refl. reflexivity.
  - replace (Z.of_nat x <? 0) with false by lia. cbn [app seg] in Hs. destruct Hs as ((n & Hn & E) & Hs). rewrite (derefn_nat c x n Hn). cbn [bind].
    assert (E' : n_next n = hz (l ++ [a]) (-1)) by (rewrite E; destruct l; reflexivity). rewrite E'.
    cbn [app] in HN. apply NoDup_cons_iff in HN. destruct HN as [_ HN].
    assert (Hne : hz (l ++ [a]) (-1) =? Z.of_nat i = false).
    { apply Z.eqb_neq. destruct l as [|y l]; cbn [app hz] in *; intros HE; apply Nat2Z.inj in HE; subst.
      - apply NoDup_cons_iff in HN. destruct HN as [HN _]. apply HN. cbn; auto.
      - apply NoDup_cons_iff in HN. destruct HN as [HN _]. apply HN. apply in_or_app. cbn; auto. }
    rewrite Hne. eapply IH; [exact Hs|exact HN|cbn [length] in Hf; lia].
Qed.
Lemma split_last {A} (l : list A) : l = [] \/ exists l' x, l = l' ++ [x].
Proof. destruct (rev l) as [|x r] eqn:E; [left|right]; rewrite <- (rev_involutive l), E; [reflexivity|]. exists (rev r), x. reflexivity. Qed.
Lemma find_pred_ok c l1 i l2 : seg n_next (c_nodes c) (l1 ++ i :: l2) (-1) -> NoDup (l1 ++ i :: l2) ->
  find_pred c (hz (l1 ++ i :: l2) (-1)) (Z.of_nat i) = Ret (match rev l1 with [] => None | p :: _ => Some (Z.of_nat p) end).
Proof.
  intros Hs HN. unfold find_pred. destruct (split_last l1) as [->|(l & p & ->)].
  - cbn [app hz rev]. rewrite Z.eqb_refl. reflexivity.
  - rewrite rev_app_distr. cbn [rev app]. rewrite <- app_assoc in *. cbn [app] in *.
    assert (Hh : hz (l ++ p :: i :: l2) (-1) = hz (l ++ [p]) (-1)) by (destruct l; reflexivity). rewrite Hh.
    destruct (hz (l ++ [p]) (-1) =? Z.of_nat i) eqn:E.
    + exfalso. apply Z.eqb_eq in E. destruct l as [|y l]; cbn [app hz] in *; apply Nat2Z.inj in E; subst; apply NoDup_cons_iff in HN; destruct HN as [HN _]; apply HN; [cbn; auto|apply in_or_app; cbn; auto].
    + eapply pred_loop_ok; [exact Hs|exact HN|].
      assert (Hb : (length (l ++ p :: i :: l2) <= length (c_nodes c))%nat).
      { apply nodup_lt_length; [exact HN|]. intros x Hx. destruct (seg_in _ _ _ _ x Hs Hx) as (n & Hn). apply nth_error_Some. congruence. }
      rewrite app_length in Hb. cbn [length] in Hb. lia.
Qed.

(** The unlinking in RemoveFromSlot. *)
Definition unlink (c : cache) (i : Z) (n : cnode) (p : option Z) : outcome cache :=
  match p with
  | None => Ret (with_slots c (lset (c_slots c) (Z.to_nat (n_slot n)) (n_next n)))
  | Some q => let! qn := derefn c q in Ret (setn c q (n_set_next qn (n_next n)))
  end.
Lemma unlink_ok c i e n L1 L2 F : inv0 c [] (L1 ++ (i, e) :: L2) F -> nth_error (c_nodes c) i = Some n ->
  let s := slot_of c (si_key e) in
  let b1 := bucket c L1 s in
  exists c', unlink c (Z.of_nat i) n (match rev b1 with [] => None | p :: _ => Some (Z.of_nat p) end) = Ret c' /\
    find_pred c (hz (bucket c (L1 ++ (i, e) :: L2) s) (-1)) (Z.of_nat i) = Ret (match rev b1 with [] => None | p :: _ => Some (Z.of_nat p) end) /\
    inv0 c' [i] (L1 ++ L2) F /\ nth_error (c_nodes c') i = Some n /\
    c_size c' = c_size c /\ length (c_slots c') = length (c_slots c) /\ c_end c' = c_end c /\ c_count c' = c_count c /\ map lay (c_nodes c') = map lay (c_nodes c).
Proof.
  intros H Hn s b1. set (b2 := bucket c L2 s).
  assert (Hb : bucket c (L1 ++ (i, e) :: L2) s = b1 ++ i :: b2).
  { rewrite bucket_app, bucket_cons. fold s. rewrite Nat.eqb_refl. reflexivity. }
  pose proof (slot_of_lt c (si_key e) (v_slots _ _ _ _ H)) as Hs. fold s in Hs.
  destruct (v_chain _ _ _ _ H s Hs) as (Hhead & Hseg). rewrite Hb in Hhead, Hseg |- *.
  pose proof (inv_nodup _ _ _ _ H) as HN. cbn [app] in HN.
  destruct (v_live _ _ _ _ H i e) as (n' & Hn' & Hl); [apply in_or_app; cbn; auto|]. assert (n' = n) by congruence. subst n'.
  assert (HNL : NoDup (map fst (L1 ++ (i, e) :: L2))) by (eapply NoDup_app_remove_r; exact HN).
  assert (HLF : forall j x, In (j, x) (L1 ++ (i, e) :: L2) -> ~ In j (all_members F)).
  { intros j x Hj HF. eapply nodup_app_disj; [exact HN| |exact HF]. apply in_map_iff. exists (j, x). auto. }
  assert (Hni : forall x, ~ In (i, x) (L1 ++ L2)).
  { intros x Hx. rewrite map_app in HNL. cbn [map fst] in HNL. apply NoDup_remove_2 in HNL. apply HNL. rewrite <- map_app. apply in_map_iff. exists (i, x). auto. }
  assert (Hsub : forall j x, In (j, x) (L1 ++ L2) -> In (j, x) (L1 ++ (i, e) :: L2)) by (intros j x; rewrite !in_app_iff; cbn; tauto).
  assert (HNb : forall t, NoDup (bucket c (L1 ++ (i, e) :: L2) t)).
  { intros t. clear -HNL. unfold bucket. induction (L1 ++ (i, e) :: L2) as [|[j x] l IH]; [constructor|]. cbn [filter map fst snd] in *. apply NoDup_cons_iff in HNL. destruct HNL as [A B].
    destruct (Nat.eqb _ t); [|auto]. cbn [map fst]. constructor; [|auto]. intros Hx. apply A. apply in_map_iff in Hx. destruct Hx as ([y z] & E & Hy). apply filter_In in Hy. apply in_map_iff. exists (y, z). tauto. }
  assert (Hother : forall t, t <> s -> bucket c (L1 ++ L2) t = bucket c (L1 ++ (i, e) :: L2) t).
  { intros t Ht. rewrite !bucket_app, bucket_cons. fold s. destruct (Nat.eqb_spec s t); [congruence|reflexivity]. }
  assert (Hsame : bucket c (L1 ++ L2) s = b1 ++ b2) by (apply bucket_app).
  pose proof (HNb s) as HNbs. rewrite Hb in HNbs.
  pose proof (find_pred_ok c b1 i b2 Hseg HNbs) as HP.
  assert (Hnx : n_next n = hz b2 (-1)) by (eapply seg_link; eauto).
  assert (Hpart : Permutation ([i] ++ map fst (L1 ++ L2) ++ all_members F) (seq 0 (length (c_nodes c)))).
  { rewrite <- (v_part _ _ _ _ H). cbn [app]. rewrite !map_app. cbn [map fst]. rewrite <- !app_assoc. cbn [app]. apply Permutation_middle. }
  destruct (split_last b1) as [E1|(b & p & E1)].
  - rewrite E1 in *. cbn [rev unlink]. eexists. split; [reflexivity|]. split; [exact HP|].
    rewrite (lv_slot _ _ _ Hl), Nat2Z.id. fold s.
    assert (HSL : length (lset (c_slots c) s (n_next n)) = length (c_slots c)) by apply lset_length.
    split; [|cbn [c_size c_slots c_end c_count c_nodes with_slots]; auto 10].
    constructor; cbn [c_slots c_mem c_nodes c_size c_free with_slots].
    + rewrite HSL. apply H.
    + apply H.
    + apply H.
    + rewrite HSL. apply H.
    + exact Hpart.
    + intros t Ht. rewrite HSL in Ht. rewrite (bucket_slots c) by exact HSL. destruct (Nat.eq_dec t s) as [->|Hts].
      * rewrite Hsame. cbn [app] in *. split; [rewrite <- Hnx; eapply nth_lset_same; eauto|]. cbn [seg] in Hseg. apply Hseg.
      * rewrite Hother by exact Hts. rewrite nth_lset_other by exact Hts. apply (v_chain _ _ _ _ H t Ht).
    + intros j x Hj. destruct (v_live _ _ _ _ H j x (Hsub j x Hj)) as (m & Hm & Hlm). exists m. split; [exact Hm|]. apply (live_slots c); [exact HSL|reflexivity|exact Hlm].
    + apply H.
    + apply H.
  - rewrite E1 in *. rewrite rev_app_distr in *. cbn [rev app unlink] in *. rewrite <- app_assoc in *. cbn [app] in *.
    destruct (seg_in _ _ _ _ p Hseg) as (pn & Hpn); [apply in_or_app; cbn; auto|].
    rewrite (derefn_nat c p pn Hpn). cbn [bind]. rewrite setn_nat. eexists. split; [reflexivity|]. split; [exact HP|].
    set (pn' := n_set_next pn (n_next n)).
    assert (Hpi : p <> i). { intros ->. apply NoDup_remove_2 in HNbs. apply HNbs. apply in_or_app. cbn; auto. }
    assert (Hlay : map lay (lset (c_nodes c) p pn') = map lay (c_nodes c)) by (eapply map_lset; [exact Hpn|reflexivity]).
    assert (HpL : exists x, In (p, x) (L1 ++ (i, e) :: L2) /\ slot_of c (si_key x) = s).
    { apply bucket_in. rewrite Hb. apply in_or_app. cbn; auto. }
    destruct HpL as (xp & HpL & Hxs).
    split; [|cbn [c_size c_slots c_end c_count c_nodes with_nodes]; split; [rewrite nth_lset_other by congruence; exact Hn|auto 10]].
    constructor; cbn [c_slots c_mem c_nodes c_size c_free with_nodes].
    + apply H.
    + apply H.
    + apply (lay_off c (with_nodes c (lset (c_nodes c) p pn'))); [apply H|exact Hlay].
    + rewrite (lay_start _ _ Hlay), lset_length. apply H.
    + rewrite lset_length. exact Hpart.
    + intros t Ht. rewrite (bucket_slots c) by reflexivity. destruct (Nat.eq_dec t s) as [->|Hts].
      * rewrite Hsame. split; [rewrite Hhead; f_equal; destruct b; reflexivity|].
        change (b ++ p :: b2) with (b ++ [p] ++ b2). rewrite app_assoc, seg_app.
        change (b ++ p :: i :: b2) with (b ++ [p] ++ i :: b2) in Hseg. rewrite app_assoc, seg_app in Hseg. destruct Hseg as (S1 & S2). split.
        -- eapply seg_relast; [exact S1|eapply nth_lset_same; eauto|exact Hnx|]. intros j Hj. rewrite nth_lset_other; [reflexivity|]. intros ->.
           eapply nodup_app_disj; [exact HNbs|exact Hj|cbn; auto].
        -- cbn [seg] in S2. eapply seg_ext; [|apply S2]. intros j Hj. rewrite nth_lset_other; [reflexivity|]. intros ->.
           apply NoDup_app_remove_l in HNbs. apply NoDup_cons_iff in HNbs. apply (proj1 HNbs). cbn; auto.
      * rewrite Hother by exact Hts. destruct (v_chain _ _ _ _ H t Ht) as (A & B). split; [exact A|]. eapply seg_ext; [|exact B]. intros j Hj.
        rewrite nth_lset_other; [reflexivity|]. intros ->. apply bucket_in in Hj. destruct Hj as (y & Hy & Hyt).
        assert (y = xp). { clear -HNL HpL Hy. induction (L1 ++ (i, e) :: L2) as [|[j z] l IH]; [destruct Hy|]. cbn [map fst] in HNL. apply NoDup_cons_iff in HNL. destruct HNL as [A B].
          destruct HpL as [E|HpL], Hy as [E'|Hy]; try congruence; auto.
          - exfalso. apply A. apply in_map_iff. exists (p, y). split; [cbn; congruence|exact Hy].
          - exfalso. apply A. apply in_map_iff. exists (p, xp). split; [cbn; congruence|exact HpL]. }
        congruence.
    + intros j x Hj. pose proof (Hsub j x Hj) as Hj'. destruct (v_live _ _ _ _ H j x Hj') as (m & Hm & Hlm).
      destruct (Nat.eq_dec j p) as [->|Hjp].
      * assert (m = pn) by congruence. subst m. exists pn'. split; [eapply nth_lset_same; eauto|]. destruct Hlm as [C1 C2 C3 C4 C5 C6]. constructor; auto.
      * exists m. rewrite nth_lset_other by exact Hjp. split; [exact Hm|]. destruct Hlm as [C1 C2 C3 C4 C5 C6]; constructor; auto.
    + assert (HF : forall j, In j (all_members F) -> nth_error (lset (c_nodes c) p pn') j = nth_error (c_nodes c) j).
      { intros j Hj. apply nth_lset_other. intros ->. eapply HLF; eauto. }
      destruct (v_free _ _ _ _ H) as (A & B & C). split; [exact A|]. split.
      * eapply seg_ext; [|exact B]. intros j Hj. rewrite HF; [reflexivity|now apply heads_in].
      * intros g Hg. destruct (C g Hg) as (D & k & Hk). split.
        -- eapply seg_ext; [|exact D]. intros j Hj. rewrite HF; [reflexivity|eapply in_members; eauto].
        -- exists k. intros j Hj. rewrite HF by (eapply in_members; eauto). auto.
    + intros j m Hj Hm. rewrite nth_lset_other in Hm; [eapply (v_zero _ _ _ _ H); eauto|]. intros ->. eapply HLF; eauto.
Qed.

(** ** Freeing *)
Lemma group_loop_ok ns0 R : forall Q c fuel len, c_nodes c = ns0 -> finv ns0 (c_free c) (rev Q ++ R) -> (length R < fuel)%nat ->
  (exists R1 g R2, R = R1 ++ g :: R2 /\ glen ns0 g len /\
     group_loop fuel c len (hz (heads R) (-1)) (zhead Q) = Ret (Z.of_nat (fst g), zhead (rev R1 ++ Q))) \/
  ((forall g, In g R -> ~ glen ns0 g len) /\ exists p, group_loop fuel c len (hz (heads R) (-1)) (zhead Q) = Ret (-1, p)).
Proof.
  induction R as [|[h r] R IH]; intros Q c fuel len Hc HF Hf; (destruct fuel as [|fuel]; [cbn [length] in Hf; lia|]); cbn [group_loop].
  - right. split; [intros g []|]. cbn [heads map hz]. replace (-1 <? 0) with true by reflexivity. eauto.
  - cbn [heads map fst hz]. fold (heads R). replace (Z.of_nat h <? 0) with false by lia.
    assert (HinF : In (h, r) (rev Q ++ (h, r) :: R)) by (apply in_or_app; cbn; auto).
    pose proof HF as HF0. destruct HF as (Hfree & Hheads & Hgroups).
    destruct (Hgroups (h, r) HinF) as (Hseg & k & Hk). destruct (seg_in _ _ _ _ h Hseg) as (n & Hn); [cbn; auto|].
    rewrite (derefn_nat c h n) by congruence. cbn [bind]. pose proof (glen_head _ _ _ _ Hk Hn) as Hlen. cbn [fst] in Hlen.
    destruct (Nat.eqb_spec (n_len n) len) as [E|E].
    + left. exists [], (h, r), R. split; [reflexivity|]. split; [rewrite <- E, Hlen; exact Hk|]. reflexivity.
    + assert (Hslot : n_slot n = hz (heads R) (-1)).
      { unfold heads in Hheads. rewrite map_app in Hheads. cbn [map fst] in Hheads. eapply seg_link; eauto. }
      rewrite Hslot. destruct (IH ((h, r) :: Q) c fuel len Hc) as [(R1 & g & R2 & -> & Hg & Eq)|(Hno & p & Eq)].
      * cbn [rev]. rewrite <- app_assoc. exact HF0.
      * cbn [length] in Hf. lia.
      * left. exists ((h, r) :: R1), g, R2. split; [reflexivity|]. split; [exact Hg|]. cbn [zhead fst] in Eq. rewrite Eq. cbn [rev]. rewrite <- app_assoc. reflexivity.
      * right. split; [|exists p; exact Eq]. intros g [<-|Hg]; [|auto]. intros Hg. apply E. apply (glen_head _ _ _ _ Hg Hn).
Qed.

Lemma add_to_2d_ok c i n L F : inv0 c [i] L F -> nth_error (c_nodes c) i = Some n -> n_ttl n = 0 ->
  exists c' F', add_to_2d c (Z.of_nat i) = Ret c' /\ inv0 c' [] L F' /\ c_mem c' = c_mem c /\ c_slots c' = c_slots c /\ c_size c' = c_size c /\
    c_end c' = c_end c /\ c_count c' = c_count c /\ map lay (c_nodes c') = map lay (c_nodes c).
Proof.
  intros H Hn Hz. pose proof (v_free _ _ _ _ H) as HF. pose proof (inv_nodup _ _ _ _ H) as HN. cbn [app] in HN. apply NoDup_cons_iff in HN. destruct HN as [HiN HN].
  assert (HiF : ~ In i (all_members F)) by (intros Hx; apply HiN; apply in_or_app; auto).
  assert (HiL : forall e, ~ In (i, e) L) by (intros e Hx; apply HiN; apply in_or_app; left; apply in_map_iff; exists (i, e); auto).
  pose proof (NoDup_app_remove_l _ _ HN) as HNF.
  assert (HLF : forall j e, In (j, e) L -> ~ In j (all_members F)).
  { intros j e Hj Hx. eapply nodup_app_disj; [exact HN| |exact Hx]. apply in_map_iff. exists (j, e). auto. }
  unfold add_to_2d. rewrite (derefn_nat c i n Hn). cbn [bind].
  assert (Hfuel : (length F < S (length (c_nodes c)))%nat).
  { rewrite <- heads_length. assert (forall j, In j (heads F) -> (j < length (c_nodes c))%nat).
    { intros j Hj. destruct HF as (_ & Hs & _). destruct (seg_in _ _ _ _ j Hs Hj) as (m & Hm). apply nth_error_Some. congruence. }
    pose proof (nodup_lt_length (heads F) (length (c_nodes c)) (heads_nodup _ HNF) H0). lia. }
  pose proof (proj1 HF) as Hfree. 
  (* what suffices *)
  assert (Hfin : forall ns' f' F', map lay ns' = map lay (c_nodes c) -> (forall j, ~ In j (i :: heads F) -> nth_error ns' j = nth_error (c_nodes c) j) ->
            (forall j m, In j (i :: heads F) -> nth_error ns' j = Some m -> n_ttl m = 0) -> Permutation (all_members F') (i :: all_members F) -> finv ns' f' F' ->
            inv0 (with_free (with_nodes c ns') f') [] L F').
  { intros ns' f' F' HL HO HZ HP HF'.
    assert (HLo : forall j e, In (j, e) L -> nth_error ns' j = nth_error (c_nodes c) j).
    { intros j e Hj. apply HO. intros [<-|Hx]; [eapply HiL; eauto|]. eapply HLF; [exact Hj|now apply heads_in]. }
    constructor; cbn [c_slots c_mem c_nodes c_size c_free with_nodes with_free].
    - apply H.
    - apply H.
    - apply (lay_off c (with_nodes c ns')); [apply H|exact HL].
    - rewrite (lay_start _ _ HL), (lay_length _ _ HL). apply H.
    - rewrite (lay_length _ _ HL), <- (v_part _ _ _ _ H). cbn [app]. rewrite HP. symmetry. apply Permutation_middle.
    - intros s Hs. destruct (v_chain _ _ _ _ H s Hs) as (A & B). split; [exact A|]. eapply seg_ext; [|exact B]. intros j Hj.
      apply bucket_in in Hj. destruct Hj as (e & Hj & _). rewrite (HLo j e Hj). reflexivity.
    - intros j e Hj. destruct (v_live _ _ _ _ H j e Hj) as (m & Hm & [C1 C2 C3 C4 C5 C6]). exists m. rewrite (HLo j e Hj). split; [exact Hm|]. constructor; assumption.
    - exact HF'.
    - intros j m Hj Hm. destruct (in_dec Nat.eq_dec j (i :: heads F)) as [Hd|Hd]; [eapply HZ; eauto|].
      rewrite HO in Hm by exact Hd. apply (Permutation_in _ HP) in Hj. destruct Hj as [<-|Hj]; [exfalso; apply Hd; cbn; auto|]. eapply (v_zero _ _ _ _ H); eauto. }
  pose proof (group_loop_ok (c_nodes c) F [] c (S (length (c_nodes c))) (n_len n) eq_refl HF Hfuel) as [(R1 & [h r] & R2 & EF & Hg & Eq)|(Hno & p & Eq)];
    cbn [zhead] in Eq; rewrite <- Hfree in Eq; rewrite Eq; cbn [bind].
  - rewrite app_nil_r. cbn [fst]. assert (Hsub1 : Z.of_nat h =? -1 = false) by lia. rewrite Hsub1.
    pose proof HF as HF0. destruct HF as (_ & Hheads & Hgroups).
    assert (HinF : In (h, r) F) by (rewrite EF; apply in_or_app; cbn; auto).
    destruct (Hgroups (h, r) HinF) as (Hseg & _). destruct (seg_in _ _ _ _ h Hseg) as (hn & Hhn); [cbn; auto|].
    rewrite (derefn_nat c h hn Hhn). cbn [bind]. rewrite setn_nat.
    assert (HH : heads F = heads R1 ++ h :: heads R2) by (rewrite EF; unfold heads; rewrite map_app; reflexivity).
    assert (Hslot : n_slot hn = hz (heads R2) (-1)) by (rewrite HH in Hheads; eapply seg_link; eauto).
    set (F' := R1 ++ (i, h :: r) :: R2).
    assert (HP : Permutation (all_members F') (i :: all_members F)).
    { unfold F'. rewrite EF, !all_members_app. unfold all_members. cbn [flat_map members fst snd app]. symmetry. apply Permutation_middle. }
    assert (HH' : heads F' = heads R1 ++ i :: heads R2) by (unfold F', heads; rewrite map_app; reflexivity).
    pose proof (heads_nodup _ HNF) as HNH. rewrite HH in HNH.
    assert (Hhi : forall j, In j (heads F) -> j <> i) by (intros j Hj ->; apply HiF; now apply heads_in).
    set (n1 := n_set_used (n_set_slot n (n_slot hn)) (n_used hn)).
    set (n2 := n_set_next n1 (Z.of_nat h)).
    (* the final groups, for a node list where i is n2, the predecessor links to i *)
    assert (Hfinv : forall ns' f', map lay ns' = map lay (c_nodes c) -> nth_error ns' i = Some n2 ->
              (forall j, j <> i -> option_map n_next (nth_error ns' j) = option_map n_next (nth_error (c_nodes c) j)) ->
              seg n_slot ns' (heads R1) (Z.of_nat i) -> (forall j, In j (heads R2) -> nth_error ns' j = nth_error (c_nodes c) j) ->
              f' = hz (heads F') (-1) -> finv ns' f' F').
    { intros ns' f' HL Hi Hnx HS1 HS2 ->.
      assert (Hlen : forall j, option_map n_len (nth_error ns' j) = option_map n_len (nth_error (c_nodes c) j)).
      { intros j. assert (E : option_map lay (nth_error ns' j) = option_map lay (nth_error (c_nodes c) j)) by (rewrite <- !nth_error_map; congruence).
        destruct (nth_error ns' j), (nth_error (c_nodes c) j); cbn in *; try discriminate; unfold lay in *; congruence. }
      apply finv_parts; [reflexivity| | |].
      - rewrite HH', seg_app. cbn [hz seg]. split; [exact HS1|]. split; [exists n2; split; [exact Hi|exact Hslot]|].
        rewrite HH, seg_app in Hheads. destruct Hheads as (_ & Hheads). cbn [seg] in Hheads. eapply seg_ext; [|apply Hheads]. intros j Hj. rewrite (HS2 j Hj). reflexivity.
      - intros g Ig. unfold F' in Ig. rewrite in_app_iff in Ig. cbn [In] in Ig.
        assert (Hold : forall g0, In g0 F -> seg n_next ns' (members g0) (-1)).
        { intros g0 I0. destruct (Hgroups g0 I0) as (S0 & _). eapply seg_ext; [|exact S0]. intros j Hj. apply Hnx. intros ->. apply HiF. eapply in_members; eauto. }
        destruct Ig as [Ig|[<-|Ig]]; [apply Hold; rewrite EF; apply in_or_app; auto| |apply Hold; rewrite EF; apply in_or_app; cbn; auto].
        unfold members. cbn [fst snd]. cbn [seg]. split; [exists n2; split; [exact Hi|reflexivity]|]. exact (Hold (h, r) HinF).
      - intros g Ig. unfold F' in Ig. rewrite in_app_iff in Ig. cbn [In] in Ig.
        assert (Hold : forall g0, In g0 F -> exists k, glen ns' g0 k).
        { intros g0 I0. destruct (Hgroups g0 I0) as (_ & k & Hk). exists k. intros j Hj. rewrite Hlen. auto. }
        destruct Ig as [Ig|[<-|Ig]]; [apply Hold; rewrite EF; apply in_or_app; auto| |apply Hold; rewrite EF; apply in_or_app; cbn; auto].
        exists (n_len n). intros j [<-|Hj]; [cbn [fst]; rewrite Hi; reflexivity|]. rewrite Hlen. apply Hg. exact Hj. }
    destruct (split_last R1) as [E1|(R0 & [p pr] & E1)].
    + rewrite E1 in *. cbn [rev zhead bind].
      rewrite (derefn_nat _ i n1) by (cbn [c_nodes with_free with_nodes]; eapply nth_lset_same; eauto). cbn [bind]. rewrite setn_nat. cbn [c_nodes with_free with_nodes]. fold n2.
      set (ns' := lset (lset (c_nodes c) i n1) i n2).
      assert (HO : forall j, j <> i -> nth_error ns' j = nth_error (c_nodes c) j) by (intros j Hj; unfold ns'; rewrite !nth_lset_other by exact Hj; reflexivity).
      assert (Hi : nth_error ns' i = Some n2) by (unfold ns'; eapply nth_lset_same, nth_lset_same; eauto).
      assert (HL : map lay ns' = map lay (c_nodes c)).
      { unfold ns'. etransitivity; [eapply map_lset; [eapply nth_lset_same; eauto|reflexivity]|]. eapply map_lset; [exact Hn|reflexivity]. }
      eexists _, F'. split; [reflexivity|]. split; [|cbn; auto 10].
      change (inv0 (with_free (with_nodes c ns') (Z.of_nat i)) [] L F'). apply Hfin; [exact HL| | |exact HP|].
      * intros j Hj. apply HO. intros ->. apply Hj. cbn; auto.
      * intros j m [<-|Hj] Hm; [rewrite Hi in Hm; injection Hm as <-; exact Hz|]. rewrite HO in Hm by (now apply Hhi). eapply (v_zero _ _ _ _ H); [|exact Hm]. now apply heads_in.
      * apply Hfinv; [exact HL|exact Hi|intros j Hj; rewrite HO by exact Hj; reflexivity|exact I| |rewrite HH'; reflexivity].
        intros j Hj. apply HO. apply Hhi. rewrite HH. cbn; auto.
    + assert (Hrev : zhead (rev R1) = Some (Z.of_nat p)) by (rewrite E1, rev_app_distr; reflexivity). rewrite Hrev.
      assert (HHR : heads R1 = heads R0 ++ [p]) by (rewrite E1; unfold heads; rewrite map_app; reflexivity).
      destruct (seg_in _ _ _ _ p Hheads) as (pn & Hpn); [rewrite HH, HHR; apply in_or_app; left; apply in_or_app; cbn; auto|].
      assert (Hpi : p <> i) by (apply Hhi; rewrite HH, HHR; apply in_or_app; left; apply in_or_app; cbn; auto).
      rewrite (derefn_nat _ p pn) by (cbn [c_nodes with_nodes]; rewrite nth_lset_other by exact Hpi; exact Hpn). cbn [bind]. rewrite setn_nat. cbn [c_nodes with_nodes].
      rewrite (derefn_nat _ i n1) by (cbn [c_nodes with_nodes]; rewrite nth_lset_other by congruence; eapply nth_lset_same; eauto). cbn [bind]. rewrite setn_nat. cbn [c_nodes with_nodes]. fold n2.
      set (pn1 := n_set_slot pn (Z.of_nat i)). set (ns' := lset (lset (lset (c_nodes c) i n1) p pn1) i n2).
      assert (HO : forall j, j <> i -> j <> p -> nth_error ns' j = nth_error (c_nodes c) j) by (intros j Hj Hj'; unfold ns'; rewrite !nth_lset_other by assumption; reflexivity).
      assert (Hi : nth_error ns' i = Some n2) by (unfold ns'; eapply nth_lset_same; rewrite nth_lset_other by congruence; eapply nth_lset_same; eauto).
      assert (Hp : nth_error ns' p = Some pn1) by (unfold ns'; rewrite nth_lset_other by congruence; eapply nth_lset_same; rewrite nth_lset_other by congruence; exact Hpn).
      assert (HL : map lay ns' = map lay (c_nodes c)).
      { unfold ns'. etransitivity; [eapply map_lset; [rewrite nth_lset_other by congruence; eapply nth_lset_same; eauto|reflexivity]|].
        etransitivity; [eapply map_lset; [rewrite nth_lset_other by congruence; exact Hpn|reflexivity]|]. eapply map_lset; [exact Hn|reflexivity]. }
      assert (HpF : In p (heads F)) by (rewrite HH, HHR; apply in_or_app; left; apply in_or_app; cbn; auto).
      eexists _, F'. split; [reflexivity|]. split; [|cbn; auto 10].
      assert (Efree : c_free c = hz (heads F') (-1)) by (rewrite Hfree, HH, HH', HHR, !hz_app; reflexivity).
      replace (with_nodes _ ns') with (with_free (with_nodes c ns') (c_free c)) by (destruct c; reflexivity). apply Hfin; [exact HL| | |exact HP|].
      * intros j Hj. apply HO; intros ->; apply Hj; cbn; auto.
      * intros j m [<-|Hj] Hm; [rewrite Hi in Hm; injection Hm as <-; exact Hz|]. destruct (Nat.eq_dec j p) as [->|Hjp].
        -- rewrite Hp in Hm. injection Hm as <-. apply (v_zero _ _ _ _ H p pn); [now apply heads_in|exact Hpn].
        -- rewrite HO in Hm; [|now apply Hhi|exact Hjp]. eapply (v_zero _ _ _ _ H); [|exact Hm]. now apply heads_in.
      * apply Hfinv; [exact HL|exact Hi| | | |exact Efree].
        -- intros j Hj. destruct (Nat.eq_dec j p) as [->|Hjp]; [rewrite Hp, Hpn; reflexivity|rewrite HO by assumption; reflexivity].
        -- rewrite HHR. rewrite HH, HHR, seg_app in Hheads. cbn [hz] in Hheads. eapply seg_relast; [apply Hheads|exact Hp|reflexivity|]. intros j Hj.
           rewrite HO; [reflexivity| |].
           ++ apply Hhi. rewrite HH, HHR. apply in_or_app; left; apply in_or_app; auto.
           ++ intros ->. rewrite HHR, <- app_assoc in HNH. eapply nodup_app_disj; [exact HNH|exact Hj|cbn; auto].
        -- intros j Hj. apply HO; [apply Hhi; rewrite HH; apply in_or_app; cbn; auto|]. intros ->. rewrite HHR in HNH. eapply nodup_app_disj; [exact HNH| |right; exact Hj]. apply in_or_app; cbn; auto.
  - assert (Hm1 : (-1 =? -1) = true) by reflexivity. rewrite Hm1. cbn [bind]. rewrite setn_nat.
    set (n1 := n_set_used (n_set_slot n (c_free c)) 0).
    rewrite (derefn_nat _ i n1) by (cbn [c_nodes with_free with_nodes]; eapply nth_lset_same; eauto). cbn [bind]. rewrite setn_nat. cbn [c_nodes with_free with_nodes].
    set (n2 := n_set_next n1 (-1)). set (ns' := lset (lset (c_nodes c) i n1) i n2).
    assert (HO : forall j, j <> i -> nth_error ns' j = nth_error (c_nodes c) j) by (intros j Hj; unfold ns'; rewrite !nth_lset_other by exact Hj; reflexivity).
    assert (Hi : nth_error ns' i = Some n2) by (unfold ns'; eapply nth_lset_same, nth_lset_same; eauto).
    assert (HL : map lay ns' = map lay (c_nodes c)).
    { unfold ns'. etransitivity; [eapply map_lset; [eapply nth_lset_same; eauto|reflexivity]|]. eapply map_lset; [exact Hn|reflexivity]. }
    eexists _, ((i, []) :: F). split; [reflexivity|]. split; [|cbn; auto 10].
    change (inv0 (with_free (with_nodes c ns') (Z.of_nat i)) [] L ((i, []) :: F)). apply Hfin; [exact HL| | |reflexivity|].
    + intros j Hj. apply HO. intros ->. apply Hj. cbn; auto.
    + intros j m [<-|Hj] Hm; [rewrite Hi in Hm; injection Hm as <-; exact Hz|]. assert (j <> i) by (intros ->; apply HiF; now apply heads_in).
      rewrite HO in Hm by assumption. eapply (v_zero _ _ _ _ H); [|exact Hm]. now apply heads_in.
    + destruct HF as (_ & Hheads & Hgroups).
      assert (Hmem : forall j, In j (all_members F) -> nth_error ns' j = nth_error (c_nodes c) j) by (intros j Hj; apply HO; intros ->; tauto).
      apply finv_parts; [reflexivity| | |].
      * cbn [heads map fst seg]. split; [exists n2; split; [exact Hi|exact Hfree]|]. eapply seg_ext; [|exact Hheads]. intros j Hj. rewrite Hmem; [reflexivity|now apply heads_in].
      * intros g [<-|Ig]; [cbn; split; [exists n2; auto|exact I]|]. destruct (Hgroups g Ig) as (S0 & _). eapply seg_ext; [|exact S0]. intros j Hj. rewrite Hmem; [reflexivity|eapply in_members; eauto].
      * intros g [<-|Ig]; [exists (n_len n); intros j [<-|[]]; cbn [fst]; rewrite Hi; reflexivity|]. destruct (Hgroups g Ig) as (_ & k & Hk). exists k. intros j Hj. rewrite Hmem; [auto|eapply in_members; eauto].
Qed.

(** Changing the lifetime of a stored item. *)
Lemma bucket_key c L1 L2 i e e' s : si_key e' = si_key e -> bucket c (L1 ++ (i, e') :: L2) s = bucket c (L1 ++ (i, e) :: L2) s.
Proof. intros E. rewrite !bucket_app, !bucket_cons, E. reflexivity. Qed.
Lemma live_upd c X i n e t tm L1 L2 F : inv0 c X (L1 ++ (i, e) :: L2) F -> nth_error (c_nodes c) i = Some n ->
  inv0 (setn c (Z.of_nat i) (n_set_time (n_set_ttl n t) tm)) X (L1 ++ (i, mk_si (si_bytes e) t tm) :: L2) F.
Proof.
  intros H Hn. rewrite setn_nat. set (n' := n_set_time (n_set_ttl n t) tm). set (e' := mk_si (si_bytes e) t tm).
  assert (HL : map lay (lset (c_nodes c) i n') = map lay (c_nodes c)) by (eapply map_lset; [exact Hn|reflexivity]).
  assert (Hi : nth_error (lset (c_nodes c) i n') i = Some n') by (eapply nth_lset_same; eauto).
  assert (HO : forall j, j <> i -> nth_error (lset (c_nodes c) i n') j = nth_error (c_nodes c) j) by (intros; apply nth_lset_other; assumption).
  assert (Hnx : forall j, option_map n_next (nth_error (lset (c_nodes c) i n') j) = option_map n_next (nth_error (c_nodes c) j)).
  { intros j. destruct (Nat.eq_dec j i) as [->|Hj]; [rewrite Hi, Hn; reflexivity|rewrite HO by exact Hj; reflexivity]. }
  assert (Hfst : map fst (L1 ++ (i, e') :: L2) = map fst (L1 ++ (i, e) :: L2)) by (rewrite !map_app; reflexivity).
  pose proof (inv_nodup _ _ _ _ H) as HN. apply NoDup_app_iff in HN. destruct HN as (_ & HN & _).
  assert (HiF : ~ In i (all_members F)).
  { intros Hx. eapply nodup_app_disj; [exact HN| |exact Hx]. rewrite map_app. apply in_or_app. cbn; auto. }
  assert (Hio : forall f, In (i, f) (L1 ++ L2) -> False).
  { intros f Hf. apply NoDup_app_iff in HN. destruct HN as (HN & _). rewrite map_app in HN. cbn [map fst] in HN. apply NoDup_remove_2 in HN. apply HN.
    rewrite <- map_app. apply in_map_iff. exists (i, f). auto. }
  constructor; cbn [c_slots c_mem c_nodes c_size c_free with_nodes].
  - apply H.
  - apply H.
  - apply (lay_off c (with_nodes c (lset (c_nodes c) i n'))); [apply H|exact HL].
  - rewrite (lay_start _ _ HL), (lay_length _ _ HL). apply H.
  - rewrite (lay_length _ _ HL), Hfst. apply H.
  - intros s Hs. destruct (v_chain _ _ _ _ H s Hs) as (A & B). change (bucket (with_nodes c (lset (c_nodes c) i n')) ?L s) with (bucket c L s).
    rewrite (bucket_key c L1 L2 i e e' s eq_refl). split; [exact A|]. eapply seg_ext; [|exact B]. intros j _. apply Hnx.
  - intros j f Hj. rewrite in_app_iff in Hj. cbn [In] in Hj.
    assert (Hcase : (j, f) = (i, e') \/ In (j, f) (L1 ++ L2)) by (rewrite in_app_iff; intuition).
    destruct Hcase as [E|Hold].
    + injection E as -> ->. exists n'. split; [exact Hi|]. destruct (v_live _ _ _ _ H i e) as (m & Hm & [C1 C2 C3 C4 C5 C6]); [apply in_or_app; cbn; auto|].
      assert (m = n) by congruence. subst m. constructor; cbn; assumption || reflexivity.
    + assert (j <> i) by (intros ->; eauto). destruct (v_live _ _ _ _ H j f) as (m & Hm & [C1 C2 C3 C4 C5 C6]).
      { rewrite in_app_iff in Hold |- *. cbn [In]. tauto. }
      exists m. rewrite HO by assumption. split; [exact Hm|]. constructor; assumption.
  - pose proof (v_free _ _ _ _ H) as (Ha & Hb & Hc). apply finv_parts.
    + exact Ha.
    + eapply seg_ext; [|exact Hb]. intros j Hj. rewrite HO; [reflexivity|]. intros ->. apply HiF. now apply heads_in.
    + intros g Ig. destruct (Hc g Ig) as (S0 & _). eapply seg_ext; [|exact S0]. intros j _. apply Hnx.
    + intros g Ig. destruct (Hc g Ig) as (_ & k & Hk). exists k. intros j Hj. rewrite HO; [auto|]. intros ->. apply HiF. eapply in_members; eauto.
  - intros j m Hj Hm. rewrite HO in Hm; [eapply (v_zero _ _ _ _ H); eauto|]. intros ->. tauto.
Qed.

(** The last node goes away. *)
Lemma drop_last_ok c i n L F : inv0 c [i] L F -> nth_error (c_nodes c) i = Some n -> Z.of_nat i = Z.of_nat (length (c_nodes c)) - 1 ->
  inv0 (with_nodes c (removelast (c_nodes c))) [] L F.
Proof.
  intros H Hn Hi.
  destruct (split_last (c_nodes c)) as [E|(ns & x & E)]; [rewrite E in Hn; destruct i; discriminate|].
  rewrite E in *. rewrite removelast_last. rewrite app_length in Hi. cbn [length] in Hi. assert (i = length ns) by lia. subst i.
  pose proof (inv_nodup _ _ _ _ H) as HN. cbn [app] in HN. apply NoDup_cons_iff in HN. destruct HN as [HiN HN].
  assert (Hsame : forall j, j <> length ns -> nth_error ns j = nth_error (c_nodes c) j).
  { intros j Hj. rewrite E. destruct (Nat.lt_ge_cases j (length ns)); [rewrite nth_error_app1 by assumption; reflexivity|].
    rewrite nth_error_app2 by assumption. destruct (j - length ns)%nat eqn:Ed; [lia|]. cbn. rewrite (proj2 (nth_error_None ns j)) by lia. destruct n0; reflexivity. }
  assert (HsL : forall j e, In (j, e) L -> j <> length ns).
  { intros j e Hj ->. apply HiN. apply in_or_app. left. apply in_map_iff. exists (length ns, e). auto. }
  assert (HsF : forall j, In j (all_members F) -> j <> length ns) by (intros j Hj ->; apply HiN; apply in_or_app; auto).
  constructor; cbn [c_slots c_mem c_nodes c_size c_free with_nodes].
  - apply H.
  - apply H.
  - intros j m Hm. assert (Hj : (j < length ns)%nat) by (apply nth_error_Some; congruence).
    rewrite (v_off _ _ _ _ H j m); [|rewrite <- Hsame by lia; exact Hm]. rewrite E, firstn_app. replace (j - length ns)%nat with 0%nat by lia. cbn [firstn]. rewrite app_nil_r. reflexivity.
  - pose proof (v_room _ _ _ _ H) as Hr. rewrite E in Hr. rewrite start_app, app_length in Hr. cbn [length] in Hr. lia.
  - pose proof (v_part _ _ _ _ H) as Hp. rewrite E, app_length in Hp. cbn [length app] in Hp |- *. rewrite Nat.add_1_r, seq_S in Hp. cbn [Nat.add] in Hp.
    rewrite <- Permutation_cons_append in Hp. apply Permutation_cons_inv in Hp. exact Hp.
  - intros s Hs. destruct (v_chain _ _ _ _ H s Hs) as (A & B). split; [exact A|]. eapply seg_ext; [|exact B]. intros j Hj.
    apply bucket_in in Hj. destruct Hj as (e & Hj & _). rewrite (Hsame j (HsL j e Hj)). reflexivity.
  - intros j e Hj. destruct (v_live _ _ _ _ H j e Hj) as (m & Hm & [C1 C2 C3 C4 C5 C6]). exists m. rewrite (Hsame j (HsL j e Hj)). split; [exact Hm|]. constructor; assumption.
  - pose proof (v_free _ _ _ _ H) as (Ha & Hb & Hc). apply finv_parts.
    + exact Ha.
    + eapply seg_ext; [|exact Hb]. intros j Hj. rewrite Hsame; [reflexivity|]. apply HsF. now apply heads_in.
    + intros g Ig. destruct (Hc g Ig) as (S0 & _). eapply seg_ext; [|exact S0]. intros j Hj. rewrite Hsame; [reflexivity|]. apply HsF. eapply in_members; eauto.
    + intros g Ig. destruct (Hc g Ig) as (_ & k & Hk). exists k. intros j Hj. rewrite Hsame; [auto|]. apply HsF. eapply in_members; eauto.
  - intros j m Hj Hm. rewrite (Hsame j (HsF j Hj)) in Hm. eapply (v_zero _ _ _ _ H); eauto.
Qed.

Lemma remove_ok c i e n L1 L2 F : inv0 c [] (L1 ++ (i, e) :: L2) F -> nth_error (c_nodes c) i = Some n -> n_ttl n = 0 ->
  exists c' F', remove_from_slot c (Z.of_nat i) = Ret c' /\ inv0 c' [] (L1 ++ L2) F' /\ c_mem c' = c_mem c /\
    c_size c' = c_size c /\ length (c_slots c') = length (c_slots c) /\ c_end c' = c_end c /\ c_count c' = c_count c /\
    map lay (c_nodes c') = map lay (if Nat.eqb (S i) (length (c_nodes c)) then removelast (c_nodes c) else c_nodes c).
Proof.
  intros H Hn Hz. unfold remove_from_slot. rewrite (derefn_nat c i n Hn). cbn [bind].
  destruct (v_live _ _ _ _ H i e) as (m & Hm & [C1 C2 C3 C4 C5 C6]); [apply in_or_app; cbn; auto|]. assert (m = n) by congruence. subst m.
  rewrite C1. replace (Z.of_nat (slot_of c (si_key e)) <? 0) with false by lia. rewrite Nat2Z.id.
  destruct (v_chain _ _ _ _ H _ (slot_of_lt c (si_key e) (v_slots _ _ _ _ H))) as (Hhead & _). rewrite Hhead.
  destruct (unlink_ok c i e n L1 L2 F H Hn) as (c1 & E1 & E2 & Hi & Hn1 & A1 & A2 & A3 & A4 & A5).
  rewrite E2. cbn [bind]. unfold unlink in E1. rewrite C1, Nat2Z.id in E1. rewrite E1. cbn [bind].
  assert (Hmem : c_mem c1 = c_mem c).
  { destruct (match rev _ with [] => _ | _ => _ end) as [q|]; [|injection E1 as <-; reflexivity]. unfold derefn in E1. destruct (getn c q); [|discriminate]. cbn in E1. injection E1 as <-. reflexivity. }
  assert (Hlen : length (c_nodes c1) = length (c_nodes c)) by (erewrite <- (map_length lay), A5, map_length; reflexivity).
  destruct (Z.eqb_spec (Z.of_nat i) (Z.of_nat (length (c_nodes c1)) - 1)) as [E|E]; cbn [negb].
  - eexists _, F. split; [reflexivity|]. split; [eapply drop_last_ok; eauto|].
    cbn [c_mem c_size c_slots c_end c_count c_nodes with_nodes]. repeat (split; [assumption|]).
    replace (Nat.eqb (S i) (length (c_nodes c))) with true by (symmetry; apply Nat.eqb_eq; lia).
    destruct (split_last (c_nodes c1)) as [Ex|(l1 & x1 & Ex)]; [rewrite Ex in Hn1; destruct i; discriminate|].
    destruct (split_last (c_nodes c)) as [Ey|(l2 & x2 & Ey)]; [rewrite Ey in Hn; destruct i; discriminate|].
    rewrite Ex, Ey in *. rewrite !removelast_last. rewrite !map_app in A5. cbn [map] in A5. apply app_inj_tail in A5. tauto.
  - destruct (add_to_2d_ok c1 i n (L1 ++ L2) F Hi Hn1 Hz) as (c' & F' & E3 & Hi' & B1 & B2 & B3 & B4 & B5 & B6).
    exists c', F'. split; [exact E3|]. split; [exact Hi'|]. replace (Nat.eqb (S i) (length (c_nodes c))) with false by (symmetry; apply Nat.eqb_neq; lia).
    rewrite B1, B2, B3, B4, B5, B6. auto 10.
Qed.
