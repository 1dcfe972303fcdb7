(** Lemmas about the cache's storage. *)
From Verif Require Import Base BaseFacts ListFacts List2Facts Hash_Model Sht_Model Sht_Proofs Cht_Model.
From Coq Require Import Permutation.
Require Import ZifyBool ZifyNat.

(** * Chains *)
(** The link to the first of [l], to [z] if there is none. *)
Definition hz (l : list nat) (z : Z) : Z := match l with [] => z | i :: _ => Z.of_nat i end.
(** The nodes [l] are chained by the field [f], the last one's link is [z]. *)
Fixpoint seg (f : cnode -> Z) (ns : list cnode) (l : list nat) (z : Z) : Prop :=
  match l with
  | [] => True
  | i :: r => (exists n, nth_error ns i = Some n /\ f n = hz r z) /\ seg f ns r z
  end.

Lemma hz_app a b z : hz (a ++ b) z = hz a (hz b z).
Proof. destruct a; reflexivity. Qed.
Lemma seg_app f ns a b z : seg f ns (a ++ b) z <-> seg f ns a (hz b z) /\ seg f ns b z.
Proof.
  induction a as [|i a IH]; cbn [app seg]; [tauto|]. rewrite IH, hz_app. tauto.
Qed.
Lemma seg_ext f ns ns' l z : (forall i, In i l -> option_map f (nth_error ns' i) = option_map f (nth_error ns i)) ->
  seg f ns l z -> seg f ns' l z.
Proof.
  induction l as [|i l IH]; cbn [seg]; [auto|]. intros H ((n & Hn & Hf) & Hs). split.
  - pose proof (H i (or_introl eq_refl)) as E. rewrite Hn in E. destruct (nth_error ns' i) as [n'|]; [|discriminate].
    exists n'. split; [reflexivity|]. cbn in E. congruence.
  - apply IH; [intros; apply H; cbn; auto|exact Hs].
Qed.
Lemma seg_in f ns l z i : seg f ns l z -> In i l -> exists n, nth_error ns i = Some n.
Proof.
  induction l as [|j l IH]; cbn [seg In]; [tauto|]. intros ((n & Hn & _) & Hs) [<-|Hi]; eauto.
Qed.
Lemma seg_link f ns a i b z n : seg f ns (a ++ i :: b) z -> nth_error ns i = Some n -> f n = hz b z.
Proof. rewrite seg_app. cbn [seg]. intros (_ & (n' & Hn & Hf) & _) H. congruence. Qed.

(** * Accesses *)
Lemma getn_nat c i : getn c (Z.of_nat i) = nth_error (c_nodes c) i.
Proof. unfold getn. rewrite Nat2Z.id. replace (Z.of_nat i <? 0) with false by lia. reflexivity. Qed.
Lemma derefn_nat c i n : nth_error (c_nodes c) i = Some n -> derefn c (Z.of_nat i) = Ret n.
Proof. intros H. unfold derefn. rewrite getn_nat, H. reflexivity. Qed.
Lemma setn_nat c i n : setn c (Z.of_nat i) n = with_nodes c (lset (c_nodes c) i n).
Proof. unfold setn. rewrite Nat2Z.id. reflexivity. Qed.
Lemma with_nodes_nodes c a b : with_nodes (with_nodes c a) b = with_nodes c b. Proof. reflexivity. Qed.
Lemma with_nodes_same c : with_nodes c (c_nodes c) = c. Proof. destruct c; reflexivity. Qed.
Lemma nth_lset_same {A} (l : list A) i x y : nth_error l i = Some y -> nth_error (lset l i x) i = Some x.
Proof.
  intros H. rewrite lset_nth, Nat.eqb_refl. assert (i < length l)%nat by (apply nth_error_Some; congruence).
  destruct (Nat.ltb_spec i (length l)); [reflexivity|lia].
Qed.
Lemma nth_lset_other {A} (l : list A) i x j : j <> i -> nth_error (lset l i x) j = nth_error l j.
Proof. intros H. rewrite lset_nth. destruct (Nat.eqb_spec i j); [congruence|reflexivity]. Qed.
Lemma map_lset {A B} (f : A -> B) (l : list A) i x y : nth_error l i = Some y -> f x = f y -> map f (lset l i x) = map f l.
Proof.
  revert i. induction l as [|z l IH]; intros [|i] H E; try discriminate; cbn in *; [congruence|]. f_equal. eauto.
Qed.

(** * Free chunks *)
Definition group : Type := nat * list nat.
Definition members (g : group) : list nat := fst g :: snd g.
Definition all_members (F : list group) : list nat := flat_map members F.
Definition heads (F : list group) : list nat := map fst F.
Definition glen (ns : list cnode) (g : group) (k : nat) : Prop := forall i, In i (members g) -> option_map n_len (nth_error ns i) = Some k.
(** [F] lists the free nodes, in groups of one chunk size each, as the code has linked them. *)
Definition finv (ns : list cnode) (free : Z) (F : list group) : Prop :=
  free = hz (heads F) (-1) /\ seg n_slot ns (heads F) (-1) /\
  forall g, In g F -> seg n_next ns (members g) (-1) /\ exists k, glen ns g k.

Lemma all_members_app F G : all_members (F ++ G) = all_members F ++ all_members G.
Proof. unfold all_members. apply flat_map_app. Qed.
Lemma in_members F g i : In g F -> In i (members g) -> In i (all_members F).
Proof. intros H H1. unfold all_members. apply in_flat_map. eauto. Qed.
Lemma heads_in F i : In i (heads F) -> In i (all_members F).
Proof. unfold heads. rewrite in_map_iff. intros (g & <- & Hg). apply (in_members F g); [exact Hg|]. left; reflexivity. Qed.
Lemma NoDup_app_iff {A} (a b : list A) : NoDup (a ++ b) <-> NoDup a /\ NoDup b /\ (forall x, In x a -> In x b -> False).
Proof.
  split.
  - intros H. split; [eapply NoDup_app_remove_r; eauto|]. split; [eapply NoDup_app_remove_l; eauto|]. intros x. eapply nodup_app_disj; eauto.
  - intros (Ha & Hb & H). apply NoDup_app_intro; auto.
Qed.

(** What no operation on the free list changes. *)
Definition core (n : cnode) : nat * nat * Z := (n_off n, n_len n, n_ttl n).
Definition sim (S : list nat) (ns ns' : list cnode) : Prop :=
  map core ns' = map core ns /\ forall i, ~ In i S -> nth_error ns' i = nth_error ns i.

Lemma core_nth ns ns' i : map core ns' = map core ns -> option_map core (nth_error ns' i) = option_map core (nth_error ns i).
Proof. intros H. rewrite <- !nth_error_map. congruence. Qed.
Lemma core_len ns ns' i : map core ns' = map core ns -> option_map n_len (nth_error ns' i) = option_map n_len (nth_error ns i).
Proof.
  intros H. apply (core_nth ns ns' i) in H. destruct (nth_error ns' i), (nth_error ns i); cbn in *; try discriminate; auto.
  unfold core in H. congruence.
Qed.
Lemma sim_refl S ns : sim S ns ns. Proof. split; auto. Qed.
Lemma sim_trans S ns ns1 ns2 : sim S ns ns1 -> sim S ns1 ns2 -> sim S ns ns2.
Proof. intros (A & B) (C & D). split; [congruence|]. intros i Hi. rewrite D, B by exact Hi. reflexivity. Qed.
Lemma sim_lset (S : list nat) ns i n n' : In i S -> nth_error ns i = Some n -> core n' = core n -> sim S ns (lset ns i n').
Proof.
  intros Hi Hn E. split; [eapply map_lset; eauto|]. intros j Hj. apply nth_lset_other. congruence.
Qed.
Lemma glen_sim S ns ns' g k : sim S ns ns' -> glen ns g k -> glen ns' g k.
Proof. intros (H & _) G i Hi. rewrite (core_len ns ns' i H). auto. Qed.

Lemma finv_ext ns ns' free F : map core ns' = map core ns ->
  (forall i, In i (all_members F) -> option_map n_slot (nth_error ns' i) = option_map n_slot (nth_error ns i)) ->
  (forall i, In i (all_members F) -> option_map n_next (nth_error ns' i) = option_map n_next (nth_error ns i)) ->
  finv ns free F -> finv ns' free F.
Proof.
  intros HC HS HN (Hf & Hh & Hg). split; [exact Hf|]. split.
  - eapply seg_ext; [|exact Hh]. intros i Hi. apply HS. now apply heads_in.
  - intros g Ig. destruct (Hg g Ig) as (Hs & k & Hk). split.
    + eapply seg_ext; [|exact Hs]. intros i Hi. apply HN. eapply in_members; eauto.
    + exists k. intros i Hi. rewrite (core_len ns ns' i HC). auto.
Qed.

(** Relinking: the heads before, the groups. *)
Lemma finv_parts ns free F : free = hz (heads F) (-1) -> seg n_slot ns (heads F) (-1) ->
  (forall g, In g F -> seg n_next ns (members g) (-1)) -> (forall g, In g F -> exists k, glen ns g k) -> finv ns free F.
Proof. intros A B C D. split; [exact A|]. split; [exact B|]. intros g Hg. split; auto. Qed.

Lemma seg_relast f ns ns' a p z z' n' : seg f ns (a ++ [p]) z -> nth_error ns' p = Some n' -> f n' = z' ->
  (forall i, In i a -> option_map f (nth_error ns' i) = option_map f (nth_error ns i)) -> seg f ns' (a ++ [p]) z'.
Proof.
  rewrite !seg_app. cbn [hz seg]. intros (Ha & _) Hp Hf He. split; [eapply seg_ext; eauto|]. split; [|exact I]. eauto.
Qed.

Lemma finv_regroup ns ns' free free' F F' : finv ns free F -> map core ns' = map core ns ->
  (forall g', In g' F' -> exists g x, In g F /\ members g = x ++ members g') ->
  (forall i, In i (all_members F') -> option_map n_next (nth_error ns' i) = option_map n_next (nth_error ns i)) ->
  free' = hz (heads F') (-1) -> seg n_slot ns' (heads F') (-1) -> finv ns' free' F'.
Proof.
  intros (_ & _ & Hg) HC HS HN Hf Hh. apply finv_parts; auto.
  - intros g' Ig'. destruct (HS g' Ig') as (g & x & Ig & E). destruct (Hg g Ig) as (Hs & _). rewrite E, seg_app in Hs.
    eapply seg_ext; [|apply Hs]. intros i Hi. apply HN. eapply in_members; eauto.
  - intros g' Ig'. destruct (HS g' Ig') as (g & x & Ig & E). destruct (Hg g Ig) as (_ & k & Hk). exists k.
    intros i Hi. rewrite (core_len ns ns' i HC). apply Hk. rewrite E. apply in_or_app. auto.
Qed.

Definition zhead (Q : list group) : option Z := match Q with [] => None | g :: _ => Some (Z.of_nat (fst g)) end.

Definition popped (c : cache) (chunk : nat) (F : list group) (res : option Z * bool * cache) : Prop :=
  exists ns' f' h F' n, res = (Some (Z.of_nat h), false, with_free (with_nodes c ns') f') /\
    sim (all_members F) (c_nodes c) ns' /\ Permutation (all_members F) (h :: all_members F') /\ finv ns' f' F' /\
    nth_error ns' h = Some n /\ n_len n = chunk /\ n_next n = -1 /\ n_used n = 0.

Lemma sim_core S ns ns' : sim S ns ns' -> map core ns' = map core ns. Proof. intros [H _]. exact H. Qed.

Lemma heads_nodup F : NoDup (all_members F) -> NoDup (heads F).
Proof.
  induction F as [|g G IH]; cbn [heads map]; [constructor|]. intros H.
  unfold all_members in H. cbn [flat_map members app] in H. apply NoDup_cons_iff in H. destruct H as [A B]. constructor.
  - intros Hi. apply A. apply in_or_app. right. now apply heads_in.
  - apply IH. eapply NoDup_app_remove_l; eauto.
Qed.

(** The groups before [h], in reverse, the group of [h], the groups after it. *)
Lemma pop_ok c chunk Q h r R now : let F := rev Q ++ (h, r) :: R in
  finv (c_nodes c) (c_free c) F -> NoDup (all_members F) -> glen (c_nodes c) (h, r) chunk ->
  forall cur, nth_error (c_nodes c) h = Some cur ->
  exists res,
    (let cur1 := n_set_used (n_set_time cur now) (n_used cur + 1) in
     let c2 := setn c (Z.of_nat h) cur1 in
     let! c3 :=
          if 0 <=? n_next cur1 then
            let heir := n_next cur1 in
            let! h := derefn c2 heir in
            let h1 := n_set_used (n_set_time (n_set_slot h (n_slot cur1)) (n_time cur1)) (n_used cur1) in
            let c4 := setn c2 heir h1 in
            match zhead Q with
            | None => Ret (with_free c4 heir)
            | Some p =>
              let! ph := derefn c4 p in
              if n_used h1 - n_used ph <? USED_GRADIENT then Ret (setn c4 p (n_set_slot ph heir))
              else
                let c5 := setn c4 p (n_set_slot ph (n_slot h1)) in
                let! h2 := derefn c5 heir in
                let c6 := setn c5 heir (n_set_slot h2 p) in
                match zhead (tl Q) with
                | None => Ret (with_free c6 heir)
                | Some g => let! gh := derefn c6 g in Ret (setn c6 g (n_set_slot gh heir))
                end
            end
          else
            match zhead Q with
            | None => Ret (with_free c2 (n_slot cur1))
            | Some p => let! ph := derefn c2 p in Ret (setn c2 p (n_set_slot ph (n_slot cur1)))
            end in
        let! cur2 := derefn c3 (Z.of_nat h) in
        Ret (Some (Z.of_nat h), false, setn c3 (Z.of_nat h) (n_set_next (n_set_used cur2 0) (-1)))) = Ret res /\
    popped c chunk F res.
Proof.
  intros F HF HN HG cur Hcur. destruct HF as (Hfree & Hheads & Hgroups) eqn:EHF. clear EHF.
  pose proof HF as HF0.
  assert (Hcl : n_len cur = chunk).
  { specialize (HG h (or_introl eq_refl)). rewrite Hcur in HG. cbn in HG. congruence. }
  assert (Hslot : n_slot cur = hz (heads R) (-1)).
  { unfold F, heads in Hheads. rewrite map_app in Hheads. cbn [map fst] in Hheads. eapply seg_link; eauto. }
  assert (Hnext : n_next cur = hz r (-1)).
  { destruct (Hgroups (h, r)) as (Hs & _); [unfold F; apply in_or_app; cbn; auto|].
    unfold members in Hs. cbn [fst snd seg] in Hs. destruct Hs as ((n & Hn & E) & _). congruence. }
  assert (HinF : forall g, In g Q \/ g = (h, r) \/ In g R <-> In g F).
  { intros g. unfold F. rewrite in_app_iff, <- in_rev. cbn. intuition congruence. }
  assert (Hsub : forall g, In g Q \/ g = (h, r) \/ In g R -> forall i, In i (members g) -> In i (all_members F)).
  { intros g Hg i Hi. eapply in_members; [apply HinF; exact Hg|exact Hi]. }
  destruct r as [|j r].
  - (* the group ends with h *)
    set (F' := rev Q ++ R).
    assert (HP : Permutation (all_members F) (h :: all_members F')).
    { unfold F, F'. rewrite !all_members_app. cbn [all_members flat_map members fst snd app]. symmetry. apply Permutation_middle. }
    assert (HF'g : forall g', In g' F' -> exists g x, In g F /\ members g = x ++ members g').
    { intros g' Hg'. exists g', []. split; [|reflexivity]. apply HinF. unfold F' in Hg'. rewrite in_app_iff, <- in_rev in Hg'. tauto. }
    assert (HN' : ~ In h (all_members F') /\ NoDup (all_members F')).
    { eapply Permutation_NoDup in HP; [|exact HN]. now apply NoDup_cons_iff. }
    cbv zeta. set (cur1 := n_set_used (n_set_time cur now) (n_used cur + 1)).
    change (n_next cur1) with (n_next cur). change (n_slot cur1) with (n_slot cur). rewrite Hnext. cbn [hz]. replace (0 <=? -1) with false by reflexivity.
    destruct Q as [|[p pr] Q']; cbn [zhead tl fst].
    + cbn [bind]. rewrite setn_nat. cbn [c_nodes with_nodes with_free].
      rewrite (derefn_nat _ _ cur1) by (cbn [c_nodes with_free with_nodes]; eapply nth_lset_same; eauto).
      cbn [bind]. eexists. split; [reflexivity|]. rewrite setn_nat. cbn [c_nodes with_nodes with_free].
      set (cur3 := n_set_next _ _). set (ns' := lset (lset (c_nodes c) h cur1) h cur3).
      assert (Hsim : sim (all_members F) (c_nodes c) ns').
      { unfold ns'. apply (sim_trans _ _ (lset (c_nodes c) h cur1)).
        - eapply sim_lset; [apply (Hsub (h, [])); cbn; auto|exact Hcur|reflexivity].
        - eapply sim_lset; [apply (Hsub (h, [])); cbn; auto|eapply nth_lset_same; eauto|reflexivity]. }
      assert (Hoth : forall i, i <> h -> nth_error ns' i = nth_error (c_nodes c) i).
      { intros i Hi. unfold ns'. rewrite !nth_lset_other by exact Hi. reflexivity. }
      exists ns', (n_slot cur), h, F', cur3. split; [destruct c; reflexivity|]. split; [exact Hsim|]. split; [exact HP|].
      split; [|split; [unfold ns'; eapply nth_lset_same, nth_lset_same; eauto|split; [exact Hcl|split; reflexivity]]].
      eapply finv_regroup; [exact HF0|exact (sim_core _ _ _ Hsim)|exact HF'g| | |].
      * intros i Hi. rewrite Hoth; [reflexivity|]. intros ->. tauto.
      * rewrite Hslot. reflexivity.
      * unfold F in Hheads. cbn [rev app heads map seg] in Hheads. unfold F'. cbn [rev app].
        eapply seg_ext; [|apply Hheads]. intros i Hi. rewrite Hoth; [reflexivity|]. intros ->. apply (proj1 HN'). unfold F'. cbn [rev app]. now apply heads_in.
    + destruct (seg_in _ _ _ _ p Hheads) as (pn & Hpn).
      { unfold F, heads. rewrite map_app. apply in_or_app. left. apply in_map_iff. exists (p, pr). split; [reflexivity|]. cbn [rev]. apply in_or_app. cbn; auto. }
      assert (Hph : p <> h).
      { intros ->. apply (proj1 HN'). apply heads_in. unfold F', heads. rewrite map_app. apply in_or_app. left. apply in_map_iff. exists (h, pr). split; [reflexivity|]. cbn [rev]. apply in_or_app. cbn; auto. }
      rewrite !setn_nat.
      rewrite (derefn_nat _ p pn) by (cbn [c_nodes with_nodes]; rewrite nth_lset_other by exact Hph; exact Hpn).
      cbn [bind]. rewrite !setn_nat. cbn [c_nodes with_nodes].
      rewrite (derefn_nat _ h cur1) by (cbn [c_nodes with_nodes]; rewrite nth_lset_other by congruence; eapply nth_lset_same; eauto).
      cbn [bind]. eexists. split; [reflexivity|]. rewrite setn_nat. cbn [c_nodes with_nodes].
      set (cur3 := n_set_next _ _). set (pn' := n_set_slot _ _). set (ns' := lset (lset (lset (c_nodes c) h cur1) p pn') h cur3).
      assert (Hsim : sim (all_members F) (c_nodes c) ns').
      { unfold ns'. eapply sim_trans; [|eapply sim_lset; [apply (Hsub (h, [])); cbn; auto|rewrite nth_lset_other by congruence; eapply nth_lset_same; eauto|reflexivity]].
        apply (sim_trans _ _ (lset (c_nodes c) h cur1)); [eapply sim_lset; [apply (Hsub (h, [])); cbn; auto|exact Hcur|reflexivity]|].
        eapply sim_lset; [apply (Hsub (p, pr)); cbn; auto|rewrite nth_lset_other by congruence; exact Hpn|reflexivity]. }
      assert (Hoth : forall i, i <> h -> i <> p -> nth_error ns' i = nth_error (c_nodes c) i).
      { intros i Hi Hi'. unfold ns'. rewrite !nth_lset_other by assumption. reflexivity. }
      assert (Hp' : nth_error ns' p = Some pn').
      { unfold ns'. rewrite nth_lset_other by exact Hph. eapply nth_lset_same. rewrite nth_lset_other by exact Hph. exact Hpn. }
      exists ns', (c_free c), h, F', cur3. split; [destruct c; reflexivity|]. split; [exact Hsim|]. split; [exact HP|].
      split; [|split; [unfold ns'; eapply nth_lset_same; rewrite nth_lset_other by congruence; eapply nth_lset_same; eauto|split; [exact Hcl|split; reflexivity]]].
      assert (HH : heads F' = heads (rev Q') ++ [p] ++ heads R).
      { unfold F', heads. cbn [rev]. rewrite !map_app, <- app_assoc. reflexivity. }
      assert (HHF : heads F = heads (rev Q') ++ [p] ++ h :: heads R).
      { unfold F, heads. cbn [rev]. rewrite !map_app, <- app_assoc. reflexivity. }
      assert (HND : NoDup (heads (rev Q') ++ [p] ++ heads R)).
      { rewrite <- HH. apply heads_nodup. tauto. }
      eapply finv_regroup; [exact HF0|exact (sim_core _ _ _ Hsim)|exact HF'g| | |].
      * intros i Hi. destruct (Nat.eq_dec i p) as [->|Hip].
        -- rewrite Hp', Hpn. reflexivity.
        -- rewrite Hoth; [reflexivity|intros ->; tauto|exact Hip].
      * rewrite Hfree, HH, HHF, !hz_app. reflexivity.
      * rewrite HH, app_assoc, seg_app. rewrite HHF, app_assoc, seg_app in Hheads. destruct Hheads as (H1 & H2). split.
        -- eapply seg_relast; [exact H1|exact Hp'|exact Hslot|]. intros i Hi. rewrite Hoth; [reflexivity| |].
           ++ intros ->. apply (proj1 HN'). apply heads_in. rewrite HH. apply in_or_app; auto.
           ++ intros ->. rewrite app_assoc in HND. apply NoDup_app_remove_r in HND. eapply nodup_app_disj; [exact HND|exact Hi|cbn; auto].
        -- cbn [seg] in H2. eapply seg_ext; [|apply H2]. intros i Hi. rewrite Hoth; [reflexivity| |].
           ++ intros ->. apply (proj1 HN'). apply heads_in. rewrite HH. apply in_or_app; right. cbn; auto.
           ++ intros ->. apply NoDup_app_remove_l in HND. cbn [app] in HND. apply NoDup_cons_iff in HND. tauto.
  - (* j takes over *)
    set (F' := rev Q ++ (j, r) :: R).
    assert (HP : Permutation (all_members F) (h :: all_members F')).
    { unfold F, F'. rewrite !all_members_app. unfold all_members. cbn [flat_map members fst snd app]. symmetry. apply Permutation_middle. }
    assert (HF'g : forall g', In g' F' -> exists g x, In g F /\ members g = x ++ members g').
    { intros g' Hg'. unfold F' in Hg'. rewrite in_app_iff, <- in_rev in Hg'. cbn [In] in Hg'. destruct Hg' as [Hg'|[<-|Hg']].
      - exists g', []. split; [apply HinF; auto|reflexivity].
      - exists (h, j :: r), [h]. split; [apply HinF; auto|reflexivity].
      - exists g', []. split; [apply HinF; auto|reflexivity]. }
    assert (HN' : ~ In h (all_members F') /\ NoDup (all_members F')).
    { eapply Permutation_NoDup in HP; [|exact HN]. now apply NoDup_cons_iff. }
    assert (HHF : heads F = heads (rev Q) ++ h :: heads R) by (unfold F, heads; rewrite map_app; reflexivity).
    assert (HHF' : heads F' = heads (rev Q) ++ j :: heads R) by (unfold F', heads; rewrite map_app; reflexivity).
    assert (HND : NoDup (heads (rev Q) ++ j :: heads R)) by (rewrite <- HHF'; apply heads_nodup; tauto).
    assert (Hj' : In j (all_members F')).
    { apply (in_members F' (j, r)); [unfold F'; apply in_or_app; cbn; auto|cbn; auto]. }
    assert (Hhj : j <> h) by (intros ->; tauto).
    assert (Hjn : exists jn, nth_error (c_nodes c) j = Some jn).
    { destruct (Hgroups (h, j :: r)) as (Hs & _); [apply HinF; auto|]. eapply seg_in; [exact Hs|cbn; auto]. }
    destruct Hjn as (jn & Hjn).
    cbv zeta. set (cur1 := n_set_used (n_set_time cur now) (n_used cur + 1)).
    change (n_next cur1) with (n_next cur). change (n_slot cur1) with (n_slot cur). rewrite Hnext. cbn [hz]. replace (0 <=? Z.of_nat j) with true by lia.
    set (jn1 := n_set_used (n_set_time (n_set_slot jn (n_slot cur)) (n_time cur1)) (n_used cur1)).
    rewrite (derefn_nat _ j jn) by (rewrite setn_nat; cbn [c_nodes with_nodes]; rewrite nth_lset_other by exact Hhj; exact Hjn).
    cbn [bind]. fold jn1. rewrite !setn_nat. cbn [c_nodes with_nodes]. rewrite with_nodes_nodes.
    assert (Hhead_h : forall i, In i (heads (rev Q)) \/ In i (heads R) -> i <> h).
    { intros i Hi ->. apply (proj1 HN'). apply heads_in. rewrite HHF'. apply in_or_app. cbn; tauto. }
    assert (Hhead_j : forall i, In i (heads (rev Q)) \/ In i (heads R) -> i <> j).
    { intros i Hi ->. apply NoDup_remove_2 in HND. apply HND. apply in_or_app. exact Hi. }
    destruct Q as [|[p pr] Q']; cbn [zhead tl fst].
    + cbn [bind].
      rewrite (derefn_nat _ h cur1) by (cbn [c_nodes with_free with_nodes]; rewrite nth_lset_other by congruence; eapply nth_lset_same; eauto).
      cbn [bind]. eexists. split; [reflexivity|]. rewrite setn_nat. cbn [c_nodes with_nodes with_free].
      set (cur3 := n_set_next _ _). set (ns' := lset (lset (lset (c_nodes c) h cur1) j jn1) h cur3).
      assert (Hsim : sim (all_members F) (c_nodes c) ns').
      { unfold ns'. eapply sim_trans; [|eapply sim_lset; [apply (Hsub (h, j :: r)); cbn; auto|rewrite nth_lset_other by congruence; eapply nth_lset_same; eauto|reflexivity]].
        apply (sim_trans _ _ (lset (c_nodes c) h cur1)); [eapply sim_lset; [apply (Hsub (h, j :: r)); cbn; auto|exact Hcur|reflexivity]|].
        eapply sim_lset; [apply (Hsub (h, j :: r)); cbn; auto|rewrite nth_lset_other by congruence; exact Hjn|reflexivity]. }
      assert (Hoth : forall i, i <> h -> i <> j -> nth_error ns' i = nth_error (c_nodes c) i).
      { intros i Hi Hi'. unfold ns'. rewrite !nth_lset_other by assumption. reflexivity. }
      assert (Hj1 : nth_error ns' j = Some jn1).
      { unfold ns'. rewrite nth_lset_other by exact Hhj. eapply nth_lset_same. rewrite nth_lset_other by exact Hhj. exact Hjn. }
      exists ns', (Z.of_nat j), h, F', cur3. split; [destruct c; reflexivity|]. split; [exact Hsim|]. split; [exact HP|].
      split; [|split; [unfold ns'; eapply nth_lset_same; rewrite nth_lset_other by congruence; eapply nth_lset_same; eauto|split; [exact Hcl|split; reflexivity]]].
      eapply finv_regroup; [exact HF0|exact (sim_core _ _ _ Hsim)|exact HF'g| | |].
      * intros i Hi. destruct (Nat.eq_dec i j) as [->|Hij]; [rewrite Hj1, Hjn; reflexivity|].
        rewrite Hoth; [reflexivity|intros ->; tauto|exact Hij].
      * reflexivity.
      * rewrite HHF'. rewrite HHF in Hheads. cbn [rev heads map app seg] in *. split; [exists jn1; split; [exact Hj1|exact Hslot]|].
        eapply seg_ext; [|apply Hheads]. intros i Hi. rewrite Hoth; auto.
    + assert (Hpn : exists pn, nth_error (c_nodes c) p = Some pn).
      { eapply seg_in; [exact Hheads|]. rewrite HHF. apply in_or_app. left. cbn [rev]. unfold heads. rewrite map_app. apply in_or_app. cbn; auto. }
      destruct Hpn as (pn & Hpn).
      assert (HpQ : In p (heads (rev ((p, pr) :: Q')))) by (unfold heads; cbn [rev]; rewrite map_app; apply in_or_app; cbn; auto).
      assert (Hph : p <> h) by (apply Hhead_h; auto). assert (Hpj : p <> j) by (apply Hhead_j; auto).
      assert (HR0 : heads (rev ((p, pr) :: Q')) = heads (rev Q') ++ [p]) by (unfold heads; cbn [rev]; rewrite map_app; reflexivity).
      rewrite (derefn_nat _ p pn) by (cbn [c_nodes with_nodes]; rewrite !nth_lset_other by assumption; exact Hpn).
      cbn [bind]. destruct (n_used jn1 - n_used pn <? USED_GRADIENT).
      * rewrite !setn_nat. cbn [c_nodes with_nodes bind].
        rewrite (derefn_nat _ h cur1) by (cbn [c_nodes with_nodes]; rewrite !nth_lset_other by congruence; eapply nth_lset_same; eauto).
        cbn [bind]. eexists. split; [reflexivity|]. rewrite setn_nat. cbn [c_nodes with_nodes].
        set (cur3 := n_set_next _ _). set (pn1 := n_set_slot pn _). set (ns' := lset (lset (lset (lset (c_nodes c) h cur1) j jn1) p pn1) h cur3).
        assert (Hsim : sim (all_members F) (c_nodes c) ns').
        { unfold ns'. eapply sim_trans; [|eapply sim_lset; [apply (Hsub (h, j :: r)); cbn; auto|rewrite !nth_lset_other by congruence; eapply nth_lset_same; eauto|reflexivity]].
          eapply sim_trans; [|eapply sim_lset; [apply (Hsub (p, pr)); cbn; auto|rewrite !nth_lset_other by congruence; exact Hpn|reflexivity]].
          apply (sim_trans _ _ (lset (c_nodes c) h cur1)); [eapply sim_lset; [apply (Hsub (h, j :: r)); cbn; auto|exact Hcur|reflexivity]|].
          eapply sim_lset; [apply (Hsub (h, j :: r)); cbn; auto|rewrite nth_lset_other by congruence; exact Hjn|reflexivity]. }
        assert (Hoth : forall i, i <> h -> i <> j -> i <> p -> nth_error ns' i = nth_error (c_nodes c) i).
        { intros i Hi Hi' Hi''. unfold ns'. rewrite !nth_lset_other by assumption. reflexivity. }
        assert (Hj1 : nth_error ns' j = Some jn1).
        { unfold ns'. rewrite !nth_lset_other by congruence. eapply nth_lset_same. rewrite nth_lset_other by exact Hhj. exact Hjn. }
        assert (Hp1 : nth_error ns' p = Some pn1).
        { unfold ns'. rewrite nth_lset_other by congruence. eapply nth_lset_same. rewrite !nth_lset_other by congruence. exact Hpn. }
        exists ns', (c_free c), h, F', cur3. split; [destruct c; reflexivity|]. split; [exact Hsim|]. split; [exact HP|].
        split; [|split; [unfold ns'; eapply nth_lset_same; rewrite !nth_lset_other by congruence; eapply nth_lset_same; eauto|split; [exact Hcl|split; reflexivity]]].
        eapply finv_regroup; [exact HF0|exact (sim_core _ _ _ Hsim)|exact HF'g| | |].
        -- intros i Hi. destruct (Nat.eq_dec i j) as [->|Hij]; [rewrite Hj1, Hjn; reflexivity|].
           destruct (Nat.eq_dec i p) as [->|Hip]; [rewrite Hp1, Hpn; reflexivity|].
           rewrite Hoth; [reflexivity|intros ->; tauto|exact Hij|exact Hip].
        -- rewrite Hfree, HHF, HHF', HR0, !hz_app. reflexivity.
        -- rewrite HHF', HR0. rewrite HHF, HR0 in Hheads. rewrite seg_app in Hheads |- *. destruct Hheads as (H1 & H2). cbn [seg hz] in *. split; [|split].
           ++ eapply seg_relast; [exact H1|exact Hp1|reflexivity|]. intros i Hi. rewrite Hoth; [reflexivity| | |].
              ** apply Hhead_h. left. rewrite HR0. apply in_or_app; auto.
              ** apply Hhead_j. left. rewrite HR0. apply in_or_app; auto.
              ** intros ->. rewrite HR0 in HND. apply NoDup_app_remove_r in HND. eapply nodup_app_disj; [exact HND|exact Hi|cbn; auto].
           ++ exists jn1. split; [exact Hj1|exact Hslot].
           ++ eapply seg_ext; [|apply H2]. intros i Hi. rewrite Hoth; auto. intros ->. eapply nodup_app_disj; [exact HND|exact HpQ|cbn; auto].
      * change (n_slot jn1) with (n_slot cur). rewrite !setn_nat. cbn [c_nodes with_nodes].
        rewrite (derefn_nat _ j jn1) by (cbn [c_nodes with_nodes]; rewrite nth_lset_other by congruence; eapply nth_lset_same; rewrite nth_lset_other by exact Hhj; exact Hjn).
        cbn [bind]. rewrite !setn_nat. cbn [c_nodes with_nodes].
        set (pn1 := n_set_slot pn _). set (jn2 := n_set_slot jn1 _).
        set (F2 := rev Q' ++ (j, r) :: (p, pr) :: R).
        assert (HF2 : Permutation (all_members F') (all_members F2)).
        { unfold F', F2. cbn [rev]. rewrite <- app_assoc. rewrite (all_members_app (rev Q')), (all_members_app (rev Q')). apply Permutation_app_head. cbn [app].
          change (all_members ((p, pr) :: (j, r) :: R)) with (members (p, pr) ++ members (j, r) ++ all_members R).
          change (all_members ((j, r) :: (p, pr) :: R)) with (members (j, r) ++ members (p, pr) ++ all_members R).
          rewrite !app_assoc. apply Permutation_app_tail. apply Permutation_app_comm. }
        assert (HF2g : forall g', In g' F2 -> exists g x, In g F /\ members g = x ++ members g').
        { intros g' Hg'. apply HF'g. unfold F2 in Hg'. unfold F'. cbn [rev]. rewrite in_app_iff in Hg' |- *. cbn [In] in Hg' |- *. rewrite in_app_iff. cbn [In]. tauto. }
        assert (HH2 : heads F2 = heads (rev Q') ++ j :: p :: heads R) by (unfold F2, heads; rewrite map_app; reflexivity).
        assert (HPF : Permutation (all_members F) (h :: all_members F2)) by (rewrite HP; constructor; exact HF2).
        assert (HhF2 : ~ In h (all_members F2)) by (intros H; apply (proj1 HN'); eapply Permutation_in; [symmetry; exact HF2|exact H]).
        assert (HND2 : NoDup (heads (rev Q') ++ j :: p :: heads R)).
        { rewrite <- HH2. apply heads_nodup. eapply Permutation_NoDup; [exact HF2|apply HN']. }
        assert (HQh : forall i, In i (heads (rev Q')) -> i <> h /\ i <> j /\ i <> p).
        { intros i Hi. assert (In i (heads (rev ((p, pr) :: Q')))) by (rewrite HR0; apply in_or_app; auto).
          split; [apply Hhead_h; auto|]. split; [apply Hhead_j; auto|]. intros ->. eapply nodup_app_disj; [exact HND2|exact Hi|cbn; auto]. }
        assert (HRp : forall i, In i (heads R) -> i <> p).
        { intros i Hi ->. apply NoDup_app_remove_l in HND2. apply NoDup_cons_iff in HND2. destruct HND2 as [_ HND2]. apply NoDup_cons_iff in HND2. tauto. }
        set (nsA := lset (lset (lset (lset (c_nodes c) h cur1) j jn1) p pn1) j jn2).
        assert (HA_h : nth_error nsA h = Some cur1) by (unfold nsA; rewrite !nth_lset_other by congruence; eapply nth_lset_same; eauto).
        assert (HA_p : nth_error nsA p = Some pn1) by (unfold nsA; rewrite nth_lset_other by congruence; eapply nth_lset_same; rewrite !nth_lset_other by congruence; exact Hpn).
        assert (HA_j : nth_error nsA j = Some jn2).
        { unfold nsA. eapply nth_lset_same. rewrite nth_lset_other by congruence. eapply nth_lset_same. rewrite nth_lset_other by congruence. exact Hjn. }
        assert (HA_o : forall i, i <> h -> i <> j -> i <> p -> nth_error nsA i = nth_error (c_nodes c) i).
        { intros i A B C. unfold nsA. rewrite !nth_lset_other by assumption. reflexivity. }
        assert (HsimA : sim (all_members F) (c_nodes c) nsA).
        { unfold nsA.
          eapply sim_trans; [|eapply sim_lset; [apply (Hsub (h, j :: r)); cbn; auto|rewrite nth_lset_other by congruence; eapply nth_lset_same; rewrite nth_lset_other by congruence; exact Hjn|reflexivity]].
          eapply sim_trans; [|eapply sim_lset; [apply (Hsub (p, pr)); cbn; auto|rewrite !nth_lset_other by congruence; exact Hpn|reflexivity]].
          apply (sim_trans _ _ (lset (c_nodes c) h cur1)); [eapply sim_lset; [apply (Hsub (h, j :: r)); cbn; auto|exact Hcur|reflexivity]|].
          eapply sim_lset; [apply (Hsub (h, j :: r)); cbn; auto|rewrite nth_lset_other by congruence; exact Hjn|reflexivity]. }
        destruct Q' as [|[g gr] Q'']; cbn [zhead fst].
        -- cbn [bind]. rewrite (derefn_nat _ h cur1) by exact HA_h.
           cbn [bind]. eexists. split; [reflexivity|]. rewrite setn_nat. cbn [c_nodes with_nodes with_free].
           set (cur3 := n_set_next _ _). set (ns' := lset nsA h cur3).
           assert (Hsim : sim (all_members F) (c_nodes c) ns').
           { eapply sim_trans; [exact HsimA|]. eapply sim_lset; [apply (Hsub (h, j :: r)); cbn; auto|exact HA_h|reflexivity]. }
           exists ns', (Z.of_nat j), h, F2, cur3. split; [destruct c; reflexivity|]. split; [exact Hsim|]. split; [exact HPF|].
           split; [|split; [unfold ns'; eapply nth_lset_same; eauto|split; [exact Hcl|split; reflexivity]]].
           eapply finv_regroup; [exact HF0|exact (sim_core _ _ _ Hsim)|exact HF2g| | |].
           ++ intros i Hi. assert (i <> h) by (intros ->; tauto). unfold ns'. rewrite nth_lset_other by assumption.
              destruct (Nat.eq_dec i j) as [->|Hij]; [rewrite HA_j, Hjn; reflexivity|].
              destruct (Nat.eq_dec i p) as [->|Hip]; [rewrite HA_p, Hpn; reflexivity|]. rewrite HA_o by assumption. reflexivity.
           ++ reflexivity.
           ++ rewrite HH2. cbn [rev heads map app seg hz]. split; [exists jn2; split; [unfold ns'; rewrite nth_lset_other by congruence; exact HA_j|reflexivity]|].
              split; [exists pn1; split; [unfold ns'; rewrite nth_lset_other by congruence; exact HA_p|exact Hslot]|].
              rewrite HHF, seg_app in Hheads. eapply seg_ext; [|apply Hheads]. intros i Hi. unfold ns'. rewrite nth_lset_other by (apply Hhead_h; auto).
              rewrite HA_o; auto.
        -- assert (HR1 : heads (rev ((g, gr) :: Q'')) = heads (rev Q'') ++ [g]) by (unfold heads; cbn [rev]; rewrite map_app; reflexivity).
           assert (HgQ : In g (heads (rev ((g, gr) :: Q'')))) by (rewrite HR1; apply in_or_app; cbn; auto).
           destruct (HQh g HgQ) as (Hgh & Hgj & Hgp).
           assert (Hgn : exists gn, nth_error (c_nodes c) g = Some gn).
           { eapply seg_in; [exact Hheads|]. rewrite HHF. apply in_or_app. left. rewrite HR0. apply in_or_app; auto. }
           destruct Hgn as (gn & Hgn).
           rewrite (derefn_nat _ g gn) by (cbn [c_nodes with_nodes]; fold nsA; rewrite HA_o by assumption; exact Hgn).
           cbn [bind]. rewrite !setn_nat. cbn [c_nodes with_nodes]. fold nsA. set (gn1 := n_set_slot gn _).
           rewrite (derefn_nat _ h cur1) by (cbn [c_nodes with_nodes]; rewrite nth_lset_other by congruence; exact HA_h).
           cbn [bind]. eexists. split; [reflexivity|]. rewrite setn_nat. cbn [c_nodes with_nodes].
           set (cur3 := n_set_next _ _). set (ns' := lset (lset nsA g gn1) h cur3).
           assert (Hsim : sim (all_members F) (c_nodes c) ns').
           { eapply sim_trans; [exact HsimA|]. apply (sim_trans _ _ (lset nsA g gn1)); [eapply sim_lset; [apply (Hsub (g, gr)); cbn; auto|rewrite HA_o by assumption; exact Hgn|reflexivity]|].
             eapply sim_lset; [apply (Hsub (h, j :: r)); cbn; auto|rewrite nth_lset_other by congruence; exact HA_h|reflexivity]. }
           assert (Hg1 : nth_error ns' g = Some gn1).
           { unfold ns'. rewrite nth_lset_other by congruence. eapply nth_lset_same. rewrite HA_o by assumption. exact Hgn. }
           exists ns', (c_free c), h, F2, cur3. split; [destruct c; reflexivity|]. split; [exact Hsim|]. split; [exact HPF|].
           split; [|split; [unfold ns'; eapply nth_lset_same; rewrite nth_lset_other by congruence; exact HA_h|split; [exact Hcl|split; reflexivity]]].
           eapply finv_regroup; [exact HF0|exact (sim_core _ _ _ Hsim)|exact HF2g| | |].
           ++ intros i Hi. assert (i <> h) by (intros ->; tauto).
              destruct (Nat.eq_dec i g) as [->|Hig]; [rewrite Hg1, Hgn; reflexivity|].
              unfold ns'. rewrite !nth_lset_other by assumption.
              destruct (Nat.eq_dec i j) as [->|Hij]; [rewrite HA_j, Hjn; reflexivity|].
              destruct (Nat.eq_dec i p) as [->|Hip]; [rewrite HA_p, Hpn; reflexivity|]. rewrite HA_o by assumption. reflexivity.
           ++ rewrite Hfree, HHF, HH2, HR0, HR1, !hz_app. reflexivity.
           ++ rewrite HH2, HR1, seg_app. rewrite HHF, HR0, HR1, seg_app in Hheads. destruct Hheads as (H1 & H2). rewrite seg_app in H1. cbn [seg hz] in H1, H2 |- *.
              split; [|split; [|split]].
              ** eapply seg_relast; [exact (proj1 H1)|exact Hg1|reflexivity|]. intros i Hi.
                 assert (HiQ : In i (heads (rev ((g, gr) :: Q'')))) by (rewrite HR1; apply in_or_app; auto). destruct (HQh i HiQ) as (A & B & C).
                 assert (i <> g) by (intros ->; rewrite HR1 in HND2; apply NoDup_app_remove_r in HND2; eapply nodup_app_disj; [exact HND2|exact Hi|cbn; auto]).
                 unfold ns'. rewrite !nth_lset_other by assumption. rewrite HA_o by assumption. reflexivity.
              ** exists jn2. split; [unfold ns'; rewrite !nth_lset_other by congruence; exact HA_j|reflexivity].
              ** exists pn1. split; [unfold ns'; rewrite !nth_lset_other by congruence; exact HA_p|exact Hslot].
              ** eapply seg_ext; [|apply H2]. intros i Hi. assert (i <> h) by (apply Hhead_h; auto). assert (i <> j) by (apply Hhead_j; auto). assert (i <> p) by (apply HRp; auto).
                 assert (i <> g). { intros ->. eapply nodup_app_disj; [exact HND2|exact HgQ|cbn; auto]. }
                 unfold ns'. rewrite !nth_lset_other by assumption. rewrite HA_o by assumption. reflexivity.
Qed.

Definition created (c : cache) (chunk bound : nat) (F : list group) (res : option Z * bool * cache) : Prop :=
  (forall g, In g F -> ~ glen (c_nodes c) g chunk) /\
  exists ns', sim (all_members F) (c_nodes c) ns' /\ finv ns' (c_free c) F /\
    res = match create_node (with_nodes c ns') chunk bound with
          | Some (i, c') => (Some i, true, c')
          | None => (None, true, with_nodes c ns')
          end.

Lemma glen_head ns g k n : glen ns g k -> nth_error ns (fst g) = Some n -> n_len n = k.
Proof. intros H E. specialize (H (fst g) (or_introl eq_refl)). rewrite E in H. cbn in H. congruence. Qed.

Lemma find_unused_loop_ok R : forall Q c fuel chunk bound now, (length R < fuel)%nat ->
  finv (c_nodes c) (c_free c) (rev Q ++ R) -> NoDup (all_members (rev Q ++ R)) ->
  (forall g, In g Q -> ~ glen (c_nodes c) g chunk) ->
  exists res, find_unused_loop fuel c chunk bound now (hz (heads R) (-1)) (zhead Q) (zhead (tl Q)) = Ret res /\
    (created c chunk bound (rev Q ++ R) res \/ popped c chunk (rev Q ++ R) res).
Proof.
  induction R as [|[h r] R IH]; intros Q c fuel chunk bound now Hf HF HN HQ; (destruct fuel as [|fuel]; [cbn [length] in Hf; lia|]); cbn [find_unused_loop].
  - cbn [heads map hz]. replace (-1 <? 0) with true by reflexivity.
    assert (HC : forall res, res = match create_node (with_nodes c (c_nodes c)) chunk bound with
          | Some (i, c') => (Some i, true, c') | None => (None, true, with_nodes c (c_nodes c)) end -> created c chunk bound (rev Q ++ []) res).
    { intros res E. split; [intros g Hg; rewrite app_nil_r, <- in_rev in Hg; auto|]. exists (c_nodes c). split; [apply sim_refl|]. split; [exact HF|exact E]. }
    rewrite with_nodes_same in HC. destruct (create_node c chunk bound) as [[i c']|]; eexists; (split; [reflexivity|left; apply HC; reflexivity]).
  - cbn [heads map fst hz]. fold (heads R). replace (Z.of_nat h <? 0) with false by lia.
    assert (HinF : In (h, r) (rev Q ++ (h, r) :: R)) by (apply in_or_app; cbn; auto).
    destruct HF as (Hfree & Hheads & Hgroups) eqn:E0. clear E0. pose proof HF as HF0.
    destruct (Hgroups (h, r) HinF) as (Hseg & k & Hk).
    destruct (seg_in _ _ _ _ h Hseg) as (cur & Hcur); [cbn; auto|].
    pose proof (glen_head _ _ _ _ Hk Hcur) as Hlen. cbn [fst] in Hlen.
    assert (Hslot : n_slot cur = hz (heads R) (-1)).
    { unfold heads in Hheads. rewrite map_app in Hheads. cbn [map fst] in Hheads. eapply seg_link; eauto. }
    rewrite (derefn_nat _ h cur) by exact Hcur. cbn [bind].
    assert (Hdec : exists c1, match zhead Q with
       | None => Ret c
       | Some p => let! ph := derefn c p in
           if (n_used cur <? n_used ph) && (IDLE_TIME_SEC <=? n_time ph - n_time cur)
           then Ret (setn c p (n_set_time (n_set_used ph (n_used cur)) now)) else Ret c end = Ret c1 /\
       exists ns1, c1 = with_nodes c ns1 /\ sim (all_members (rev Q ++ (h, r) :: R)) (c_nodes c) ns1 /\ finv ns1 (c_free c) (rev Q ++ (h, r) :: R) /\
         nth_error ns1 h = Some cur).
    { assert (HS : exists c1, Ret c = Ret c1 /\ exists ns1, c1 = with_nodes c ns1 /\ sim (all_members (rev Q ++ (h, r) :: R)) (c_nodes c) ns1 /\ finv ns1 (c_free c) (rev Q ++ (h, r) :: R) /\ nth_error ns1 h = Some cur).
      { exists c. split; [reflexivity|]. exists (c_nodes c). split; [symmetry; apply with_nodes_same|]. split; [apply sim_refl|]. split; [exact HF0|exact Hcur]. }
      destruct Q as [|[p pr] Q']; cbn [zhead fst]; [exact HS|].
      assert (HpF : In (p, pr) (rev ((p, pr) :: Q') ++ (h, r) :: R)) by (apply in_or_app; left; apply in_rev; rewrite rev_involutive; cbn; auto).
      destruct (Hgroups _ HpF) as (Hpseg & _). destruct (seg_in _ _ _ _ p Hpseg) as (pn & Hpn); [cbn; auto|].
      rewrite (derefn_nat _ p pn) by exact Hpn. cbn [bind].
      destruct ((n_used cur <? n_used pn) && (IDLE_TIME_SEC <=? n_time pn - n_time cur)); [|exact HS].
      eexists. split; [reflexivity|]. rewrite setn_nat. eexists. split; [reflexivity|].
      assert (HpM : In p (all_members (rev ((p, pr) :: Q') ++ (h, r) :: R))) by (eapply in_members; [exact HpF|cbn; auto]).
      assert (Hsim : sim (all_members (rev ((p, pr) :: Q') ++ (h, r) :: R)) (c_nodes c) (lset (c_nodes c) p (n_set_time (n_set_used pn (n_used cur)) now))).
      { eapply sim_lset; [exact HpM|exact Hpn|reflexivity]. }
      split; [exact Hsim|]. split.
      + eapply finv_ext; [exact (sim_core _ _ _ Hsim)| | |exact HF0]; intros i _; (destruct (Nat.eq_dec i p) as [->|Hip];
          [erewrite nth_lset_same by exact Hpn; rewrite Hpn; reflexivity|rewrite nth_lset_other by exact Hip; reflexivity]).
      + rewrite nth_lset_other; [exact Hcur|]. intros <-. apply heads_nodup in HN. unfold heads in HN. cbn [rev] in HN. rewrite !map_app in HN. cbn [map fst app] in HN.
        rewrite <- app_assoc in HN. apply NoDup_remove_2 in HN. apply HN. apply in_or_app. cbn; auto. }
    destruct Hdec as (c1 & E1 & ns1 & -> & Hsim1 & HF1 & Hcur1). rewrite E1. cbn [bind]. clear E1.
    assert (Hk1 : glen ns1 (h, r) k) by (eapply glen_sim; eauto).
    destruct (Nat.eqb_spec (n_len cur) chunk) as [Hc|Hc].
    + destruct (pop_ok (with_nodes c ns1) chunk Q h r R now) with (cur := cur) as (res & Eres & Hpop).
      * cbn [c_nodes c_free with_nodes]. exact HF1.
      * exact HN.
      * cbn [c_nodes with_nodes]. replace chunk with k by congruence. exact Hk1.
      * exact Hcur1.
      * cbv zeta in Eres |- *. exists res. split; [exact Eres|]. right.
        destruct Hpop as (ns' & f' & h' & F' & n & -> & Hsim & HP & HF' & Hn). exists ns', f', h', F', n.
        split; [reflexivity|]. split; [eapply sim_trans; [exact Hsim1|exact Hsim]|]. tauto.
    + specialize (IH ((h, r) :: Q) (with_nodes c ns1) fuel chunk bound now). cbn [rev] in IH. rewrite <- app_assoc in IH. cbn [app zhead tl fst] in IH.
      rewrite Hslot. destruct IH as (res & Eres & Hres).
      * cbn [length] in Hf. lia.
      * exact HF1.
      * exact HN.
      * cbn [c_nodes with_nodes]. intros g [<-|Hg].
        -- intros Hg. apply Hc. pose proof (glen_head _ _ _ _ Hg Hcur1). exact H.
        -- intros Hgl. apply (HQ g Hg). intros i Hi. rewrite <- (core_len (c_nodes c) ns1 i (sim_core _ _ _ Hsim1)). auto.
      * exists res. split; [exact Eres|]. destruct Hres as [Hres|Hres]; [left|right].
        -- destruct Hres as (HA & ns' & Hsim & HF' & ->). split.
           ++ intros g Hg Hgl. apply (HA g Hg). cbn [c_nodes with_nodes]. eapply glen_sim; eauto.
           ++ exists ns'. split; [eapply sim_trans; [exact Hsim1|exact Hsim]|]. split; [exact HF'|]. reflexivity.
        -- destruct Hres as (ns' & f' & h' & F' & n & -> & Hsim & HP & HF' & Hn). exists ns', f', h', F', n.
           split; [reflexivity|]. split; [eapply sim_trans; [exact Hsim1|exact Hsim]|]. tauto.
Qed.

Lemma heads_length F : length (heads F) = length F. Proof. apply map_length. Qed.
Lemma find_unused_ok c F chunk bound now : finv (c_nodes c) (c_free c) F -> NoDup (all_members F) ->
  exists res, find_unused c chunk bound now = Ret res /\ (created c chunk bound F res \/ popped c chunk F res).
Proof.
  intros HF HN. unfold find_unused. pose proof (proj1 HF) as Hfree. rewrite Hfree.
  apply (find_unused_loop_ok F [] c); [|exact HF|exact HN|intros g []].
  rewrite <- heads_length.
  assert (forall i, In i (heads F) -> (i < length (c_nodes c))%nat).
  { intros i Hi. destruct HF as (_ & Hs & _). destruct (seg_in _ _ _ _ i Hs Hi) as (n & Hn). apply nth_error_Some. congruence. }
  pose proof (nodup_lt_length (heads F) (length (c_nodes c)) (heads_nodup _ HN) H). lia.
Qed.
