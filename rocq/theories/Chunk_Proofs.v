(** Lemmas about rule sets. *)
From Verif Require Import Base BaseFacts List2Facts Hash_Model Sht_Model Sht_Proofs Chunk_Model Chunk_Spec.
Require Import ZifyBool ZifyNat.
Set Default Proof Using "Type".

Lemma str_eqb_eq a : forall b, str_eqb a b = true <-> a = b.
Proof.
  induction a as [|x a IH]; intros [|y b]; cbn [str_eqb]; try (split; congruence).
  rewrite andb_true_iff, Z.eqb_eq, IH. split; [intros [-> ->]; reflexivity|intros H; injection H; auto].
Qed.
Lemma has_wildcard_plain s : has_wildcard s = false <-> plain s.
Proof.
  unfold has_wildcard, plain. split.
  - intros H. repeat split; intros HI; assert (E : existsb (fun c => (c =? 42) || (c =? 63) || (c =? 91)) s = true) by (apply existsb_exists; eexists; split; [exact HI|reflexivity]); congruence.
  - intros (H1 & H2 & H3). destruct (existsb _ s) eqn:E; [|reflexivity]. apply existsb_exists in E. destruct E as (c & Hc & E).
    apply orb_prop in E. destruct E as [E|E]; [apply orb_prop in E; destruct E as [E|E]|]; apply Z.eqb_eq in E; subst; contradiction.
Qed.
Lemma has_wildcard_wild s : has_wildcard s = true <-> ~ plain s.
Proof. rewrite <- has_wildcard_plain. destruct (has_wildcard s); split; congruence. Qed.

Lemma find_filter {A} (f g : A -> bool) l : (forall x, In x l -> f x = true -> g x = true) -> find f (filter g l) = find f l.
Proof.
  induction l as [|x l IH]; intros H; cbn [filter find]; [reflexivity|]. destruct (g x) eqn:E; cbn [find].
  - destruct (f x); [reflexivity|]. apply IH. intros; apply H; cbn; auto.
  - destruct (f x) eqn:E2; [rewrite (H x) in E by (cbn; auto); discriminate|]. apply IH. intros; apply H; cbn; auto.
Qed.
Lemma find_map {A B} (h : A -> B) (f : B -> bool) l : find f (map h l) = option_map h (find (fun x => f (h x)) l).
Proof. induction l as [|x l IH]; cbn [map find]; [reflexivity|]. destruct (f (h x)); [reflexivity|exact IH]. Qed.
Lemma find_ext_in {A} (f g : A -> bool) l : (forall x, In x l -> f x = g x) -> find f l = find g l.
Proof. induction l as [|x l IH]; intros H; cbn [find]; [reflexivity|]. rewrite (H x) by (cbn; auto). destruct (g x); [reflexivity|]. apply IH. intros; apply H; cbn; auto. Qed.
Lemma find_split {A} (f : A -> bool) l x : find f l = Some x -> exists l1 l2, l = l1 ++ x :: l2 /\ f x = true /\ forall y, In y l1 -> f y = false.
Proof.
  induction l as [|y l IH]; cbn [find]; [discriminate|]. destruct (f y) eqn:E.
  - intros [= ->]. exists [], l. repeat split; auto. intros ? [].
  - intros H. destruct (IH H) as (l1 & l2 & -> & H1 & H2). exists (y :: l1), l2. repeat split; auto. intros z [->|Hz]; auto.
Qed.

(** ** Hash table *)
Section S.
Context {D : Type}.
Lemma sht_of_inv max (adds : list (Z * D)) : sinv (sht_of max adds) /\ map key (t_nodes (sht_of max adds)) = adds.
Proof.
  unfold sht_of. set (t0 := sht_init max). assert (H : sinv t0 /\ map key (t_nodes t0) = []) by (split; [apply sinv_init|reflexivity]).
  change adds with ([] ++ adds) at 3. revert H. generalize (@nil (Z * D)) as pre, t0. clear t0.
  induction adds as [|a adds IH]; intros pre t0 (H1 & H2); cbn [fold_left].
  - rewrite app_nil_r. auto.
  - destruct (sht_add_ok t0 (fst a) (snd a) H1) as (A1 & A2 & _). cbv zeta in *. destruct a as [h d]; cbn [fst snd] in *.
    destruct (IH (pre ++ [(h, d)]) (sht_add t0 h d)) as (B1 & B2); [split; [exact A1|rewrite A2, H2; reflexivity]|].
    split; [exact B1|]. rewrite B2, <- app_assoc. reflexivity.
Qed.
Lemma nth_seq_map (ns : list (shnode D)) : forall (f : shnode D -> bool),
  map (fun i => nth_error ns i) (filter (fun i => match nth_error ns i with Some x => f x | None => false end) (seq 0 (length ns))) = map Some (filter f ns).
Proof.
  intros f. assert (G : forall m k, (k + m = length ns)%nat ->
    map (fun i => nth_error ns i) (filter (fun i => match nth_error ns i with Some x => f x | None => false end) (seq k m)) = map Some (filter f (skipn k ns))).
  { induction m as [|m IH]; intros k Hk; cbn [seq filter].
    - rewrite skipn_all2 by lia. reflexivity.
    - destruct (nth_error ns k) as [x|] eqn:Hx; [|apply nth_error_None in Hx; lia]. rewrite (skipn_nth k ns x Hx). cbn [filter].
      destruct (f x); cbn [map]; rewrite IH by lia; [rewrite Hx|]; reflexivity. }
  rewrite (G (length ns) 0%nat) by lia. reflexivity.
Qed.
Lemma bucket_nodes n (ns : list (shnode D)) s :
  map (fun i => nth_error ns i) (bucket n ns (length ns) s) = map Some (rev (filter (fun x => Nat.eqb (Z.to_nat (sh_hash x mod Z.of_nat n)) s) ns)).
Proof. unfold bucket. rewrite map_rev. rewrite (nth_seq_map ns (fun x => Nat.eqb (Z.to_nat (sh_hash x mod Z.of_nat n)) s)), map_rev. reflexivity. Qed.

Lemma sht_all_chain (t : sht D) hash l : forall fuel o start, chain (t_nodes t) o l -> (length l < fuel)%nat ->
  sht_find t hash start = Ret (sht_get t o) -> exists ds, sht_all fuel t hash start = Ret ds /\ map Some ds = map (fun i => option_map sh_data (nth_error (t_nodes t) i)) l.
Proof.
  induction l as [|i l IH]; intros fuel o start Hc Hf HF; (destruct fuel as [|fuel]; [cbn in Hf; lia|]); cbn [sht_all]; rewrite HF, (chain_get t o _ Hc); cbn [bind].
  - exists []. auto.
  - cbn [length] in Hf. assert (Hc2 := Hc). cbn [chain] in Hc2. destruct Hc2 as (_ & x & Hx & _). rewrite Hx.
    destruct (sht_find_next t hash i l o Hc) as (o' & HF' & Hc'). destruct (IH fuel o' (Some i) Hc' ltac:(lia) HF') as (ds & -> & Hds).
    cbn [bind]. exists (sh_data x :: ds). split; [reflexivity|]. cbn [map]. rewrite Hx, Hds. reflexivity.
Qed.
Lemma map_some_inj {A} (l : list A) : forall m, map Some l = map Some m -> l = m.
Proof. induction l as [|x l IH]; intros [|y m] H; try discriminate; [reflexivity|]. cbn in H. injection H as -> H. f_equal. auto. Qed.
Lemma bucket_length n (ns : list (shnode D)) s : (length (bucket n ns (length ns) s) <= length ns)%nat.
Proof.
  unfold bucket. rewrite rev_length. etransitivity; [|rewrite <- (seq_length (length ns) 0); reflexivity]. induction (seq 0 (length ns)) as [|i l IH]; cbn [filter length]; [lia|].
  destruct (nth_error ns i); [destruct (Nat.eqb _ s)|]; cbn [length]; lia.
Qed.
Lemma sht_all_ok (t : sht D) hash : sinv t ->
  sht_all (S (length (t_nodes t))) t hash None =
  Ret (rev (map snd (filter (fun a => fst a mod Z.of_nat (length (t_slots t)) =? hash mod Z.of_nat (length (t_slots t))) (map key (t_nodes t))))).
Proof.
  intros HI. destruct (sht_find_first t hash HI) as (h & HF & Hc).
  destruct (sht_all_chain t hash _ (S (length (t_nodes t))) h None Hc) as (ds & -> & Hds); auto.
  { pose proof (bucket_length (length (t_slots t)) (t_nodes t) (Z.to_nat (hash mod Z.of_nat (length (t_slots t))))). lia. }
  f_equal. apply map_some_inj. rewrite Hds. rewrite <- (map_map (fun i => nth_error (t_nodes t) i) (option_map sh_data)), bucket_nodes, map_map. cbn [option_map].
  rewrite <- (map_map sh_data Some). f_equal. rewrite map_rev. f_equal. pose proof (l_slots _ _ HI) as Hs. clear - Hs. induction (t_nodes t) as [|x ns IH]; cbn [filter map]; [reflexivity|].
  cbn [key fst]. pose proof (Z.mod_pos_bound (sh_hash x) (Z.of_nat (length (t_slots t)))). pose proof (Z.mod_pos_bound hash (Z.of_nat (length (t_slots t)))).
  destruct (Nat.eqb_spec (Z.to_nat (sh_hash x mod Z.of_nat (length (t_slots t)))) (Z.to_nat (hash mod Z.of_nat (length (t_slots t))))) as [E|E],
    (Z.eqb_spec (sh_hash x mod Z.of_nat (length (t_slots t))) (hash mod Z.of_nat (length (t_slots t)))) as [E2|E2]; cbn [map snd key]; try (rewrite IH; reflexivity); exfalso; lia.
Qed.
End S.

(** ** Rules *)
Section R.
Context {V : Type}.
Notation rule := (list Z * option V)%type.
Implicit Types (rs : list rule) (k : chunk V) (acc : option V -> bool).

Definition ent (r : rule) : entry V := mk_entry (fst r) (snd r).
Record kinv k rs : Prop := {
  ki_inv : sinv (k_plain k);
  ki_plain : map key (t_nodes (k_plain k)) = map (fun r => (bkdr (fst r), ent r)) (filter (fun r => negb (has_wildcard (fst r))) rs);
  ki_wild : k_wild k = map ent (filter (fun r => has_wildcard (fst r)) rs) }.
Lemma kinv_init : kinv chunk_init [].
Proof. split; [apply sinv_init|reflexivity..]. Qed.
Lemma kinv_add k rs s d : kinv k rs -> kinv (chunk_add k s d) (rs ++ [(s, d)]).
Proof.
  intros [H1 H2 H3]. unfold chunk_add. destruct (has_wildcard s) eqn:E; split; cbn [k_plain k_wild]; rewrite ?filter_app; cbn [filter fst]; rewrite ?E; cbn [negb]; rewrite ?app_nil_r; auto.
  - rewrite map_app, H3. reflexivity.
  - apply sht_add_ok. exact H1.
  - destruct (sht_add_ok (k_plain k) (bkdr s) (mk_entry s d) H1) as (_ & A & _). cbv zeta in A. rewrite A, H2, map_app. reflexivity.
Qed.
Lemma chunk_of_inv rs : kinv (chunk_of rs) rs.
Proof.
  unfold chunk_of. change rs with ([] ++ rs) at 2. generalize kinv_init. generalize (@nil rule) as pre, (@chunk_init V).
  induction rs as [|[s d] rs IH]; intros pre k H; cbn [fold_left]; [rewrite app_nil_r; exact H|].
  specialize (IH (pre ++ [(s, d)]) _ (kinv_add k pre s d H)). rewrite <- app_assoc in IH. exact IH.
Qed.
Lemma chunk_add_domain_eq k s d : chunk_add_domain k s d = chunk_add k (fst (undotted (s, d))) d.
Proof. reflexivity. Qed.
Lemma chunk_of_domains_eq rs : chunk_of_domains rs = chunk_of (map undotted rs).
Proof.
  unfold chunk_of_domains, chunk_of. generalize (@chunk_init V). induction rs as [|[s d] rs IH]; intros k; cbn [fold_left map]; [reflexivity|]. rewrite IH. reflexivity.
Qed.

Lemma match_loop_chain k s hv acc l : forall fuel o start, chain (t_nodes (k_plain k)) o l -> (length l < fuel)%nat ->
  sht_find (k_plain k) hv start = Ret (sht_get (k_plain k) o) ->
  exists r, match_loop fuel k s hv acc start = Ret r /\
    r = option_map (fun e => e_data e) (find (fun e => str_eqb (e_str e) s && acc (e_data e))
      (flat_map (fun i => match nth_error (t_nodes (k_plain k)) i with Some x => [sh_data x] | None => [] end) l)).
Proof.
  induction l as [|i l IH]; intros fuel o start Hc Hf HF; (destruct fuel as [|fuel]; [cbn in Hf; lia|]); cbn [match_loop]; rewrite HF, (chain_get _ o _ Hc); cbn [bind].
  - exists None. auto.
  - cbn [length] in Hf. assert (Hc2 := Hc). cbn [chain] in Hc2. destruct Hc2 as (_ & x & Hx & _). cbn [flat_map]. rewrite Hx. cbn [app find].
    destruct (str_eqb (e_str (sh_data x)) s && acc (e_data (sh_data x))); [eexists; split; reflexivity|].
    destruct (sht_find_next _ hv i l o Hc) as (o' & HF' & Hc'). apply (IH fuel o' (Some i) Hc' ltac:(lia) HF').
Qed.
Lemma flat_some {A B} (g : nat -> option A) (h : A -> B) l xs : map g l = map Some xs -> flat_map (fun i => match g i with Some x => [h x] | None => [] end) l = map h xs.
Proof.
  revert xs. induction l as [|i l IH]; intros [|x xs] H; cbn [flat_map map] in *; try discriminate; [reflexivity|]. injection H as -> H. rewrite (IH xs H). reflexivity.
Qed.

Lemma match_plain_ok k rs s hv acc : kinv k rs -> hv = None \/ hv = Some (bkdr s) ->
  match_plain k s hv acc = Ret (option_map snd (find (fun r => negb (has_wildcard (fst r)) && (str_eqb (fst r) s && acc (snd r))) (rev rs))).
Proof.
  intros [H1 H2 H3] Hh. unfold match_plain. replace (match hv with Some h => h | None => bkdr s end) with (bkdr s) by (destruct Hh as [->| ->]; reflexivity).
  destruct (sht_find_first (k_plain k) (bkdr s) H1) as (h & HF & Hc).
  destruct (match_loop_chain k s (bkdr s) acc _ (S (length (t_nodes (k_plain k)))) h None Hc) as (r & -> & ->); auto.
  { pose proof (bucket_length (length (t_slots (k_plain k))) (t_nodes (k_plain k)) (Z.to_nat (bkdr s mod Z.of_nat (length (t_slots (k_plain k)))))). lia. }
  f_equal. rewrite (flat_some _ sh_data _ _ (bucket_nodes _ _ _)). rewrite map_rev.
  set (n := length (t_slots (k_plain k))) in *.
  replace (map sh_data (filter (fun x => Nat.eqb (Z.to_nat (sh_hash x mod Z.of_nat n)) (Z.to_nat (bkdr s mod Z.of_nat n))) (t_nodes (k_plain k))))
    with (map snd (filter (fun a : Z * entry V => Nat.eqb (Z.to_nat (fst a mod Z.of_nat n)) (Z.to_nat (bkdr s mod Z.of_nat n))) (map key (t_nodes (k_plain k))))).
  2:{ clear. induction (t_nodes (k_plain k)) as [|x ns IH]; cbn [map filter]; [reflexivity|]. cbn [key fst]. destruct (Nat.eqb _ _); cbn [map]; rewrite IH; reflexivity. }
  rewrite H2. rewrite <- map_rev, find_map. rewrite <- filter_rev, find_filter.
  - rewrite <- map_rev, find_map. rewrite <- filter_rev. cbn [snd ent e_str e_data].
    set (f := fun x : rule => str_eqb (fst x) s && acc (snd x)). set (g := fun r : rule => negb (has_wildcard (fst r))).
    change (find (fun x : rule => str_eqb (fst x) s && acc (snd x)) (filter g (rev rs))) with (find f (filter g (rev rs))).
    assert (E : find f (filter g (rev rs)) = find (fun r => g r && f r) (rev rs)).
    { clear. induction (rev rs) as [|x l IH]; cbn [filter find]; [reflexivity|]. destruct (g x); cbn [find andb]; [destruct (f x); auto|exact IH]. }
    fold f. rewrite E. change (fun r : rule => g r && (str_eqb (fst r) s && acc (snd r))) with (fun r : rule => g r && f r). destruct (find _ (rev rs)) as [x|]; reflexivity.
  - intros x Hx Hf. apply in_rev in Hx. apply in_map_iff in Hx. destruct Hx as (r & <- & _). cbn [snd fst ent e_str] in *.
    apply andb_prop in Hf. destruct Hf as [Hf _]. apply str_eqb_eq in Hf. rewrite Hf. apply Nat.eqb_refl.
Qed.

Lemma newest_ok k rs s hv acc : kinv k rs -> hv = None \/ hv = Some (bkdr s) -> exists o, match_plain k s hv acc = Ret o /\ newest_exact rs acc s o.
Proof.
  intros HK Hh. rewrite (match_plain_ok k rs s hv acc HK Hh). eexists. split; [reflexivity|]. destruct (find _ (rev rs)) as [[s' d]|] eqn:E; cbn [option_map newest_exact snd].
  - apply find_split in E. destruct E as (l1 & l2 & El & Hf & Hn). cbn [fst snd] in Hf. apply andb_prop in Hf. destruct Hf as [Hp Hf]. apply andb_prop in Hf. destruct Hf as [Hs Ha].
    apply str_eqb_eq in Hs. subst s'. assert (HP : plain s) by (apply has_wildcard_plain; destruct (has_wildcard s); [discriminate|reflexivity]). split; [exact HP|].
    exists (rev l2), (rev l1). split.
    + rewrite <- (rev_involutive rs), El, rev_app_distr. cbn [rev]. rewrite <- app_assoc. reflexivity.
    + split; [exact Ha|]. intros r Hr Er. apply in_rev in Hr. specialize (Hn r Hr). cbn in Hn. rewrite Er, Hp in Hn. cbn [andb] in Hn.
      rewrite (proj2 (str_eqb_eq s s) eq_refl) in Hn. exact Hn.
  - intros r Hr Er HP. assert (Hr' : In r (rev rs)) by (rewrite <- in_rev; exact Hr). pose proof (find_none _ _ E r Hr') as Hf. cbn in Hf. rewrite Er in Hf.
    rewrite (proj2 (has_wildcard_plain s) HP) in Hf. rewrite (proj2 (str_eqb_eq s s) eq_refl) in Hf. exact Hf.
Qed.

(** ** Parents *)
Lemma after_dot_some s : forall s', after_dot s = Some s' -> exists p, s = p ++ 46 :: s' /\ ~ In 46 p.
Proof.
  induction s as [|c s IH]; intros s' H; cbn [after_dot] in H; [discriminate|]. destruct (Z.eqb_spec c 46) as [->|Hc].
  - injection H as ->. exists []. auto.
  - destruct (IH s' H) as (p & -> & Hp). exists (c :: p). split; [reflexivity|]. intros [E|E]; [congruence|auto].
Qed.
Lemma after_dot_none s : after_dot s = None -> ~ In 46 s.
Proof. induction s as [|c s IH]; cbn [after_dot]; intros H; [intros []|]. destruct (Z.eqb_spec c 46) as [Hc|Hc]; [discriminate|]. intros [E|E]; [congruence|]. now apply IH. Qed.
(** Candidates: what follows a dot of [s]. *)
Definition tail_of (d s : list Z) : Prop := exists p, s = p ++ 46 :: d.
Lemma tail_step s d : tail_of d s <-> exists s', after_dot s = Some s' /\ (d = s' \/ tail_of d s').
Proof.
  split.
  - intros (p & E). destruct (after_dot s) as [s'|] eqn:EA.
    + exists s'. split; [reflexivity|]. destruct (after_dot_some s s' EA) as (q & Eq & Hq). rewrite E in Eq. clear EA E. revert q Eq Hq.
      induction p as [|c p IH]; intros [|c' q] Eq Hq; cbn [app] in Eq.
      * left; congruence.
      * exfalso. apply Hq. left. congruence.
      * right. exists p. congruence.
      * injection Eq as Ec Eq. eapply IH; [exact Eq|]. intros HI. apply Hq. right. exact HI.
    + exfalso. apply after_dot_none in EA. apply EA. rewrite E. apply in_app_iff. right. left. reflexivity.
  - intros (s' & EA & H). destruct (after_dot_some s s' EA) as (p & -> & _). destruct H as [->|(q & ->)].
    + exists p. reflexivity.
    + exists (p ++ 46 :: q). rewrite <- app_assoc. reflexivity.
Qed.
Lemma encloses_tail d c s : encloses d (c :: s) <-> d = c :: s \/ tail_of d s.
Proof.
  unfold encloses, tail_of. split; (intros [->|H]; [left; reflexivity|right]).
  - destruct H as ([|x p] & Hp & E); [congruence|]. cbn [app] in E. injection E as _ E. eauto.
  - destruct H as (p & ->). exists (c :: p). split; [discriminate|reflexivity].
Qed.
Lemma tail_length d s : tail_of d s -> (length d < length s)%nat.
Proof. intros (p & ->). rewrite app_length. cbn. lia. Qed.

Lemma newest_some rs acc s r : newest_exact rs acc s None -> In r rs -> fst r = s -> plain (fst r) -> acc (snd r) = false.
Proof. intros H Hr E HP. apply (H r Hr E). rewrite <- E. exact HP. Qed.

Lemma parents_loop_ok k rs acc : kinv k rs -> forall n fuel s, (length s <= n)%nat -> (n < fuel)%nat ->
  exists o, parents_loop fuel k (after_dot s) acc = Ret o /\
    match o with
    | None => forall r, In r rs -> plain (fst r) -> tail_of (fst r) s -> acc (snd r) = false
    | Some d => exists n, tail_of n s /\ newest_exact rs acc n (Some d) /\
        forall r, In r rs -> plain (fst r) -> tail_of (fst r) s -> acc (snd r) = true -> (length (fst r) <= length n)%nat
    end.
Proof.
  intros HK n. induction n as [|n IH]; intros fuel s Hn Hf.
  - destruct s; [|cbn in Hn; lia]. destruct fuel; cbn [after_dot parents_loop]; (exists None; split; [reflexivity|]); intros r _ _ HT; apply tail_length in HT; cbn in HT; lia.
  - destruct fuel as [|fuel]; [lia|]. destruct (after_dot s) as [s'|] eqn:EA; cbn [parents_loop].
    2:{ exists None. split; [reflexivity|]. intros r _ _ HT. apply tail_step in HT. destruct HT as (s' & E & _). congruence. }
    destruct (newest_ok k rs s' None acc HK (or_introl eq_refl)) as (o & HE & HN). rewrite HE. cbn [bind].
    assert (Hs : tail_of s' s) by (apply tail_step; eauto).
    destruct o as [d|].
    + exists (Some d). split; [reflexivity|]. exists s'. split; [exact Hs|]. split; [exact HN|]. intros r _ _ HT _. apply tail_step in HT.
      destruct HT as (s2 & E & HT). assert (s2 = s') by congruence. subst s2. destruct HT as [->|HT]; [lia|]. apply tail_length in HT. lia.
    + pose proof (tail_length _ _ Hs) as Hl. destruct (IH fuel s' ltac:(lia) ltac:(lia)) as (o & HE2 & HO). exists o. split; [exact HE2|]. destruct o as [d|].
      * destruct HO as (m & H1 & H2 & H3). exists m. split; [apply tail_step; eauto|]. split; [exact H2|]. intros r Hr HP HT Ha. apply tail_step in HT.
        destruct HT as (s2 & E & HT). assert (s2 = s') by congruence. subst s2. destruct HT as [E2|HT]; [|auto].
        rewrite (newest_some rs acc s' r HN Hr E2 HP) in Ha. discriminate.
      * intros r Hr HP HT. apply tail_step in HT. destruct HT as (s2 & E & HT). assert (s2 = s') by congruence. subst s2. destruct HT as [E2|HT]; [|auto].
        apply (newest_some rs acc s' r HN Hr E2 HP).
Qed.

Lemma domain_plain_ok stale k rs s hv acc : kinv k rs -> hv = None \/ hv = Some (bkdr s) -> s <> [] ->
  exists o, domain_match_plain stale k s hv acc = Ret o /\ closest rs acc s o.
Proof.
  intros HK Hh Hs. unfold domain_match_plain. destruct (newest_ok k rs s hv acc HK Hh) as (o & HE & HN). rewrite HE. cbn [bind].
  destruct o as [d|].
  - exists (Some d). split; [reflexivity|]. exists s. split; [left; reflexivity|]. split; [exact HN|]. intros r _ _ [->|(p & _ & E)] _; [lia|]. rewrite E, app_length. cbn. lia.
  - destruct s as [|c s]; [congruence|]. destruct (parents_loop_ok k rs acc HK (length s) (S (length (c :: s))) s ltac:(lia) ltac:(cbn; lia)) as (o & HE2 & HO).
    exists o. split; [exact HE2|]. destruct o as [d|]; cbn [closest].
    + destruct HO as (m & H1 & H2 & H3). exists m. split; [apply encloses_tail; auto|]. split; [exact H2|]. intros r Hr HP HT Ha. apply encloses_tail in HT.
      destruct HT as [E|HT]; [|auto]. rewrite (newest_some rs acc _ r HN Hr E HP) in Ha. discriminate.
    + intros r Hr HP HT. apply encloses_tail in HT. destruct HT as [E|HT]; [|auto]. apply (newest_some rs acc _ r HN Hr E HP).
Qed.

(** ** Patterns *)
Lemma filter_split {A} (g : A -> bool) (rs : list A) l1 x l2 : filter g rs = l1 ++ x :: l2 -> exists r1 r2, rs = r1 ++ x :: r2 /\ filter g r1 = l1 /\ filter g r2 = l2 /\ g x = true.
Proof.
  revert l1. induction rs as [|y rs IH]; intros l1 H; cbn [filter] in H; [destruct l1; discriminate|]. destruct (g y) eqn:E.
  - destruct l1 as [|z l1]; cbn [app] in H; injection H as -> H.
    + exists [], rs. auto.
    + destruct (IH l1 H) as (r1 & r2 & -> & H1 & H2 & H3). exists (z :: r1), r2. cbn [app filter]. rewrite E, H1. auto.
  - destruct (IH l1 H) as (r1 & r2 & -> & H1 & H2 & H3). exists (y :: r1), r2. cbn [app filter]. rewrite E, H1. auto.
Qed.
Section Fn.
Context (fn : list Z -> list Z -> bool).
Lemma wild_loop_find l s acc : wild_loop fn l s acc = option_map (fun e : entry V => e_data e) (find (fun e => fn (e_str e) s && acc (e_data e)) l).
Proof. induction l as [|e l IH]; cbn [wild_loop find]; [reflexivity|]. destruct (_ && _); [reflexivity|exact IH]. Qed.
Lemma match_wild_ok k rs s acc : kinv k rs -> first_wild fn rs acc s (match_wild fn k s acc).
Proof.
  intros [_ _ H]. unfold match_wild. rewrite wild_loop_find, H, find_map. cbn [ent e_str e_data].
  destruct (find _ _) as [[p d]|] eqn:E; cbn [option_map first_wild ent e_data snd].
  - apply find_split in E. destruct E as (l1 & l2 & El & Hf & Hn). cbn [fst snd] in Hf. apply andb_prop in Hf. destruct Hf as [Hf Ha].
    destruct (filter_split _ _ _ _ _ El) as (r1 & r2 & -> & H1 & _ & Hw). exists r1, p, r2. split; [reflexivity|]. split; [apply has_wildcard_wild; exact Hw|].
    split; [exact Hf|]. split; [exact Ha|]. intros r Hr HP HF. assert (Hr' : In r l1) by (rewrite <- H1; apply filter_In; split; [exact Hr|apply has_wildcard_wild; exact HP]).
    specialize (Hn r Hr'). cbn in Hn. rewrite HF in Hn. exact Hn.
  - intros r Hr HP HF. pose proof (find_none _ _ E r) as Hn. cbn in Hn. rewrite HF in Hn. apply Hn. apply filter_In. split; [exact Hr|apply has_wildcard_wild; exact HP].
Qed.
End Fn.
Lemma wild_exact_find l s acc : wild_exact_loop l s acc = option_map (fun e : entry V => e_data e) (find (fun e => str_eqb s (e_str e) && acc (e_data e)) l).
Proof. induction l as [|e l IH]; cbn [wild_exact_loop find]; [reflexivity|]. destruct (_ && _); [reflexivity|exact IH]. Qed.
Lemma match_same_ok k rs s acc : kinv k rs -> first_same rs acc s (wild_exact_loop (k_wild k) s acc).
Proof.
  intros [_ _ H]. rewrite wild_exact_find, H, find_map. cbn [ent e_str e_data].
  destruct (find _ _) as [[p d]|] eqn:E; cbn [option_map first_same ent e_data snd].
  - apply find_split in E. destruct E as (l1 & l2 & El & Hf & Hn). cbn [fst snd] in Hf. apply andb_prop in Hf. destruct Hf as [Hf Ha]. apply str_eqb_eq in Hf. subst p.
    destruct (filter_split _ _ _ _ _ El) as (r1 & r2 & -> & H1 & _ & Hw). cbn [fst] in Hw. split; [apply has_wildcard_wild; exact Hw|]. exists r1, r2. split; [reflexivity|].
    split; [exact Ha|]. intros r Hr HF. assert (Hr' : In r l1) by (rewrite <- H1; apply filter_In; split; [exact Hr|rewrite HF; exact Hw]).
    specialize (Hn r Hr'). cbn in Hn. rewrite HF, (proj2 (str_eqb_eq s s) eq_refl) in Hn. exact Hn.
  - intros r Hr HP HF. pose proof (find_none _ _ E r) as Hn. cbn in Hn. rewrite HF, (proj2 (str_eqb_eq s s) eq_refl) in Hn. apply Hn. apply filter_In. split; [exact Hr|].
    rewrite HF. apply has_wildcard_wild; exact HP.
Qed.

Section Fn2.
Context (fn : list Z -> list Z -> bool).
Lemma filter_map_comm {A B} (h : A -> B) (f : B -> bool) l : filter f (map h l) = map h (filter (fun x => f (h x)) l).
Proof. induction l as [|x l IH]; cbn [map filter]; [reflexivity|]. destruct (f (h x)); cbn [map]; rewrite IH; reflexivity. Qed.
Lemma match_wild_one_some k rs s acc rnd d : kinv k rs -> match_wild_one fn k s acc rnd = Some d -> some_wild fn rs acc s d /\ d <> None.
Proof.
  intros [_ _ H]. unfold match_wild_one. rewrite H. cbv zeta.
  set (ms := filter (fun e : entry V => fn (e_str e) s && acc (e_data e)) (map ent (filter (fun r => has_wildcard (fst r)) rs))).
  assert (HM : forall e, In e ms <-> exists r, In r rs /\ e = ent r /\ ~ plain (fst r) /\ fn (fst r) s = true /\ acc (snd r) = true).
  { intros e. unfold ms. rewrite filter_In, in_map_iff. split.
    - intros ((r & <- & Hr) & Hf). apply filter_In in Hr. apply andb_prop in Hf. exists r. repeat split; try tauto. apply has_wildcard_wild. tauto.
    - intros (r & Hr & -> & HP & HF & HA). split; [exists r; split; [reflexivity|]; apply filter_In; split; [exact Hr|apply has_wildcard_wild; exact HP]|].
      cbn [ent e_str e_data]. rewrite HF, HA. reflexivity. }
  set (pm := match filter (fun e : entry V => negb (str_eqb (e_str e) [42])) ms with [] => _ | _ => _ end). intros HE.
  assert (HP : forall e, In e pm -> In e ms /\ (e_str e = [42] -> forall e', In e' ms -> e_str e' = [42])).
  { intros e He. unfold pm in He. destruct (filter (fun e : entry V => negb (str_eqb (e_str e) [42])) ms) as [|e0 l0] eqn:EF.
    - apply filter_In in He. split; [tauto|]. intros _ e' He'. destruct (str_eqb (e_str e') [42]) eqn:E'; [apply str_eqb_eq; exact E'|].
      assert (In e' []) by (rewrite <- EF; apply filter_In; rewrite E'; auto). contradiction.
    - rewrite <- EF in He. apply filter_In in He. destruct He as [He Hne]. split; [exact He|]. intros E. rewrite (proj2 (str_eqb_eq _ _) E) in Hne. discriminate. }
  destruct pm as [|e0 pm']; [discriminate|]. destruct (nth_error _ _) as [e|] eqn:EN; [|discriminate]. apply nth_error_In in EN. destruct (HP e EN) as (HI & HS).
  destruct (e_data e) as [v|] eqn:ED; [|discriminate]. injection HE as <-. split; [|discriminate]. apply HM in HI. destruct HI as (r & Hr & -> & H1 & H2 & H3). cbn [ent e_data e_str] in *.
  exists (fst r). split; [rewrite <- ED, <- surjective_pairing; exact Hr|]. rewrite <- ED. repeat split; auto.
  intros E r' Hr' HP' HF' HA'. apply (HS E (ent r')). apply HM. exists r'. auto.
Qed.
Lemma match_wild_one_none k rs s acc rnd : kinv k rs -> (forall r, In r rs -> snd r <> None) -> match_wild_one fn k s acc rnd = None ->
  forall r, In r rs -> ~ plain (fst r) -> fn (fst r) s = true -> acc (snd r) = false.
Proof.
  intros [_ _ H] HD HE r Hr HP HF. destruct (acc (snd r)) eqn:HA; [|reflexivity]. exfalso. revert HE. unfold match_wild_one. rewrite H. cbv zeta.
  set (ms := filter (fun e : entry V => fn (e_str e) s && acc (e_data e)) (map ent (filter (fun r => has_wildcard (fst r)) rs))).
  assert (HM : In (ent r) ms).
  { unfold ms. apply filter_In. split; [apply in_map, filter_In; split; [exact Hr|apply has_wildcard_wild; exact HP]|]. cbn [ent e_str e_data]. rewrite HF, HA. reflexivity. }
  assert (HD2 : forall e, In e ms -> e_data e <> None).
  { intros e He. unfold ms in He. apply filter_In in He. destruct He as [He _]. apply in_map_iff in He. destruct He as (r' & <- & Hr'). apply filter_In in Hr'. apply HD. tauto. }
  set (pm := match filter (fun e : entry V => negb (str_eqb (e_str e) [42])) ms with [] => _ | _ => _ end).
  assert (HN : pm <> [] /\ forall e, In e pm -> In e ms).
  { unfold pm. destruct (filter (fun e : entry V => negb (str_eqb (e_str e) [42])) ms) as [|e0 l0] eqn:EF.
    - split; [|intros e He; apply filter_In in He; tauto]. intros E. assert (HI : In (ent r) []); [|destruct HI]. destruct (str_eqb (e_str (ent r)) [42]) eqn:ES.
      + rewrite <- E. apply filter_In. auto.
      + rewrite <- EF. apply filter_In. rewrite ES. auto.
    - split; [discriminate|]. rewrite <- EF. intros e He. apply filter_In in He. tauto. }
  destruct HN as [HN HS]. destruct pm as [|e0 pm'] eqn:EP; [congruence|]. destruct (nth_error _ _) as [e|] eqn:EN.
  - apply nth_error_In in EN. specialize (HD2 e (HS e EN)). destruct (e_data e); [discriminate|congruence].
  - apply nth_error_None in EN. pose proof (Nat.mod_upper_bound rnd (length (e0 :: pm'))). cbn [length] in *. lia.
Qed.
Lemma match_wild_one_every k rs s acc d : kinv k rs -> some_wild fn rs acc s d -> d <> None ->
  exists rnd, (rnd < length rs)%nat /\ match_wild_one fn k s acc rnd = Some d.
Proof.
  intros [_ _ H] (p & Hr & HP & HF & HA & HO) Hd. unfold match_wild_one. rewrite H. cbv zeta.
  set (ms := filter (fun e : entry V => fn (e_str e) s && acc (e_data e)) (map ent (filter (fun r => has_wildcard (fst r)) rs))).
  assert (HL : (length ms <= length rs)%nat).
  { unfold ms. assert (Hle : forall A (f : A -> bool) l, (length (filter f l) <= length l)%nat) by (intros A f l; induction l as [|x l IH]; cbn [filter length]; [lia|]; destruct (f x); cbn [length]; lia).
    etransitivity; [apply Hle|]. rewrite map_length. apply Hle. }
  assert (HM : In (ent (p, d)) ms).
  { unfold ms. apply filter_In. split; [apply in_map, filter_In; split; [exact Hr|apply has_wildcard_wild; exact HP]|]. cbn [ent e_str e_data fst snd]. rewrite HF, HA. reflexivity. }
  set (pm := match filter (fun e : entry V => negb (str_eqb (e_str e) [42])) ms with [] => _ | _ => _ end).
  assert (HN : In (ent (p, d)) pm /\ (length pm <= length ms)%nat).
  { assert (Hle : forall A (f : A -> bool) l, (length (filter f l) <= length l)%nat) by (intros A f l; induction l as [|x l IH]; cbn [filter length]; [lia|]; destruct (f x); cbn [length]; lia).
    unfold pm. destruct (filter (fun e : entry V => negb (str_eqb (e_str e) [42])) ms) as [|e0 l0] eqn:EF.
    - split; [|apply Hle]. destruct (str_eqb (e_str (ent (p, d))) [42]) eqn:ES.
      + apply filter_In. auto.
      + assert (HI : In (ent (p, d)) []); [|destruct HI]. rewrite <- EF. apply filter_In. rewrite ES. auto.
    - split; [|rewrite <- EF; apply Hle]. rewrite <- EF. apply filter_In. split; [exact HM|]. destruct (str_eqb (e_str (ent (p, d))) [42]) eqn:ES; [|reflexivity].
      exfalso. apply str_eqb_eq in ES. cbn [ent e_str fst] in ES. assert (He0 : In e0 (e0 :: l0)) by (left; reflexivity). rewrite <- EF in He0. apply filter_In in He0. destruct He0 as (He0 & Hne).
      unfold ms in He0. apply filter_In in He0. destruct He0 as (He0 & Hf0). apply in_map_iff in He0. destruct He0 as (r & <- & Hr0). apply filter_In in Hr0. apply andb_prop in Hf0. cbn [ent e_str e_data] in *.
      rewrite (HO ES r) in Hne; [discriminate|tauto|apply has_wildcard_wild; tauto|tauto|tauto]. }
  destruct HN as (HN & HL2). clearbody pm. apply In_nth_error in HN. destruct HN as (i & Hi). assert (Hl : (i < length pm)%nat) by (apply nth_error_Some; congruence).
  exists i. split; [lia|]. destruct pm as [|e0 pm']; [destruct i; discriminate|]. rewrite Nat.mod_small by exact Hl. rewrite Hi. cbn [ent e_data snd]. destruct d; [reflexivity|congruence].
Qed.

End Fn2.
Lemma chunk_enum_ok k rs : kinv k rs -> map (fun e => (e_str e, e_data e)) (chunk_enum k) = filter (fun r => negb (has_wildcard (fst r))) rs.
Proof.
  intros [H1 H2 H3]. unfold chunk_enum. rewrite (sht_enum_ok (k_plain k) (length (t_nodes (k_plain k))) 0) by lia. cbn [skipn].
  assert (E : map sh_data (t_nodes (k_plain k)) = map snd (map key (t_nodes (k_plain k)))) by (rewrite map_map; reflexivity).
  rewrite E, H2, !map_map. cbn [snd ent e_str e_data]. rewrite <- (map_id (filter _ rs)) at 2. apply map_ext. intros [a b]; reflexivity.
Qed.
End R.
