(** C24, C25, C26: the hash table and the rule sets. *)
From Verif Require Import Base BaseFacts List2Facts Hash_Model Sht_Model Sht_Proofs Chunk_Model Chunk_Spec Chunk_Proofs.
Require Import ZifyBool ZifyNat.

(** C24.  A caller who repeats Find from NULL and keeps the elements a predicate accepts sees exactly the accepted elements ever
    added, the newest first, each once, if all accepted elements were added with the hash of the search: however often the
    table has grown. *)
Theorem C24_finds_all {D} max (adds : list (Z * D)) hash (accept : D -> bool) :
  (forall h d, In (h, d) adds -> accept d = true -> h = hash) ->
  exists l, sht_all (S (length adds)) (sht_of max adds) hash None = Ret l /\ filter accept l = rev (filter accept (map snd adds)) /\
    forall d, In d l -> In d (map snd adds).
Proof.
  intros HA. destruct (sht_of_inv max adds) as (HI & HK). set (t := sht_of max adds) in *.
  assert (HL : length adds = length (t_nodes t)) by (rewrite <- HK, map_length; reflexivity).
  rewrite HL, (sht_all_ok t hash HI), HK. eexists. split; [reflexivity|]. split.
  - rewrite filter_rev. f_equal. generalize (Z.of_nat (length (t_slots t))) as n. clear - HA. intros n. induction adds as [|[h d] adds IH]; cbn [filter map snd fst]; [reflexivity|].
    assert (IH' := IH (fun h' d' HI => HA h' d' (or_intror HI))). clear IH. destruct (Z.eqb_spec (h mod n) (hash mod n)) as [E|E]; cbn [map filter snd].
    + destruct (accept d); rewrite IH'; reflexivity.
    + destruct (accept d) eqn:Ed; [|exact IH']. exfalso. apply E. rewrite (HA h d (or_introl eq_refl) Ed). reflexivity.
  - intros d Hd. apply in_rev in Hd. apply in_map_iff in Hd. destruct Hd as (a & <- & Ha). apply filter_In in Ha. apply in_map. tauto.
Qed.
Print Assumptions C24_finds_all.

(** Enumeration lists all elements in the order in which they were added. *)
Theorem C24_enumeration {D} max (adds : list (Z * D)) : sht_enum (S (length adds)) (sht_of max adds) 0 = map snd adds.
Proof.
  destruct (sht_of_inv max adds) as (HI & HK). set (t := sht_of max adds) in *. clearbody t. subst adds. rewrite map_length.
  rewrite (sht_enum_ok t (length (t_nodes t)) 0) by lia. cbn [skipn]. rewrite map_map. reflexivity.
Qed.
Print Assumptions C24_enumeration.

(** The table does grow: the number of slots is at least a [max]-th of the number of elements. *)
Theorem C24_load {D} max (adds : list (Z * D)) : 0 < max -> Z.of_nat (length adds) <= max * Z.of_nat (length (t_slots (sht_of max adds))).
Proof.
  intros Hm. unfold sht_of.
  assert (G : forall adds pre (t : sht D), sinv t -> t_max t = max -> 0 <= t_left t -> Z.of_nat (length pre) + t_left t <= max * Z.of_nat (length (t_slots t)) ->
    Z.of_nat (length (pre ++ adds)) <= max * Z.of_nat (length (t_slots (fold_left (fun t a => sht_add t (fst a) (snd a)) adds t)))).
  { clear adds. induction adds as [|a adds IH]; intros pre t HI HM HL HS; cbn [fold_left].
    - rewrite app_nil_r. lia.
    - destruct (sht_add_ok t (fst a) (snd a) HI) as (A1 & _ & A3 & A4 & A5). cbv zeta in *.
      replace (pre ++ a :: adds) with ((pre ++ [a]) ++ adds) by (rewrite <- app_assoc; reflexivity).
      pose proof (l_slots _ _ HI) as Hs. apply IH; [exact A1|congruence| |].
      + rewrite A5, HM. destruct (Z.eqb_spec (t_left t) 0); nia.
      + rewrite app_length. cbn [length]. rewrite A4, A5, HM. destruct (Z.eqb_spec (t_left t) 0); nia. }
  apply (G adds [] (sht_init max) (sinv_init max) eq_refl); cbn [t_left t_slots sht_init repeat length]; lia.
Qed.
Print Assumptions C24_load.

Example C24_nonvacuous :
  let adds := map (fun i => (Z.of_nat i * 14 mod 64, i)) (seq 0 80) in
  sht_all 81 (sht_of 5 adds) 28 None = Ret [68; 66; 64; 36; 34; 32; 4; 2; 0]%nat /\ length (t_slots (sht_of 5 adds)) = 28%nat.
Proof. vm_compute. split; reflexivity. Qed.

Section R.
Context {V : Type} (fn : list Z -> list Z -> bool).
Implicit Types (rs : list (list Z * option V)) (acc : option V -> bool).

(** C25.  Domain rules.  Partial: for a name that is not the root. *)
Theorem C25_closest_partial rs acc s hv stale : s <> [] -> hv = None \/ hv = Some (bkdr s) ->
  exists o, domain_match_plain stale (chunk_of_domains rs) s hv acc = Ret o /\ closest (map undotted rs) acc s o.
Proof. intros Hs Hh. rewrite chunk_of_domains_eq. apply domain_plain_ok; auto. apply chunk_of_inv. Qed.

(** Plain rules: the newest rule for exactly this string. *)
Theorem C25_exact rs acc s hv : hv = None \/ hv = Some (bkdr s) ->
  exists o, match_plain (chunk_of rs) s hv acc = Ret o /\ newest_exact rs acc s o.
Proof. intros Hh. apply newest_ok; auto. apply chunk_of_inv. Qed.

(** C26.  Plain rules before patterns, for the four kinds of lookup. *)
Theorem C26_match rs acc s hv : hv = None \/ hv = Some (bkdr s) ->
  exists p w, newest_exact rs acc s p /\ first_wild fn rs acc s w /\
    chunk_match fn (chunk_of rs) s hv acc = Ret (match p with Some d => Some d | None => w end).
Proof.
  intros Hh. destruct (newest_ok _ _ s hv acc (chunk_of_inv rs) Hh) as (p & HE & HN). exists p, (match_wild fn (chunk_of rs) s acc).
  split; [exact HN|]. split; [apply match_wild_ok, chunk_of_inv|]. unfold chunk_match, orelse. rewrite HE. reflexivity.
Qed.
Theorem C26_match_exactly rs acc s hv : hv = None \/ hv = Some (bkdr s) ->
  exists p w, newest_exact rs acc s p /\ first_same rs acc s w /\
    chunk_match_exactly (chunk_of rs) s hv acc = Ret (match p with Some d => Some d | None => w end).
Proof.
  intros Hh. destruct (newest_ok _ _ s hv acc (chunk_of_inv rs) Hh) as (p & HE & HN). eexists p, _.
  split; [exact HN|]. split; [apply match_same_ok, chunk_of_inv|]. unfold chunk_match_exactly, orelse. rewrite HE. reflexivity.
Qed.
Theorem C26_domain_match rs acc s hv stale : s <> [] -> hv = None \/ hv = Some (bkdr s) ->
  exists p w, closest (map undotted rs) acc s p /\ first_wild fn (map undotted rs) acc s w /\
    domain_match fn stale (chunk_of_domains rs) s hv acc = Ret (match p with Some d => Some d | None => w end).
Proof.
  intros Hs Hh. rewrite chunk_of_domains_eq. destruct (domain_plain_ok stale _ _ s hv acc (chunk_of_inv (map undotted rs)) Hh Hs) as (p & HE & HN).
  eexists p, _. split; [exact HN|]. split; [apply (match_wild_ok fn _ _ s acc (chunk_of_inv (map undotted rs)))|]. unfold domain_match, orelse. rewrite HE. reflexivity.
Qed.
(** The random choice is among the matching patterns, "*" only if nothing else matches; there is one if some pattern matches. *)
Theorem C26_domain_match_random rs acc s hv rnd stale : s <> [] -> hv = None \/ hv = Some (bkdr s) -> (forall r, In r rs -> snd r <> None) ->
  exists p w, closest (map undotted rs) acc s p /\
    domain_match_random fn stale (chunk_of_domains rs) s hv acc rnd = Ret (match p with Some d => Some d | None => w end) /\
    match w with
    | Some d => some_wild fn (map undotted rs) acc s d
    | None => forall r, In r (map undotted rs) -> ~ plain (fst r) -> fn (fst r) s = true -> acc (snd r) = false
    end.
Proof.
  intros Hs Hh HD. rewrite chunk_of_domains_eq. destruct (domain_plain_ok stale _ _ s hv acc (chunk_of_inv (map undotted rs)) Hh Hs) as (p & HE & HN).
  exists p, (match_wild_one fn (chunk_of (map undotted rs)) s acc rnd). split; [exact HN|]. split; [unfold domain_match_random, orelse; rewrite HE; reflexivity|].
  destruct (match_wild_one fn (chunk_of (map undotted rs)) s acc rnd) as [d|] eqn:E.
  - eapply match_wild_one_some; [apply chunk_of_inv|exact E].
  - eapply match_wild_one_none; [apply chunk_of_inv| |exact E]. intros r Hr. apply in_map_iff in Hr. destruct Hr as (r' & <- & Hr'). apply (HD r' Hr').
Qed.
(** No matching pattern is left out: some value of rand() below the number of rules chooses it. *)
Theorem C26_random_reaches_all rs acc s hv stale d : s <> [] -> hv = None \/ hv = Some (bkdr s) -> (forall r, In r rs -> snd r <> None) ->
  closest (map undotted rs) acc s None -> some_wild fn (map undotted rs) acc s d ->
  exists rnd, (rnd < length rs)%nat /\ domain_match_random fn stale (chunk_of_domains rs) s hv acc rnd = Ret (Some d).
Proof.
  intros Hs Hh HD HC HW. rewrite chunk_of_domains_eq. destruct (domain_plain_ok stale _ _ s hv acc (chunk_of_inv (map undotted rs)) Hh Hs) as (p & HE & HN).
  assert (p = None) as ->.
  { destruct p as [d'|]; [exfalso|reflexivity]. destruct HN as (n & H1 & (H2 & r1 & r2 & H3 & H4 & _) & _). cbn [closest] in HC.
    assert (Hx : acc d' = false) by (apply (HC (n, d')); [rewrite H3; apply in_or_app; right; left; reflexivity|exact H2|exact H1]). congruence. }
  assert (Hd : d <> None). { destruct HW as (q & Hq & _). apply in_map_iff in Hq. destruct Hq as (r & Er & Hr). specialize (HD r Hr). unfold undotted in Er. injection Er as _ <-. exact HD. }
  destruct (match_wild_one_every fn _ _ s acc d (chunk_of_inv (map undotted rs)) HW Hd) as (rnd & Hl & HM). rewrite map_length in Hl.
  exists rnd. split; [exact Hl|]. unfold domain_match_random, orelse. rewrite HE. cbn [bind]. rewrite HM. reflexivity.
Qed.
(** Enumeration lists the plain rules in order. *)
Theorem C25_enumeration rs : map (fun e => (e_str e, e_data e)) (chunk_enum (chunk_of rs)) = filter (fun r => negb (has_wildcard (fst r))) rs.
Proof. apply chunk_enum_ok, chunk_of_inv. Qed.
End R.
Print Assumptions C25_closest_partial.
Print Assumptions C25_exact.
Print Assumptions C26_match.
Print Assumptions C26_match_exactly.
Print Assumptions C26_domain_match.
Print Assumptions C26_domain_match_random.
Print Assumptions C26_random_reaches_all.
Print Assumptions C25_enumeration.

(** The root name is given the rule of a parent of whatever name was in the buffer before: here google.com. *)
Definition s_com : list Z := [99; 111; 109].
Theorem C25_root_refuted : exists (rs : list (list Z * option nat)) stale o,
  domain_match_plain stale (chunk_of_domains rs) [] None (fun _ => true) = Ret o /\ ~ closest (map undotted rs) (fun _ => true) [] o.
Proof.
  exists [(s_com, Some 1%nat)], [111; 111; 103; 108; 101; 46; 99; 111; 109], (Some (Some 1%nat)). split; [vm_compute; reflexivity|].
  intros (n & [->|(p & _ & E)] & (_ & rs1 & rs2 & E2 & _) & _).
  - destruct rs1 as [|r rs1]; cbn in E2; [discriminate|]. destruct rs1; discriminate.
  - destruct p; discriminate.
Qed.
Print Assumptions C25_root_refuted.

(** www.a.com with rules for com, .a.com (twice), b.com, *.com. *)
Example C25_nonvacuous :
  let rs := [(s_com, Some 1%nat); (46 :: 97 :: 46 :: s_com, Some 2%nat); (98 :: 46 :: s_com, Some 3%nat); (97 :: 46 :: s_com, Some 4%nat); ([42; 46] ++ s_com, Some 5%nat)] in
  let name := [119; 119; 119; 46; 97; 46] ++ s_com in
  domain_match_plain [] (chunk_of_domains rs) name (Some (bkdr name)) (fun _ => true) = Ret (Some (Some 4%nat)) /\
  domain_match_plain [] (chunk_of_domains rs) ([119; 46] ++ s_com) None (fun _ => true) = Ret (Some (Some 1%nat)) /\
  domain_match (fun _ _ => true) [] (chunk_of_domains rs) [119; 46] None (fun _ => true) = Ret (Some (Some 5%nat)) /\
  domain_match_random (fun _ _ => true) [] (chunk_of_domains rs) [119; 46] None (fun d => match d with Some 5%nat => false | _ => true end) 7 = Ret None.
Proof. vm_compute. repeat split. Qed.
(** www.a.com with the patterns *.a.com, * and w*: both of the first and the third are chosen, the second never. *)
Example C26_nonvacuous :
  let rs := [([42; 46; 97; 46] ++ s_com, Some 1%nat); ([42], Some 2%nat); ([119; 42], Some 3%nat)] in
  let name := [119; 119; 119; 46; 97; 46] ++ s_com in
  map (fun rnd => domain_match_random (fun _ _ => true) [] (chunk_of_domains rs) name None (fun _ => true) rnd) [0%nat; 1%nat; 2%nat] =
    [Ret (Some (Some 1%nat)); Ret (Some (Some 3%nat)); Ret (Some (Some 1%nat))] /\
  domain_match_random (fun p _ => str_eqb p [42]) [] (chunk_of_domains rs) name None (fun _ => true) 5 = Ret (Some (Some 2%nat)) /\
  some_wild (fun _ _ => true) (map undotted rs) (fun _ => true) name (Some 3%nat) /\ closest (map undotted rs) (fun _ => true) name None.
Proof.
  cbv zeta. split; [vm_compute; reflexivity|]. split; [vm_compute; reflexivity|]. split.
  - exists [119; 42]. split; [right; right; left; reflexivity|]. split; [intros (H & _); apply H; cbn; auto|]. split; [reflexivity|]. split; [reflexivity|]. discriminate.
  - intros r [<-|[<-|[<-|[]]]] (H & _) _; exfalso; apply H; cbn; auto.
Qed.
