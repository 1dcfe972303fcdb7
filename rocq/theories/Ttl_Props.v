(** C17: CacheControl rules and the lifetime of stored records. *)
From Verif Require Import Base BaseFacts ListFacts List2Facts Hash_Model Sht_Model Chunk_Model Chunk_Spec Chunk_Proofs Chunk_Props Cht_Model Gen_Model Cache_Model Cache_Spec Cache2_Proofs Ttl_Model Ttl_Spec Ttl_Proofs.
Require Import ZifyBool ZifyNat.

(** * The rule for a name is determined *)
Lemma last_unique {A} (P : A -> Prop) l1 x l2 : forall m1 y m2, l1 ++ x :: l2 = m1 ++ y :: m2 -> P x -> P y -> (forall z, In z l2 -> ~ P z) -> (forall z, In z m2 -> ~ P z) -> x = y.
Proof.
  induction l1 as [|a l1 IH]; intros [|b m1] y m2 E Hx Hy Hl Hm; cbn [app] in E; injection E as E1 E2.
  - exact E1.
  - exfalso. apply (Hl y); [|exact Hy]. rewrite E2. apply in_or_app. cbn; auto.
  - exfalso. apply (Hm x); [|exact Hx]. rewrite <- E2. apply in_or_app. cbn; auto.
  - exact (IH m1 y m2 E2 Hx Hy Hl Hm).
Qed.
Lemma first_unique {A} (P : A -> Prop) l1 x l2 : forall m1 y m2, l1 ++ x :: l2 = m1 ++ y :: m2 -> P x -> P y -> (forall z, In z l1 -> ~ P z) -> (forall z, In z m1 -> ~ P z) -> x = y.
Proof.
  induction l1 as [|a l1 IH]; intros [|b m1] y m2 E Hx Hy Hl Hm; cbn [app] in E; injection E as E1 E2.
  - exact E1.
  - exfalso. apply (Hm x); [|exact Hx]. rewrite E1. cbn; auto.
  - exfalso. apply (Hl y); [|exact Hy]. rewrite <- E1. cbn; auto.
  - apply (IH m1 y m2 E2 Hx Hy); intros z Hz; [apply Hl|apply Hm]; cbn; auto.
Qed.
Notation T := (fun _ => true).
Lemma encloses_suffix d s : encloses d s -> exists p, s = p ++ d.
Proof. intros [->|(p & _ & ->)]; [exists []; reflexivity|]. exists (p ++ [46]). rewrite <- app_assoc. reflexivity. Qed.
Lemma suffix_eq (d e s : list Z) : (exists p, s = p ++ d) -> (exists p, s = p ++ e) -> length d = length e -> d = e.
Proof.
  intros (p & Hp) (p' & Hp') H. assert (El : length p = length p') by (apply (f_equal (@length Z)) in Hp, Hp'; rewrite app_length in *; lia).
  rewrite Hp in Hp'. clear Hp. revert p' Hp' El. induction p as [|x p IH]; intros [|y p'] E El; try discriminate; [exact E|]. cbn [app length] in *. injection E as _ E. apply (IH p' E). lia.
Qed.
Lemma newest_in {V} (rs : list (list Z * option V)) s d : newest_exact rs T s (Some d) -> In (s, d) rs /\ plain s.
Proof. intros (Hp & r1 & r2 & -> & _). split; [apply in_or_app; cbn; auto|exact Hp]. Qed.
Lemma closest_unique {V} (rs : list (list Z * option V)) s o1 o2 : closest rs T s o1 -> closest rs T s o2 -> o1 = o2.
Proof.
  intros H1 H2. destruct o1 as [d1|], o2 as [d2|]; [| | |reflexivity].
  - destruct H1 as (n1 & E1 & N1 & M1), H2 as (n2 & E2 & N2 & M2). destruct (newest_in _ _ _ N1) as (I1 & P1), (newest_in _ _ _ N2) as (I2 & P2).
    assert (n1 = n2).
    { apply (suffix_eq n1 n2 s); [now apply encloses_suffix|now apply encloses_suffix|]. pose proof (M1 _ I2 P2 E2 eq_refl) as L1. pose proof (M2 _ I1 P1 E1 eq_refl) as L2. cbn [fst] in *. lia. }
    subst n2. destruct N1 as (_ & a1 & a2 & Ea & _ & Na), N2 as (_ & b1 & b2 & Eb & _ & Nb).
    assert (X : (n1, d1) = (n1, d2)); [|congruence]. rewrite Ea in Eb. eapply (last_unique (fun z => fst z = n1)); [exact Eb|reflexivity|reflexivity| |].
    + intros z Hz Hf. specialize (Na z Hz Hf). discriminate.
    + intros z Hz Hf. specialize (Nb z Hz Hf). discriminate.
  - destruct H1 as (n1 & E1 & N1 & M1). destruct (newest_in _ _ _ N1) as (I1 & P1). specialize (H2 _ I1 P1 E1). discriminate.
  - destruct H2 as (n1 & E1 & N1 & M1). destruct (newest_in _ _ _ N1) as (I1 & P1). specialize (H1 _ I1 P1 E1). discriminate.
Qed.
Lemma wild_unique {V} fn (rs : list (list Z * option V)) s o1 o2 : first_wild fn rs T s o1 -> first_wild fn rs T s o2 -> o1 = o2.
Proof.
  intros H1 H2. destruct o1 as [d1|], o2 as [d2|]; [| | |reflexivity].
  - destruct H1 as (a1 & p & a2 & Ea & Pp & Fp & _ & Na), H2 as (b1 & q & b2 & Eb & Pq & Fq & _ & Nb).
    assert (X : (p, d1) = (q, d2)); [|congruence]. rewrite Ea in Eb. eapply (first_unique (fun z => ~ plain (fst z) /\ fn (fst z) s = true)); [exact Eb|auto|auto| |].
    + intros z Hz (Hf & Hg). specialize (Na z Hz Hf Hg). discriminate.
    + intros z Hz (Hf & Hg). specialize (Nb z Hz Hf Hg). discriminate.
  - destruct H1 as (a1 & p & a2 & Ea & Pp & Fp & _ & Na). assert (X : true = false); [|discriminate X]. apply (H2 (p, d1)); [rewrite Ea; apply in_or_app; cbn; auto|exact Pp|exact Fp].
  - destruct H2 as (a1 & p & a2 & Ea & Pp & Fp & _ & Na). assert (X : true = false); [|discriminate X]. apply (H1 (p, d2)); [rewrite Ea; apply in_or_app; cbn; auto|exact Pp|exact Fp].
Qed.
Lemma option_some_inj {A} (a b : option A) : option_map Some a = option_map Some b -> a = b.
Proof. destruct a, b; cbn; congruence. Qed.
Theorem C17_rule_determined fn rs s o1 o2 : rule_for fn rs s o1 -> rule_for fn rs s o2 -> o1 = o2.
Proof.
  intros (p1 & w1 & P1 & W1 & E1) (p2 & w2 & P2 & W2 & E2). rewrite (closest_unique _ _ _ _ P1 P2), (wild_unique _ _ _ _ _ W1 W2) in E1. apply option_some_inj. congruence.
Qed.
Print Assumptions C17_rule_determined.

(** * Reading the configuration: from the text of the rules to the rule that is found for a name *)
Theorem C17_configured fn stale rs lines override multiple s : Forall2 (fun r l => rule_text r (snd l)) rs lines -> override < 4294967296 -> multiple < 4294967296 -> s <> [] ->
  exists o, rule_for fn (rs ++ global_rule override multiple) s o /\ ctl_get fn stale (ctl_init lines override multiple) s = option_map enc o.
Proof.
  intros H Ho Hm Hs. rewrite (ctl_init_ok rs) by assumption. destruct (get_parts fn stale (rs ++ global_rule override multiple) s Hs) as (p & w & o & Hp & Hw & E & G).
  exists o. split; [|exact G]. exists p, w. auto.
Qed.
Print Assumptions C17_configured.

(** * The lifetime *)
Lemma rule_for_in fn rs s r : rule_for fn rs s (Some r) -> In r rs.
Proof.
  intros (p & w & Hp & Hw & E). cbn [option_map] in E. assert (H : exists x, In x (map undotted (data_of rs)) /\ snd x = Some r).
  { destruct p as [d|].
    - injection E as <-. destruct Hp as (n & _ & Hn & _). destruct (newest_in _ _ _ Hn) as (Hi & _). exists (n, Some r). auto.
    - subst w. destruct Hw as (r1 & q & r2 & E & _). exists (q, Some r). rewrite E. split; [apply in_or_app; cbn; auto|reflexivity]. }
  destruct H as (x & Hx & Es). destruct (data_some _ _ Hx) as (r' & Hr & E'). congruence.
Qed.
Lemma text_small r t : rule_text r t -> small (d_treat r) /\ word (d_domain r).
Proof. intros H. destruct H as [w g0 g1 rest Ht Hd|w a g0 g1 g2 rest Ht Hs Hd]; [|auto]. split; [|exact Hd]. inversion Ht; exact I. Qed.
Lemma all_small rs (lines : list (list Z * list Z * list Z * list Z)) override multiple r : Forall2 (fun r l => rule_text r (snd l)) rs lines -> override < 4294967296 -> multiple < 4294967296 ->
  In r (rs ++ global_rule override multiple) -> small (d_treat r) /\ word (d_domain r).
Proof.
  intros H Ho Hm Hi. apply in_app_or in Hi. destruct Hi as [Hi|Hi].
  - clear - H Hi. induction H as [|x l rs lines Hx _ IH]; [contradiction|]. destruct Hi as [->|Hi]; [eapply text_small; eauto|auto].
  - unfold global_rule in Hi. destruct (Z.ltb_spec (-1) override); [|destruct (Z.ltb_spec 1 multiple)]; [| |contradiction]; destruct Hi as [<-|[]]; cbn [d_treat d_domain small]; (split; [lia|]); (split; [discriminate|]); intros c [<-|[]]; lia.
Qed.
Lemma hex_loop_nodot fuel : forall v, 0 <= v -> ~ In 46 (hex_loop fuel v).
Proof.
  assert (Hd : forall d, 0 <= d -> hex_digit d <> 46) by (intros d; unfold hex_digit; destruct (Z.ltb_spec d 10); lia).
  induction fuel as [|fuel IH]; intros v Hv; cbn [hex_loop]; [tauto|]. destruct (Z.ltb_spec v 16).
  - intros [E|[]]. eapply Hd; eauto.
  - intros Hi. apply in_app_or in Hi. destruct Hi as [Hi|[E|[]]]; [apply (IH (v / 16)); [apply Z.div_pos; lia|exact Hi]|]. apply (Hd (v mod 16)); [apply Z.mod_pos_bound; lia|exact E].
Qed.
(** A domain without a space does not enclose "name type class". *)
Lemma triplet_space d name ty kl : 0 <= ty -> 0 <= kl -> encloses d (triplet name ty kl) -> In 32 d.
Proof.
  intros Ht Hk [->|(p & _ & E)].
  - unfold triplet. apply in_or_app. cbn; auto.
  - unfold triplet in E. destruct (in_dec Z.eq_dec 32 d) as [|Hn]; [assumption|]. exfalso.
    assert (Hs : forall (l : list Z) p m, l ++ 32 :: hex ty ++ 32 :: hex kl = p ++ 46 :: m -> In 32 m).
    { clear - Ht Hk. induction l as [|x l IH]; intros p m E.
      - exfalso. assert (Hi : In 46 (32 :: hex ty ++ 32 :: hex kl)) by (cbn [app] in E; rewrite E; apply in_or_app; cbn; auto).
        destruct Hi as [Hi|Hi]; [discriminate|]. apply in_app_or in Hi. destruct Hi as [Hi|[Hi|Hi]]; [exact (hex_loop_nodot 8 ty Ht Hi)|discriminate|exact (hex_loop_nodot 8 kl Hk Hi)].
      - destruct p as [|y p]; cbn [app] in E; injection E as _ E; [|eapply IH; eauto]. rewrite <- E. apply in_or_app. cbn; auto. }
    apply Hn. eapply Hs. exact E.
Qed.
Lemma undot_space (rs : list drule) x : (forall r, In r rs -> word (d_domain r)) -> In x (map undotted (data_of rs)) -> ~ In 32 (fst x).
Proof.
  intros H Hx Hi. apply in_map_iff in Hx. destruct Hx as (y & <- & Hy). apply in_map_iff in Hy. destruct Hy as (r & <- & Hr). unfold undotted in Hi. cbn [fst] in Hi.
  destruct (H r Hr) as (_ & Hw). destruct (d_domain r) as [|c l]; [destruct Hi|]. apply (fun Hin => proj1 (Hw 32 Hin) eq_refl).
  destruct (Z.eq_dec c 46) as [->|Hc]; [cbn; auto|]. assert (Em : match c :: l with 46 :: s => s | _ => c :: l end = c :: l).
  { destruct c as [|c|c]; try reflexivity. do 6 (destruct c as [c|c|]; try reflexivity). contradiction. }
  rewrite Em in Hi. exact Hi.
Qed.

(** For every configuration, queried domain and record: the lifetime is the documented one for the rule of the queried domain
    and the record's own rule - except that the own rule is only looked for among the patterns, which see "name type class" in
    place of the name, and that numbers are taken modulo 2^32. *)
Theorem C17_lifetime_partial fn stale rs lines override multiple q r :
  Forall2 (fun r l => rule_text r (snd l)) rs lines -> override < 4294967296 -> multiple < 4294967296 -> q <> [] -> rec_ok r ->
  let all := rs ++ global_rule override multiple in let get := ctl_get fn stale (ctl_init lines override multiple) in
  let key := triplet (r_name r) (r_type r) (r_class r) in
  exists rq own, rule_for fn all q rq /\ first_wild fn (map undotted (data_of all)) T key (option_map Some own) /\
    lifetime (choose_rule get (get q) key) (r_ttl r) = (doc_life (select rq own) (r_ttl r)) mod 4294967296.
Proof.
  intros H Ho Hm Hq (_ & Ht & Hk & Hl) all get key. unfold get. rewrite (ctl_init_ok rs) by assumption. fold all.
  destruct (get_parts fn stale all q Hq) as (p & w & rq & Hp & Hw & E & G). assert (Rq : rule_for fn all q rq) by (exists p, w; auto).
  assert (Hkey : key <> []) by (unfold key, triplet; destruct (r_name r); discriminate).
  destruct (get_parts fn stale all key Hkey) as (p' & w' & own & Hp' & Hw' & E' & G'). assert (Ro : rule_for fn all key own) by (exists p', w'; auto).
  assert (Hsm : forall x, In x all -> small (d_treat x) /\ word (d_domain x)) by (intros x Hx; exact (all_small rs lines override multiple x H Ho Hm Hx)).
  assert (p' = None) as ->.
  { destruct p' as [d|]; [|reflexivity]. destruct Hp' as (n & He & Hn & _). destruct (newest_in _ _ _ Hn) as (Hi & _). exfalso.
    apply (undot_space all _ (fun x Hx => proj2 (Hsm x Hx)) Hi). cbn [fst]. eapply triplet_space; [| |exact He]; lia. }
  exists rq, own. split; [exact Rq|]. split; [rewrite E'; exact Hw'|].
  change (chunk_of_domains (enc_of all)) with (chunk_of_domains (enc_of all)). rewrite G, (choose_ok _ rq own key G').
  apply lifetime_ok; [exact Hl|]. intros x n Ex Ef. assert (Hx : In x all).
  { unfold select in Ex. destruct rq as [rq|]; [|subst own; eapply rule_for_in; eauto]. destruct (d_cont rq); [injection Ex as ->; eapply rule_for_in; eauto| |subst own; eapply rule_for_in; eauto].
    destruct own as [own|]; injection Ex as ->; eapply rule_for_in; eauto. }
  specialize (proj1 (Hsm x Hx)). rewrite Ef. cbn [small]. auto.
Qed.
Print Assumptions C17_lifetime_partial.

(** So it is the documented lifetime if the queried domain's rule is actively contagious, or if there is no plain rule for the
    record's name and all patterns treat "name type class" like the name; and the result has 32 bits. *)
Theorem C17_documented_partial fn stale rs lines override multiple q r rq own :
  Forall2 (fun r l => rule_text r (snd l)) rs lines -> override < 4294967296 -> multiple < 4294967296 -> q <> [] -> rec_ok r ->
  let all := rs ++ global_rule override multiple in let get := ctl_get fn stale (ctl_init lines override multiple) in
  let key := triplet (r_name r) (r_type r) (r_class r) in
  rule_for fn all q rq -> rule_for fn all (r_name r) own ->
  (exists x, rq = Some x /\ d_cont x = Actively) \/
  (forall x, In x (map undotted (data_of all)) -> (plain (fst x) -> ~ encloses (fst x) (r_name r)) /\ fn (fst x) key = fn (fst x) (r_name r)) ->
  0 <= doc_life (select rq own) (r_ttl r) < 4294967296 ->
  lifetime (choose_rule get (get q) key) (r_ttl r) = doc_life (select rq own) (r_ttl r).
Proof.
  intros H Ho Hm Hq Hr all get key Rq Ro Hc Hl. destruct (C17_lifetime_partial fn stale rs lines override multiple q r H Ho Hm Hq Hr) as (rq' & own' & Rq' & Ho' & E).
  fold all in Rq', Ho'. fold get in E. fold key in Ho', E. rewrite E. rewrite (C17_rule_determined _ _ _ _ _ Rq' Rq) in *.
  assert (Es : select rq own' = select rq own); [|rewrite Es; apply Z.mod_small; exact Hl].
  destruct Hc as [(x & -> & Hx)|Hc]; [cbn [select]; rewrite Hx; reflexivity|]. assert (own' = own) as ->; [|reflexivity].
  destruct Ro as (p & w & Hp & Hw & Ew). assert (p = None) as ->.
  { destruct p as [d|]; [|reflexivity]. destruct Hp as (n & He & Hn & _). destruct (newest_in _ _ _ Hn) as (Hi & Hpl). exfalso. exact (proj1 (Hc _ Hi) Hpl He). }
  apply option_some_inj. rewrite Ew. eapply wild_unique; [|exact Hw]. destruct (option_map Some own') as [d|].
  - destruct Ho' as (r1 & pt & r2 & Er & Hpt & Hf & _ & Hn). exists r1, pt, r2. split; [exact Er|]. split; [exact Hpt|].
    split; [pose proof (proj2 (Hc (pt, d) ltac:(rewrite Er; apply in_or_app; cbn; auto))) as Hpd; cbn [fst] in Hpd; congruence|]. split; [reflexivity|].
    intros z Hz Hpz Hfz. apply (Hn z Hz Hpz). rewrite (proj2 (Hc z ltac:(rewrite Er; apply in_or_app; auto))). exact Hfz.
  - intros z Hz Hpz Hfz. apply (Ho' z Hz Hpz). rewrite (proj2 (Hc z Hz)). exact Hfz.
Qed.
Print Assumptions C17_documented_partial.

(** * Where the code does something else *)
(** "cdn.net fixed 500": asked for "a.com", the record "cdn.net 60 A ..." should get 500 and keeps 60. *)
Definition wit_rule : drule := mk_rule [99; 100; 110; 46; 110; 101; 116] Actively (Fixed 500).
Definition wit_text : list Z := [99; 100; 110; 46; 110; 101; 116; 32; 102; 105; 120; 101; 100; 32; 53; 48; 48].
Lemma wit_is_text : rule_text wit_rule wit_text.
Proof.
  apply (rt_arg wit_rule [102; 105; 120; 101; 100] [53; 48; 48] [] [32] [32] []); cbn [wit_rule d_treat d_domain d_cont small].
  - apply tt_fixed. change 500 with (10 * (10 * 5 + 0) + 0). change [53; 48; 48] with (([48 + 5] ++ [48 + 0]) ++ [48 + 0]). apply dec_more; [apply dec_more; [apply dec_one|]|]; lia.
  - lia.
  - split; [discriminate|]. intros c Hc. cbn in Hc. lia.
  - cbn; lia.
  - cbn; lia.
  - intros c [].
  - split; [discriminate|]. intros c [<-|[]]; auto.
  - split; [discriminate|]. intros c [<-|[]]; auto.
  - left; reflexivity.
Qed.
Theorem C17_own_rule_refuted fn stale : exists rs lines q r rq own,
  Forall2 (fun r l => rule_text r (snd l)) rs lines /\ rec_ok r /\ rule_for fn rs q rq /\ rule_for fn rs (r_name r) own /\ doc_life (select rq own) (r_ttl r) = 500 /\
  let get := ctl_get fn stale (ctl_init lines (-1) 1) in
  lifetime (choose_rule get (get q) (triplet (r_name r) (r_type r) (r_class r))) (r_ttl r) = 60.
Proof.
  exists [wit_rule], [([], [], [], wit_text)], [97; 46; 99; 111; 109], (mk_rec [99; 100; 110; 46; 110; 101; 116] 1 1 60 [1; 2; 3; 4]), None, (Some wit_rule).
  assert (Hw : plain [99; 100; 110; 46; 110; 101; 116]) by (unfold plain; cbn; lia).
  assert (Hnw : forall s, first_wild fn (map undotted (data_of [wit_rule])) T s None) by (intros s z [<-|[]] Hp; cbn [fst] in Hp; destruct (Hp Hw)).
  split; [constructor; [exact wit_is_text|constructor]|]. split; [unfold rec_ok; cbn; lia|]. split; [|split; [|split; [reflexivity|]]].
  - exists None, None. split; [|split; [apply Hnw|reflexivity]]. intros z [<-|[]] _ He. apply encloses_suffix in He. destruct He as (p & He). apply (f_equal (@length Z)) in He. rewrite app_length in He. cbn in He. lia.
  - exists (Some (Some wit_rule)), None. split; [|split; [apply Hnw|reflexivity]]. exists [99; 100; 110; 46; 110; 101; 116]. split; [left; reflexivity|]. split.
    + split; [exact Hw|]. exists [], []. split; [reflexivity|]. split; [reflexivity|]. intros z [].
    + intros z [<-|[]] _ _ _. cbn. lia.
  - vm_compute. reflexivity.
Qed.
Print Assumptions C17_own_rule_refuted.
(** "vari 2x+200" with a TTL of 2^31 gives 200. *)
Theorem C17_wrap_refuted : exists r ttl, small (d_treat r) /\ 0 <= ttl < 4294967296 /\ doc_life (Some r) ttl = 4294967496 /\ lifetime (Some (enc r)) ttl = 200.
Proof. exists (mk_rule [97] Actively (Vari 2 200)), 2147483648. vm_compute. intuition congruence. Qed.
Print Assumptions C17_wrap_refuted.

(** * Messages *)
(** Adding a message is adding its records one after the other: those that are no question, of class IN and of a cached type,
    with the rule of the queried domain.  A further message of a parallel group adds nothing unless CacheParallel is on. *)
Theorem C17_message fn stale raw ignore parallel k first domain c l : exists l',
  add_items fn stale raw ignore parallel k first domain c l =
    run raw ignore parallel (ctl_get fn stale k) c (map (fun x => OAdd (ctl_get fn stale k domain) (snd (fst x)) (snd x)) l') /\
  (first = false /\ parallel = false -> l' = []) /\
  (first = true \/ parallel = true -> exists f : Z * crec * Z -> bool, l' = filter f l /\ forall x, f x = true <-> kept x).
Proof.
  unfold add_items. destruct first, parallel; cbn [negb andb].
  3:{ exists (filter (fun x : Z * crec * Z => negb (fst (fst x) =? 4) && valid_type (r_type (snd (fst x))) && (r_class (snd (fst x)) =? 1)) l). split; [|split; [intros (_ & E); discriminate|]].
      2:{ intros _. eexists. split; [reflexivity|]. intros [[p r] t]. unfold kept, cached_type, valid_type. cbn [fst snd]. cbn [In]. lia. }
      generalize (ctl_get fn stale k domain). intros inf. revert c. induction l as [|[[p r] t] l IH]; intros c; cbn [items_loop filter fst snd]; [reflexivity|].
      destruct (negb (p =? 4) && valid_type (r_type r) && (r_class r =? 1)); [|apply IH]. cbn [map run run_op fst snd].
      destruct (add_item raw ignore true (ctl_get fn stale k) inf c r t) as [x| | |]; cbn [bind]; [apply IH|reflexivity|reflexivity|reflexivity]. }
  3:{ exists []. split; [reflexivity|]. split; [auto|]. intros [E|E]; discriminate. }
  all: exists (filter (fun x : Z * crec * Z => negb (fst (fst x) =? 4) && valid_type (r_type (snd (fst x))) && (r_class (snd (fst x)) =? 1)) l).
  all: split; [|split; [intros (E & _); discriminate|]].
  all: try (intros _; eexists; split; [reflexivity|]; intros [[p r] t]; unfold kept, cached_type, valid_type; cbn [fst snd]; cbn [In]; lia).
  all: generalize (ctl_get fn stale k domain); intros inf; revert c; induction l as [|[[p r] t] l IH]; intros c; cbn [items_loop filter fst snd]; [reflexivity|].
  all: destruct (negb (p =? 4) && valid_type (r_type r) && (r_class r =? 1)); [|apply IH]; cbn [map run run_op fst snd].
  all: match goal with |- context [add_item ?a ?b ?c ?d ?e ?f ?g ?h] => destruct (add_item a b c d e f g h) as [x| | |] end; cbn [bind]; [apply IH|reflexivity|reflexivity|reflexivity].
Qed.
Print Assumptions C17_message.

(** 'nocache' stores nothing: the cache is what it was. *)
Theorem C17_nocache raw ignore parallel get infected c r now : lifetime (choose_rule get infected (triplet (r_name r) (r_type r) (r_class r))) (r_ttl r) = 0 ->
  rec_ok r -> forall code c', add_item raw ignore parallel get infected c r now = Ret (code, c') -> c' = c.
Proof.
  intros H Hr code c'. unfold add_item. destruct (item_of r) as [e|item] eqn:Ei; [congruence|]. destruct (find_from raw ignore c item None now) as [[i|]| | |]; cbn [bind]; try congruence.
  assert (Ec : cstr item = triplet (r_name r) (r_type r) (r_class r)).
  { unfold item_of in Ei. destruct (Nat.leb 512 _); [discriminate|]. destruct (Nat.leb 512 _); [discriminate|]. destruct (Nat.leb 512 _); [discriminate|].
    destruct (r_data r) as [|d0 d]; [discriminate|]. destruct (Nat.leb 512 _); [discriminate|]. injection Ei as <-. apply Cache_Proofs.cstr_nul. destruct Hr as (Hn & Ht & Hk & _). apply triplet_no_nul; [exact Hn|lia|lia]. }
  rewrite Ec, H. change (0 =? 0) with true. cbn iota. congruence.
Qed.
Print Assumptions C17_nocache.

(** * A case *)
(** The documented example: a passive rule for the queried domain, "*" as the own rule of everything through OverrideTTL. *)
Definition any_star (p s : list Z) : bool := match p with [42] => true | _ => false end.
Definition ex_rule : drule := mk_rule [119; 46; 99; 111; 109] Passively (Vari 2 100).
Definition ex_text : list Z := [119; 46; 99; 111; 109; 32; 36; 118; 97; 114; 105; 32; 50; 120; 43; 49; 48; 48].
Example C17_nonvacuous : let get := ctl_get any_star [] (ctl_init [([], [], [], ex_text); ([], [], [], wit_text)] (-1) 3) in
  get [119; 119; 119; 46; 119; 46; 99; 111; 109] = Some (enc ex_rule) /\ get [120] = Some (enc (mk_rule [42] Passively (Vari 3 0))) /\
  lifetime (choose_rule get (get [119; 46; 99; 111; 109]) (triplet [120] 1 1)) 60 = 180.
Proof. vm_compute. auto. Qed.
Example C17_text_nonvacuous : rule_text ex_rule ex_text.
Proof.
  apply (rt_arg ex_rule [118; 97; 114; 105] [50; 120; 43; 49; 48; 48] [] [32] [32] []); cbn [ex_rule d_treat d_domain d_cont small].
  - apply (tt_vari 2 100 [50] [49; 48; 48]).
    + apply (dec_one 2). lia.
    + change 100 with (10 * (10 * 1 + 0) + 0). change [49; 48; 48] with (([48 + 1] ++ [48 + 0]) ++ [48 + 0]). apply dec_more; [apply dec_more; [apply dec_one|]|]; lia.
  - lia.
  - split; [discriminate|]. intros c Hc. cbn in Hc. lia.
  - cbn; lia.
  - cbn; lia.
  - intros c [].
  - split; [discriminate|]. intros c [<-|[]]; auto.
  - split; [discriminate|]. intros c [<-|[]]; auto.
  - left; reflexivity.
Qed.
