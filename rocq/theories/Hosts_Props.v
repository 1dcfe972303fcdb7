(** C27, C28, C53: the hosts tables. *)
From Verif Require Import Base BaseFacts List2Facts Hash_Model Sht_Model Chunk_Model Chunk_Spec Chunk_Proofs Hosts_Model Hosts_Spec Hosts_Proofs.
Require Import ZifyBool ZifyNat.

Section H.
Context (fn : list Z -> list Z -> bool) (parse : list Z -> ipaddr) (good : list Z -> option (list Z)).

Lemma for_name_eq its name ts : for_name fn its name ts -> ts = for_name_f fn its name.
Proof. intros (o & Ho & ->). rewrite (applies_unique fn its name o Ho). reflexivity. Qed.

(** C27.  Every table can be loaded, and what it says about every name and every type of query is what its lines list:
    - the domain is the name itself, or else the first matching pattern;
    - an alias wins over everything but a CNAME query;
    - an address of the family asked for is used if there is one, an IPv4 address for an IPv6 query if not;
    - a list of addresses is used for an IPv4 query if there is no IPv4 address;
    - of several, the first line counts, then the last one, the last but one and so on.
    Partial: the documentation wants addresses before aliases and the last line to count; words of more than 128
    characters and the list name "<>" are left out. *)
Theorem C27_lookup_partial lines its : listed parse lines its ->
  exists h, hosts_of parse hosts_init lines = Ret h /\
    forall name ts, for_name fn its name ts ->
      (forall qtype, utils_try fn good h name qtype = Ret (result good ts qtype)) /\
      get_cname fn h name = Ret (first alias_of ts) /\
      type_existing fn h name HT_exclude = Ret (match first excl_of ts with Some _ => true | None => false end).
Proof.
  intros HL. destruct (hosts_of_ok parse lines its HL hosts_init [] hinv_init) as (h & E & HI). cbn [app] in HI. exists h. split; [exact E|].
  intros name ts HF. rewrite (for_name_eq its name ts HF). split; [intros; apply utils_try_ok; exact HI|]. split; [apply get_cname_ok; exact HI|].
  rewrite (type_existing_ok fn h its name HT_exclude HI) by discriminate.
  rewrite (first_find excl_of (fun t => ht_eqb (kind t) HT_exclude)) by (intros []; reflexivity).
  destruct (find _ (for_name_f fn its name)) as [t|] eqn:EF; [apply find_kind in EF; destruct t; try discriminate; reflexivity|reflexivity].
Qed.

(** Exactly one domain of the table applies to a name. *)
Theorem C27_domain its name : exists o, applies fn its name o /\ forall o', applies fn its name o' -> o' = o.
Proof. exists (key_for fn its name). split; [apply key_applies|apply applies_unique]. Qed.

(** The clauses of the documentation that hold, each for a table without an alias for the name. *)
Lemma first_none {A} (f : target -> option A) ts : (forall t, In t ts -> f t = None) -> first f ts = None.
Proof. induction ts as [|t ts IH]; intros H; cbn [first]; [reflexivity|]. rewrite (H t) by (cbn; auto). apply IH. intros; apply H; cbn; auto. Qed.
Lemma first_some {A} (f : target -> option A) ts t : In t ts -> f t <> None -> exists t' a, In t' ts /\ f t' = Some a /\ first f ts = Some a.
Proof.
  induction ts as [|t0 ts IH]; intros Ht Hf; [destruct Ht|]. cbn [first]. destruct (f t0) as [a|] eqn:E; [exists t0, a; cbn; auto|].
  destruct Ht as [->|Ht]; [congruence|]. destruct (IH Ht Hf) as (t' & a & H1 & H2 & H3). exists t', a. cbn; auto.
Qed.
Lemma in_considered (t : target) ts : In t (considered ts) <-> In t ts.
Proof. destruct ts as [|x ts]; [reflexivity|]. cbn. rewrite <- in_rev. reflexivity. Qed.
Lemma in_targets its k t : In t (targets its k) <-> In (k, t) its.
Proof.
  unfold targets. rewrite in_map_iff. split.
  - intros ([k2 t2] & <- & H). apply filter_In in H. destruct H as [H E]. cbn in E. apply str_eqb_eq in E. subst. exact H.
  - intros H. exists (k, t). split; [reflexivity|]. apply filter_In. split; [exact H|]. apply str_eqb_eq. reflexivity.
Qed.
Theorem C27_families its name k : applies fn its name (Some k) -> (forall s, ~ In (k, Alias s) its) ->
  exists ts, for_name fn its name ts /\
  (forall a, In (k, V4 a) its -> exists a', In (k, V4 a') its /\ result good ts 1 = T_answer (AN_a (skipn 12 (ip_bytes a')))) /\
  (forall a, In (k, V6 a) its -> exists a', In (k, V6 a') its /\ result good ts 28 = T_answer (AN_aaaa (ip_bytes a'))) /\
  (forall a, In (k, V4 a) its -> (forall b, ~ In (k, V6 b) its) -> exists a', In (k, V4 a') its /\ result good ts 28 = T_answer (AN_aaaa (ip_bytes a'))) /\
  (forall l, In (k, IpList l) its -> (forall a, ~ In (k, V4 a) its) -> exists l', In (k, IpList l') its /\
     result good ts 1 = match good l' with Some b => T_answer (AN_a b) | None => T_none end) /\
  ((forall a, ~ In (k, V4 a) its) -> (forall a, ~ In (k, V6 a) its) -> result good ts 28 = T_none) /\
  (forall q, q <> 1 -> q <> 28 -> q <> 5 -> result good ts q = T_none).
Proof.
  intros HA HN. exists (considered (targets its k)). split; [exists (Some k); auto|]. set (ts := considered (targets its k)).
  assert (HT : forall t, In t ts <-> In (k, t) its) by (intros t; unfold ts; rewrite in_considered; apply in_targets).
  assert (H0 : first alias_of ts = None). { apply first_none. intros t Ht. apply HT in Ht. destruct t; try reflexivity. exfalso. eapply HN. exact Ht. }
  unfold result. rewrite H0. cbn [Z.eqb Pos.eqb].
  split; [|split; [|split; [|split; [|split]]]].
  - intros a Ha. apply HT in Ha. destruct (first_some v4_of ts _ Ha ltac:(discriminate)) as (t' & a' & H1 & H2 & H3). rewrite H3. destruct t'; try discriminate. injection H2 as ->. exists a'. apply HT in H1. auto.
  - intros a Ha. apply HT in Ha. destruct (first_some v6_of ts _ Ha ltac:(discriminate)) as (t' & a' & H1 & H2 & H3). rewrite H3. destruct t'; try discriminate. injection H2 as ->. exists a'. apply HT in H1. auto.
  - intros a Ha H6. apply HT in Ha. destruct (first_some v4_of ts _ Ha ltac:(discriminate)) as (t' & a' & H1 & H2 & H3). rewrite H3. destruct t'; try discriminate. injection H2 as ->. exists a'. apply HT in H1.
    rewrite first_none; [auto|]. intros t Ht. apply HT in Ht. destruct t; try reflexivity. exfalso. eapply H6. exact Ht.
  - intros l Hl H4. apply HT in Hl. destruct (first_some list_of ts _ Hl ltac:(discriminate)) as (t' & l' & H1 & H2 & H3). destruct t'; try discriminate. injection H2 as ->. exists l'. apply HT in H1. split; [exact H1|].
    rewrite (first_none v4_of). 2:{ intros t Ht. apply HT in Ht. destruct t; try reflexivity. exfalso. eapply H4. exact Ht. }
    rewrite H3. destruct (good l'); reflexivity.
  - intros H4 H6. rewrite (first_none v6_of), (first_none v4_of); [reflexivity| |]; intros t Ht; apply HT in Ht; destruct t; try reflexivity; exfalso; [eapply H4|eapply H6]; exact Ht.
  - intros q Q1 Q2 Q3. destruct (Z.eqb_spec q 5), (Z.eqb_spec q 1), (Z.eqb_spec q 28); congruence.
Qed.

(** C28.  The two tables: refused if the option is set, the query is for IPv6 and one of the tables has an IPv4 address or list;
    otherwise nothing if one of the tables excludes the name; otherwise the first table's result or else the second's. *)
Definition has {A} (f : target -> option A) (ts1 ts2 : list target) : Prop := exists t, In t (ts1 ++ ts2) /\ f t <> None.
Lemma opt_ok h lines name ts ty : table_is parse h lines -> says fn parse lines name ts -> ty <> HT_unknown -> ty <> HT_aaaa ->
  opt_exist fn h name ty = Ret (match find (fun t => ht_eqb (kind t) ty) ts with Some _ => true | None => false end) /\
  (forall q, opt_try fn good h name q = Ret (result good ts q)) /\ opt_cname fn h name = Ret (first alias_of ts).
Proof.
  destruct h as [h|], lines as [ls|]; cbn [table_is says]; try contradiction.
  - intros E (its & HL & HF) H1 H2. destruct (hosts_of_ok parse ls its HL hosts_init [] hinv_init) as (h' & E' & HI). cbn [app] in HI. assert (h' = h) by congruence. subst h'.
    rewrite (for_name_eq its name ts HF). cbn [opt_exist opt_try opt_cname]. split; [apply type_existing_ok; auto|]. split; [intros; apply utils_try_ok; auto|apply get_cname_ok; auto].
  - intros _ -> _ _. cbn [opt_exist opt_try opt_cname find first]. split; [reflexivity|]. split; [|reflexivity]. intros q. unfold result. cbn. destruct (q =? 5), (q =? 1), (q =? 28); reflexivity.
Qed.
Lemma both_exist_ok st dy l1 l2 name ts1 ts2 ty : table_is parse st l1 -> table_is parse dy l2 -> says fn parse l1 name ts1 -> says fn parse l2 name ts2 ->
  ty <> HT_unknown -> ty <> HT_aaaa -> exists b, both_exist fn st dy name ty = Ret b /\ (b = true <-> exists t, In t (ts1 ++ ts2) /\ kind t = ty).
Proof.
  intros T1 T2 S1 S2 H1 H2. unfold both_exist. destruct (opt_ok st l1 name ts1 ty T1 S1 H1 H2) as (-> & _). destruct (opt_ok dy l2 name ts2 ty T2 S2 H1 H2) as (-> & _). cbn [bind].
  destruct (find _ ts1) as [t|] eqn:E1; [|destruct (find _ ts2) as [t|] eqn:E2]; eexists; (split; [reflexivity|]).
  - split; [|reflexivity]. intros _. exists t. split; [apply in_or_app; left; apply find_some in E1; tauto|apply find_kind in E1; exact E1].
  - split; [|reflexivity]. intros _. exists t. split; [apply in_or_app; right; apply find_some in E2; tauto|apply find_kind in E2; exact E2].
  - split; [discriminate|]. intros (t & Ht & Hk). exfalso. apply in_app_or in Ht. destruct Ht as [Ht|Ht]; [apply (find_none _ _ E1) in Ht|apply (find_none _ _ E2) in Ht]; rewrite Hk in Ht; destruct ty; discriminate.
Qed.
Lemma has_kind {A} (f : target -> option A) ty ts1 ts2 : (forall t, f t <> None <-> kind t = ty) -> (has f ts1 ts2 <-> exists t, In t (ts1 ++ ts2) /\ kind t = ty).
Proof. intros H. unfold has. split; intros (t & H1 & H2); exists t; split; auto; apply H; exact H2. Qed.
Theorem C28_two_tables st dy l1 l2 name ts1 ts2 block6 qtype :
  table_is parse st l1 -> table_is parse dy l2 -> says fn parse l1 name ts1 -> says fn parse l2 name ts2 ->
  exists r, hosts_try fn good block6 st dy name qtype = Ret r /\
    (r = T_blocked <-> block6 = true /\ qtype = 28 /\ (has v4_of ts1 ts2 \/ has list_of ts1 ts2)) /\
    (r <> T_blocked -> has excl_of ts1 ts2 -> r = T_none) /\
    (r <> T_blocked -> ~ has excl_of ts1 ts2 -> r = match result good ts1 qtype with T_none => result good ts2 qtype | r1 => r1 end).
Proof.
  intros T1 T2 S1 S2. unfold hosts_try.
  destruct (both_exist_ok st dy l1 l2 name ts1 ts2 HT_a T1 T2 S1 S2 ltac:(discriminate) ltac:(discriminate)) as (b4 & -> & B4).
  destruct (both_exist_ok st dy l1 l2 name ts1 ts2 HT_good T1 T2 S1 S2 ltac:(discriminate) ltac:(discriminate)) as (bl & -> & BL).
  destruct (both_exist_ok st dy l1 l2 name ts1 ts2 HT_exclude T1 T2 S1 S2 ltac:(discriminate) ltac:(discriminate)) as (bx & -> & BX).
  rewrite <- (has_kind v4_of) in B4 by (intros []; cbn; split; congruence).
  rewrite <- (has_kind list_of) in BL by (intros []; cbn; split; congruence).
  rewrite <- (has_kind excl_of) in BX by (intros []; cbn; split; congruence).
  assert (HR : try_inner fn good st dy name qtype = Ret (match result good ts1 qtype with T_none => result good ts2 qtype | r1 => r1 end)).
  { unfold try_inner. destruct (opt_ok st l1 name ts1 HT_a T1 S1 ltac:(discriminate) ltac:(discriminate)) as (_ & E1 & _). destruct (opt_ok dy l2 name ts2 HT_a T2 S2 ltac:(discriminate) ltac:(discriminate)) as (_ & E2 & _).
    rewrite E1, E2. cbn [bind]. destruct (result good ts1 qtype); reflexivity. }
  rewrite HR.
  assert (NB : forall ts, result good ts qtype <> T_blocked).
  { intros ts. unfold result. destruct (qtype =? 5); [destruct (first alias_of ts); discriminate|]. destruct (first alias_of ts); [discriminate|].
    destruct (qtype =? 1); [destruct (first v4_of ts); [discriminate|]; destruct (first list_of ts) as [l|]; [destruct (good l); discriminate|discriminate]|].
    destruct (qtype =? 28); [|discriminate]. destruct (first v6_of ts), (first v4_of ts); discriminate. }
  assert (NB2 : (match result good ts1 qtype with T_none => result good ts2 qtype | r1 => r1 end) <> T_blocked).
  { pose proof (NB ts1). pose proof (NB ts2). destruct (result good ts1 qtype); auto. }
  assert (HE : exists b, (if block6 && (qtype =? 28) then let! a := Ret b4 in if a : bool then Ret true else Ret bl else Ret false) = Ret b /\
    (b = true <-> block6 = true /\ qtype = 28 /\ (has v4_of ts1 ts2 \/ has list_of ts1 ts2))).
  { destruct block6; cbn [andb]; [destruct (Z.eqb_spec qtype 28) as [->|Hq]; [destruct b4; cbn [bind]|]|]; eexists; (split; [reflexivity|]); rewrite <- ?B4, <- ?BL; intuition congruence. }
  destruct HE as (b & -> & Hb). cbn [bind]. destruct b.
  - eexists. split; [reflexivity|]. split; [tauto|]. split; congruence.
  - destruct bx; eexists; (split; [reflexivity|]).
    + split; [split; [discriminate|]; intros H; apply Hb in H; discriminate|]. split; [reflexivity|]. intros _ H. exfalso. apply H, BX. reflexivity.
    + split; [split; [intros H; exfalso; exact (NB2 H)|]; intros H; apply Hb in H; discriminate|]. split; [intros _ H; apply BX in H; discriminate|reflexivity].
Qed.
(** The alias that is followed: the first table's or else the second's. *)
Theorem C28_alias st dy l1 l2 name ts1 ts2 :
  table_is parse st l1 -> table_is parse dy l2 -> says fn parse l1 name ts1 -> says fn parse l2 name ts2 ->
  both_cname fn st dy name = Ret (match first alias_of ts1 with Some s => Some s | None => first alias_of ts2 end).
Proof.
  intros T1 T2 S1 S2. unfold both_cname. destruct (opt_ok st l1 name ts1 HT_a T1 S1 ltac:(discriminate) ltac:(discriminate)) as (_ & _ & ->).
  destruct (opt_ok dy l2 name ts2 HT_a T2 S2 ltac:(discriminate) ltac:(discriminate)) as (_ & _ & ->). cbn [bind]. destruct (first alias_of ts1); reflexivity.
Qed.
End H.
Print Assumptions C27_lookup_partial.
Print Assumptions C27_domain.
Print Assumptions C27_families.
Print Assumptions C28_two_tables.
Print Assumptions C28_alias.

(** Examples: a parser that is good enough for them, "a.b" as pattern-free names. *)
Definition ex_parse (s : list Z) : ipaddr := mk_ip (repeat 0 12 ++ firstn 4 (s ++ [0; 0; 0; 0])) 0.
Definition ex_fn (p s : list Z) : bool := true.
Definition l_v4 : list Z := [49; 46; 49; 32; 97; 46; 98].        (* "1.1 a.b" *)
Definition l_v4b : list Z := [50; 46; 50; 32; 32; 97; 46; 98].   (* "2.2  a.b" *)
Definition l_alias : list Z := [99; 46; 100; 32; 97; 46; 98].    (* "c.d a.b" *)
Definition l_excl : list Z := [64; 64; 32; 97; 46; 98].          (* "@@ a.b" *)
Definition ab : list Z := [97; 46; 98].
Ltac two a b := exists [], a, b; split; [reflexivity|];
  split; [unfold word; split; [discriminate|]; split; [cbn; lia|]; intros c Hc; cbn in Hc; unfold blank; intuition lia|];
  split; [unfold word; split; [discriminate|]; split; [cbn; lia|]; intros c Hc; cbn in Hc; unfold blank; intuition lia|];
  split; [intros c []|]; split; [discriminate|]; split; [intros c Hc; cbn in Hc; unfold blank; intuition lia|exact I].
Lemma l_v4_words : two_words l_v4 [49; 46; 49] ab. Proof. two [32] (@nil Z). Qed.
Lemma l_v4b_words : two_words l_v4b [50; 46; 50] ab. Proof. two [32; 32] (@nil Z). Qed.
Lemma l_alias_words : two_words l_alias [99; 46; 100] ab. Proof. two [32] (@nil Z). Qed.
Lemma l_excl_words : two_words l_excl [64; 64] ab. Proof. two [32] (@nil Z). Qed.
Lemma reads_11 : reads ex_parse [49; 46; 49] (V4 (ex_parse [49; 46; 49])).
Proof. apply R_v4; [unfold digit; lia|cbn; intuition lia|]. intros x Hx. cbn in Hx. unfold letter. intuition lia. Qed.
Lemma reads_22 : reads ex_parse [50; 46; 50] (V4 (ex_parse [50; 46; 50])).
Proof. apply R_v4; [unfold digit; lia|cbn; intuition lia|]. intros x Hx. cbn in Hx. unfold letter. intuition lia. Qed.
Lemma reads_cd : reads ex_parse [99; 46; 100] (Alias [99; 46; 100]).
Proof. apply (R_alias_hex _ 99 _ 100); [unfold hexdigit; lia|cbn; intuition lia|cbn; auto|unfold letter; lia]. Qed.

(** Documented, but not what happens: "the LIFO item is return" (default.en.config 270): two addresses, the first is used. *)
Theorem C27_lifo_refuted : exists lines its h a b,
  listed ex_parse lines its /\ its = [(ab, V4 a); (ab, V4 b)] /\ hosts_of ex_parse hosts_init lines = Ret h /\
  utils_try ex_fn (fun _ => None) h ab 1 = Ret (T_answer (AN_a (skipn 12 (ip_bytes a)))) /\ skipn 12 (ip_bytes a) <> skipn 12 (ip_bytes b).
Proof.
  exists [l_v4; l_v4b], [(ab, V4 (ex_parse [49; 46; 49])); (ab, V4 (ex_parse [50; 46; 50]))]. eexists _, _, _.
  split; [eapply L_item; [exact l_v4_words|exact reads_11|]; eapply L_item; [exact l_v4b_words|exact reads_22|]; apply L_nil|].
  split; [reflexivity|]. split; [vm_compute; reflexivity|]. split; [vm_compute; reflexivity|]. vm_compute. discriminate.
Qed.
(** Documented, but not what happens: addresses come before aliases (default.en.config 294-302). *)
Theorem C27_alias_priority_refuted : exists lines its h a s,
  listed ex_parse lines its /\ its = [(ab, V4 a); (ab, Alias s)] /\ hosts_of ex_parse hosts_init lines = Ret h /\
  utils_try ex_fn (fun _ => None) h ab 1 = Ret T_recursed.
Proof.
  exists [l_v4; l_alias], [(ab, V4 (ex_parse [49; 46; 49])); (ab, Alias [99; 46; 100])]. eexists _, _, _.
  split; [eapply L_item; [exact l_v4_words|exact reads_11|]; eapply L_item; [exact l_alias_words|exact reads_cd|]; apply L_nil|].
  split; [reflexivity|]. split; [vm_compute; reflexivity|]. vm_compute. reflexivity.
Qed.
(** A first word of more than 128 characters is not reported: its end is taken for the domain. *)
Theorem C27_long_word_refuted : exists line h, line = repeat 99 130 ++ [32] ++ ab /\ hosts_of ex_parse hosts_init [line] = Ret h /\
  get_cname ex_fn h [99; 99] = Ret (Some (repeat 99 128)) /\ get_cname (fun _ _ => false) h ab = Ret None.
Proof. eexists _, _. split; [reflexivity|]. split; [vm_compute; reflexivity|]. split; vm_compute; reflexivity. Qed.
Print Assumptions C27_lifo_refuted.
Print Assumptions C27_alias_priority_refuted.
Print Assumptions C27_long_word_refuted.

Example C27_nonvacuous : exists its h, listed ex_parse [l_v4; l_v4b; l_excl; [32]; [33; 32; 97]] its /\ length its = 3%nat /\
  hosts_of ex_parse hosts_init [l_v4; l_v4b; l_excl; [32]; [33; 32; 97]] = Ret h /\
  utils_try ex_fn (fun _ => None) h ab 28 = Ret (T_answer (AN_aaaa (repeat 0 12 ++ [49; 46; 49; 0]))).
Proof.
  eexists _, _. split; [|split; [|split; [vm_compute; reflexivity|vm_compute; reflexivity]]].
  - eapply L_item; [exact l_v4_words|exact reads_11|]. eapply L_item; [exact l_v4b_words|exact reads_22|]. eapply L_item; [exact l_excl_words|apply R_excl|].
    apply L_short; [left; intros c [<-|[]]; unfold blank; lia|]. eapply (L_bad _ [33; 32; 97] [33] [97]).
    + two [32] (@nil Z).
    + exists 33, []. split; [reflexivity|]. unfold hexdigit, letter, digit. split; [lia|]. split; [lia|]. split; [exists 33; split; [cbn; auto|lia]|]. split; [lia|]. intros (w & E). discriminate.
    + apply L_nil.
  - reflexivity.
Qed.
Example C28_nonvacuous : exists st dy ts1 ts2,
  table_is ex_parse (Some st) (Some [l_v4]) /\ table_is ex_parse (Some dy) (Some [l_alias]) /\
  says ex_fn ex_parse (Some [l_v4]) ab ts1 /\ says ex_fn ex_parse (Some [l_alias]) ab ts2 /\
  hosts_try ex_fn (fun _ => None) true (Some st) (Some dy) ab 28 = Ret T_blocked /\
  hosts_try ex_fn (fun _ => None) false (Some st) (Some dy) ab 1 = Ret (T_answer (AN_a [49; 46; 49; 0])) /\
  hosts_try ex_fn (fun _ => None) false (Some st) (Some dy) ab 5 = Ret (T_answer (AN_cname [99; 46; 100])).
Proof.
  eexists _, _, _, _. split; [vm_compute; reflexivity|]. split; [vm_compute; reflexivity|]. split; [|split; [|split; [|split]; vm_compute; reflexivity]].
  - exists [(ab, V4 (ex_parse [49; 46; 49]))]. split; [eapply L_item; [exact l_v4_words|exact reads_11|apply L_nil]|]. eexists. split; [apply (key_applies ex_fn)|reflexivity].
  - exists [(ab, Alias [99; 46; 100])]. split; [eapply L_item; [exact l_alias_words|exact reads_cd|apply L_nil]|]. eexists. split; [apply (key_applies ex_fn)|reflexivity].
Qed.

(** C53.  Letter case.  Names of queries are in lower case (IHeader_Fill).  A domain that is written in lower case works
    (C27); one with a capital letter never applies to any query by itself. *)
Definition no_capital (s : list Z) : Prop := forall c, In c s -> ~ (65 <= c <= 90).
Theorem C53_capitals_never_apply fn its name k t : no_capital name -> In (k, t) its -> plain k -> ~ no_capital k -> ~ applies fn its name (Some k).
Proof. intros Hn Hi Hp Hc [(-> & _)|(_ & H & _)]; auto. Qed.
Print Assumptions C53_capitals_never_apply.
(** A question spelled in any way finds a domain written in lower case. *)
Theorem C53_lower_case_partial fn its query k t : k = str_to_lower query -> plain k -> In (k, t) its -> applies fn its (str_to_lower query) (Some k).
Proof. intros -> HP HI. left. eauto. Qed.
Print Assumptions C53_lower_case_partial.
(** The line "1.1 A.b" does not answer a question for A.b (nor a.b). *)
Theorem C53_case_refuted : exists line h, line = [49; 46; 49; 32; 65; 46; 98] /\ hosts_of ex_parse hosts_init [line] = Ret h /\
  utils_try (fun _ _ => false) (fun _ => None) h (str_to_lower [65; 46; 98]) 1 = Ret T_none.
Proof. eexists _, _. split; [reflexivity|]. split; vm_compute; reflexivity. Qed.
Print Assumptions C53_case_refuted.
Example C53_nonvacuous : exists h, hosts_of ex_parse hosts_init [l_v4] = Ret h /\ plain ab /\
  utils_try (fun _ _ => false) (fun _ => None) h (str_to_lower [65; 46; 98]) 1 = Ret (T_answer (AN_a [49; 46; 49; 0])).
Proof. eexists. split; [vm_compute; reflexivity|]. split; [unfold plain, ab; cbn; intuition lia|]. vm_compute. reflexivity. Qed.
