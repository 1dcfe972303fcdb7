(** C45: the filter refuses exactly the disabled types and domains. *)
From Verif Require Import Base BaseFacts Hash_Model Addr_Model Bst_Model Bst_Spec Bst_Props Sht_Model Chunk_Model Chunk_Spec Chunk_Proofs Chunk_Props Slist_Proofs Slist_Props Line_Model Line_Props Filter_Model.
Require Import ZifyBool ZifyNat.

(** * Specification *)
(** The numbers listed; a text that is no number repeats the number before it (at first: what is on the stack). *)
Fixpoint listed (cur : Z) (items : list (list Z)) : list Z :=
  match items with [] => [] | x :: r => let n := match scan_d x with Some (v, _) => to_int32 v | None => cur end in n :: listed n r end.
(** The rules listed: those of the option, then the lines of each file that can be opened. *)
Definition file_rules (fs : list (option (list Z))) : list (list Z) := flat_map (fun f => match f with Some bs => content bs | None => [] end) fs.
(** One leading dot of a rule does not count. *)
Definition undot (d : list Z) : list Z := match d with 46 :: s => s | _ => d end.
(** The rule covers the name: it is the name or an enclosing domain, or a pattern that matches. *)
Definition covers (fn : list Z -> list Z -> bool) (name d : list Z) : Prop := Chunk_Spec.plain (undot d) /\ encloses (undot d) name \/ ~ Chunk_Spec.plain (undot d) /\ fn (undot d) name = true.
Definition in_range (x : Z) : Prop := -1073741824 <= x < 1073741824.
Definition file_ok (f : option (list Z)) : Prop := match f with Some bs => Forall (line_ok 512) (file_lines bs) /\ end_ok bs | None => True end.

Lemma type_orders : orders type_compare in_range.
Proof.
  assert (E : forall x y, in_range x -> in_range y -> type_compare x y = x - y).
  { intros x y Hx Hy. unfold in_range in *. unfold type_compare, to_int32, u32. cbv zeta. assert (H : (x - y) mod 4294967296 = x - y \/ x - y < 0 /\ (x - y) mod 4294967296 = x - y + 4294967296).
    { destruct (Z.lt_ge_cases (x - y) 0) as [H|H]; [right; split; [exact H|]; rewrite <- (Z.mod_small (x - y + 4294967296) 4294967296) by lia; rewrite <- (Z_mod_plus_full (x - y) 1 4294967296); f_equal; lia|left; apply Z.mod_small; lia]. }
    destruct ((x - y) mod 4294967296 <? 2147483648) eqn:E; lia. }
  split; [intros x y Hx Hy|intros x y z Hx Hy Hz]; rewrite !E by assumption; lia.
Qed.
Lemma types_loop_ok items : forall cur b live, additions type_compare in_range b live -> Forall in_range (listed cur items) -> exists b' live', types_loop cur b items = Ret b' /\ additions type_compare in_range b' live' /\ forall x, In x (map snd live') <-> In x (map snd live) \/ In x (listed cur items).
Proof.
  induction items as [|x items IH]; intros cur b live HA HF; cbn [types_loop listed]; [exists b, live; split; [reflexivity|]; split; [exact HA|]; intros y; cbn [In]; tauto|]. cbv zeta in *. cbn [listed] in HF. set (n := match scan_d x with Some (v, _) => to_int32 v | None => cur end) in *. inversion HF as [|? ? Hn HF']; subst.
  assert (HH : history type_compare in_range b live) by (clear -HA; induction HA; econstructor; eassumption). destruct (C20_contents _ _ _ _ _ HH) as (_ & _ & HD & _). destruct (HD n) as (a & b1 & E & _). rewrite E. cbn [bind snd]. destruct (IH n b1 ((a, n) :: live)) as (b' & live' & E' & HA' & HI); [econstructor; eassumption|exact HF'|].
  exists b', live'. split; [exact E'|]. split; [exact HA'|]. intros y. rewrite HI. cbn [map snd In]. tauto.
Qed.
Lemma additions_history {D} (cmp : D -> D -> Z) P b live : additions cmp P b live -> history cmp P b live.
Proof. intros HA. induction HA; econstructor; eassumption. Qed.
Lemma disabled_type_ok n0 items type : in_range type -> Forall in_range (listed n0 items) -> exists t r, types_init n0 items = Ret t /\ is_disabled_type t type = Ret r /\ (r = true <-> In type (listed n0 items)).
Proof.
  intros Ht HF. unfold types_init. destruct items as [|x items']; [exists None, false; split; [reflexivity|]; split; [reflexivity|]; cbn; split; [discriminate|intros []]|]. set (items := x :: items') in *.
  destruct (types_loop_ok items n0 bst_init [] ltac:(constructor) HF) as (b & live & -> & HA & HI). cbn [bind]. exists (Some b). cbn [is_disabled_type]. destruct (C20_search _ _ _ _ _ type (additions_history _ _ _ _ HA)) as (o & -> & H1 & H2). cbn [bind]. eexists. split; [reflexivity|]. split; [reflexivity|].
  assert (HP : forall a d, In (a, d) live -> in_range d). { intros a d Hd. assert (X : In d (map snd live)) by (apply (in_map snd) in Hd; exact Hd). apply HI in X. destruct X as [[]|X]. rewrite Forall_forall in HF. apply HF, X. }
  assert (E0 : forall d, in_range d -> (type_compare type d = 0 <-> type = d)). { intros d Hd. unfold in_range in *. unfold type_compare, to_int32, u32. cbv zeta. split; [|intros ->; rewrite Z.sub_diag; reflexivity]. intros E. destruct ((type - d) mod 4294967296 <? 2147483648) eqn:Q; [|pose proof (Z.mod_pos_bound (type - d) 4294967296 ltac:(lia)); lia]. pose proof (Z.div_mod (type - d) 4294967296 ltac:(lia)). lia. }
  destruct o as [a|].
  - split; [intros _|reflexivity]. destruct (H1 a eq_refl) as (d & Hd & Hc). apply (E0 d (HP _ _ Hd)) in Hc. subst d. assert (X : In type (map snd live)) by (apply (in_map snd) in Hd; exact Hd). apply HI in X. destruct X as [[]|X]. exact X.
  - split; [discriminate|]. intros X. assert (Y : In type (map snd live)) by (apply HI; right; exact X). apply in_map_iff in Y. destruct Y as ((a & d) & Ed & Hd). cbn [snd] in Ed. subst d. exfalso. apply (H2 type_orders Ht eq_refl a type Hd). apply (E0 type Ht). reflexivity.
Qed.
Definition as_rules (ds : list (list Z)) : list (list Z * option unit) := map (fun d => (d, None)) ds.
Lemma load_list_ok ds2 : forall ds1, load_list (chunk_of_domains (as_rules ds1)) ds2 = chunk_of_domains (as_rules (ds1 ++ ds2)).
Proof.
  induction ds2 as [|d ds2 IH]; intros ds1; [rewrite app_nil_r; reflexivity|]. unfold load_list in *. cbn [fold_left]. replace (ds1 ++ d :: ds2) with ((ds1 ++ [d]) ++ ds2) by (rewrite <- app_assoc; reflexivity). rewrite <- IH. f_equal. unfold chunk_of_domains, as_rules. rewrite map_app, fold_left_app. reflexivity.
Qed.
Lemma load_lines_ok fuel : forall ds bs e, (e = true -> bs = []) -> Forall (line_ok 512) (file_lines bs) -> end_ok bs -> (length bs < fuel)%nat ->
  load_lines fuel (chunk_of_domains (as_rules ds)) (mkf bs e) = Ret (chunk_of_domains (as_rules (ds ++ content bs))).
Proof.
  induction fuel as [|fuel IH]; intros ds bs e He HF HE Hf; [lia|]. cbn [load_lines]. unfold read_line1. cbn [f_bytes].
  pose proof (read_line_ok 512 ltac:(lia) (length bs) bs e (S (length bs)) (le_n _) ltac:(lia) He HF HE) as HR. destruct (content bs) as [|v vs]; [destruct HR as (f' & ->); cbn [bind fst snd]; rewrite app_nil_r; reflexivity|].
  destruct HR as (f' & -> & G1 & G2 & G3 & G4 & G5). cbn [bind fst snd]. destruct f' as [bs' e']. cbn [f_bytes] in *. replace (chunk_add_domain (chunk_of_domains (as_rules ds)) v None) with (chunk_of_domains (as_rules (ds ++ [v]))) by (unfold chunk_of_domains, as_rules; rewrite map_app, fold_left_app; reflexivity).
  rewrite (IH (ds ++ [v]) bs' e' G1 G4 G5 ltac:(lia)), G2, <- app_assoc. reflexivity.
Qed.
Lemma load_files_ok fs : forall ds, Forall file_ok fs -> load_files (chunk_of_domains (as_rules ds)) fs = Ret (chunk_of_domains (as_rules (ds ++ file_rules fs))).
Proof.
  induction fs as [|f fs IH]; intros ds HF; [cbn; rewrite app_nil_r; reflexivity|]. inversion HF as [|? ? Hf HF']; subst. cbn [load_files]. unfold file_rules. cbn [flat_map]. fold (file_rules fs). unfold load_file. destruct f as [bs|]; cbn [file_ok] in Hf.
  - destruct Hf as (H1 & H2). rewrite load_lines_ok by (auto; discriminate). cbn [bind]. rewrite IH by exact HF'. rewrite app_assoc. reflexivity.
  - cbn [bind app]. apply IH, HF'.
Qed.
Lemma disabled_domain_ok fn stale ds fs name : name <> [] -> Forall file_ok fs -> exists k r, domains_init ds fs = Ret k /\ is_disabled_domain fn stale k name (bkdr name) = Ret r /\ (r = true <-> exists d, In d (ds ++ file_rules fs) /\ covers fn name d).
Proof.
  intros Hn HF. assert (HK : exists k, domains_init ds fs = Ret k /\ (k = None /\ ds = [] /\ fs = [] \/ k = Some (chunk_of_domains (as_rules (ds ++ file_rules fs))))).
  { unfold domains_init. pose proof (load_list_ok ds []) as HL. cbn [app] in HL. change (chunk_of_domains (as_rules [])) with (@chunk_init unit) in HL. destruct fs as [|f fs'].
    - destruct ds as [|d ds']; eexists; (split; [reflexivity|]); [left; auto|right]. rewrite HL. unfold file_rules. cbn [flat_map]. rewrite app_nil_r. reflexivity.
    - destruct ds as [|d ds'].
      + pose proof (load_files_ok (f :: fs') [] HF) as X. change (chunk_of_domains (as_rules [])) with (@chunk_init unit) in X. rewrite X. cbn [bind]. eauto.
      + rewrite HL, (load_files_ok (f :: fs') _ HF). cbn [bind]. eauto. }
  destruct HK as (k & -> & [(-> & -> & ->)| ->]); [exists None, false; split; [reflexivity|]; split; [reflexivity|]; cbn; split; [discriminate|intros (d & [] & _)]|].
  set (rs := ds ++ file_rules fs). eexists (Some _). cbn [is_disabled_domain]. destruct (C26_domain_match fn (as_rules rs) (fun _ => true) name (Some (bkdr name)) stale Hn (or_intror eq_refl)) as (p & w & Hp & Hw & ->). cbn [bind]. eexists. split; [reflexivity|]. split; [reflexivity|].
  assert (HU : forall d, In d rs -> In (undot d, @None unit) (map undotted (as_rules rs))). { intros d Hd. apply in_map_iff. exists (d, None). split; [reflexivity|]. unfold as_rules. apply in_map_iff. eauto. }
  assert (HV : forall x v, In (x, v) (map undotted (as_rules rs)) -> exists d, In d rs /\ x = undot d). { intros x v Hx. apply in_map_iff in Hx. destruct Hx as ((d & v') & E & Hd). unfold as_rules in Hd. apply in_map_iff in Hd. destruct Hd as (d' & [= <- <-] & Hd). exists d'. split; [exact Hd|]. unfold undotted in E. cbn [fst snd] in E. injection E as <- <-. reflexivity. }
  destruct p as [d|].
  - split; [intros _|reflexivity]. destruct Hp as (n & He & (Hpl & r1 & r2 & E & _) & _). destruct (HV n d) as (d' & Hd & ->); [rewrite E; apply in_or_app; right; left; reflexivity|]. exists d'. split; [exact Hd|]. left. auto.
  - cbn [closest] in Hp. destruct w as [d|].
    + split; [intros _|reflexivity]. destruct Hw as (r1 & p & r2 & E & Hpl & Hm & _). destruct (HV p d) as (d' & Hd & ->); [rewrite E; apply in_or_app; right; left; reflexivity|]. exists d'. split; [exact Hd|]. right. auto.
    + split; [discriminate|]. intros (d & Hd & [(H1 & H2)|(H1 & H2)]); exfalso; [specialize (Hp _ (HU d Hd) H1 H2)|specialize (Hw _ (HU d Hd) H1 H2)]; discriminate.
Qed.

(** * C45 *)
(** For every list of types, every list of rules and every set of rule files whose lines are conformant (C38) and fit in 512 bytes, and every query with
    a non-empty name: it is refused exactly if its type is listed or a listed rule covers its name, and otherwise nothing is sent.  Missing: the query for the
    root (C45_root_refuted), rule lines that do not fit, listed numbers of more than 30 bits (the differences overflow). *)
Theorem C45_filter_partial fn stale n0 items ds fs tcp q type name : name <> [] -> in_range type -> Forall in_range (listed n0 items) -> Forall file_ok fs ->
  exists t k r, types_init n0 items = Ret t /\ domains_init ds fs = Ret k /\ filter_out fn stale t k tcp q type name (bkdr name) = Ret r /\
    (In type (listed n0 items) \/ (exists d, In d (ds ++ file_rules fs) /\ covers fn name d) -> r = Some (send_back tcp (refused_flags q))) /\
    (~ In type (listed n0 items) -> (forall d, In d (ds ++ file_rules fs) -> ~ covers fn name d) -> r = None).
Proof.
  intros Hn Ht HF Hf. destruct (disabled_type_ok n0 items type Ht HF) as (t & a & E1 & E2 & H1). destruct (disabled_domain_ok fn stale ds fs name Hn Hf) as (k & b & E3 & E4 & H2). exists t, k. unfold filter_out. rewrite E2. cbn [bind].
  destruct a; cbn [bind].
  - eexists. split; [exact E1|]. split; [exact E3|]. split; [reflexivity|]. split; [reflexivity|]. intros X. exfalso. apply X, H1. reflexivity.
  - rewrite E4. cbn [bind]. eexists. split; [exact E1|]. split; [exact E3|]. split; [reflexivity|]. destruct b; split; try reflexivity.
    + intros _ X. destruct H2 as (H2 & _). destruct (H2 eq_refl) as (d & Hd & Hc). exfalso. apply (X d Hd Hc).
    + intros [X|X]; [apply H1 in X; discriminate|apply H2 in X; discriminate].
Qed.
Print Assumptions C45_filter_partial.
(** The reply: the query itself, as a response without error and with recursion available; over TCP after its length. *)
Theorem C45_reply q : (4 <= length q)%nat -> send_back false (refused_flags q) = refused_flags q /\ send_back true (refused_flags q) = be16 (Z.of_nat (length q)) ++ refused_flags q /\ length (refused_flags q) = length q /\
  (forall i, i <> 2%nat -> i <> 3%nat -> nth_error (refused_flags q) i = nth_error q i) /\
  exists b2 b3 c2 c3, nth_error q 2 = Some b2 /\ nth_error q 3 = Some b3 /\ nth_error (refused_flags q) 2 = Some c2 /\ nth_error (refused_flags q) 3 = Some c3 /\
    (forall i, 0 <= i < 8 -> Z.testbit c2 i = (i =? 7) || Z.testbit b2 i) /\
    (forall i, 0 <= i < 8 -> Z.testbit c3 i = (i =? 7) || (4 <=? i) && Z.testbit b3 i).
Proof.
  intros HL. destruct q as [|a [|b [|c [|d r]]]]; cbn [length] in HL; try lia. assert (HE : length (refused_flags (a :: b :: c :: d :: r)) = length (a :: b :: c :: d :: r)) by reflexivity.
  split; [reflexivity|]. split; [unfold send_back; rewrite HE; reflexivity|]. split; [exact HE|]. split; [intros i H2 H3; destruct i as [|[|[|[|i]]]]; try reflexivity; congruence|].
  exists c, d, (Z.lor c 128), (Z.land (Z.lor d 128) 240). do 4 (split; [reflexivity|]). split; intros i Hi; assert (Hc : i = 0 \/ i = 1 \/ i = 2 \/ i = 3 \/ i = 4 \/ i = 5 \/ i = 6 \/ i = 7) by lia; rewrite ?Z.land_spec, ?Z.lor_spec; destruct Hc as [->|[->|[->|[->|[->|[->|[->| ->]]]]]]]; cbn -[Z.testbit]; repeat match goal with |- context [Z.testbit ?n ?k] => match n with Zpos _ => let v := eval vm_compute in (Z.testbit n k) in change (Z.testbit n k) with v end end; rewrite ?orb_false_r, ?orb_true_r, ?andb_true_r, ?andb_false_r; reflexivity.
Qed.
Print Assumptions C45_reply.

(** "1,x,28" as types; rules ".ad.com" from the option, "t?st" from a file, a second file that cannot be opened. *)
Definition ex_types : list (list Z) := [[49]; [120]; [50; 56]].
Definition ex_rules : list (list Z) := [[46; 97; 100; 46; 99; 111; 109]].
Definition ex_files : list (option (list Z)) := [Some [35; 32; 99; 10; 116; 63; 115; 116; 32; 10]; None].
Definition ex_fn (p s : list Z) : bool := (length p =? length s)%nat && forallb (fun x => (fst x =? 63) || (fst x =? snd x)) (combine p s).
Example C45_nonvacuous : Forall file_ok ex_files /\ listed 7 ex_types = [1; 1; 28] /\ ex_rules ++ file_rules ex_files = [[46; 97; 100; 46; 99; 111; 109]; [116; 63; 115; 116]] /\
  let run type name := match types_init 7 ex_types, domains_init ex_rules ex_files with Ret t, Ret k => filter_out ex_fn [] t k true [1; 2; 1; 79; 0; 1] type name (bkdr name) | _, _ => Fuel end in
  let refused := Ret (Some [0; 6; 1; 2; 129; 192; 0; 1]) in
  run 28 [120] = refused /\ run 2 [120] = Ret None /\ run 2 [120; 46; 97; 100; 46; 99; 111; 109] = refused /\ run 2 [120; 97; 100; 46; 99; 111; 109] = Ret None /\ run 2 [116; 97; 115; 116] = refused.
Proof.
  split; [|split; [vm_compute; reflexivity|split; [vm_compute; reflexivity|vm_compute; repeat split; reflexivity]]]. constructor; [|constructor; [exact I|constructor]]. split; [|left; vm_compute; reflexivity].
  assert (HS : forall l, (length l + 2 <= 512)%nat -> ~ In 0 l -> ~ In 59 l -> ~ In 13 l -> line_ok 512 l) by (intros l H1 H2 H3 H4; split; [exact H1|]; split; [exact H2|]; split; intros a b ->; exfalso; [apply H3|apply H4]; apply in_or_app; right; left; reflexivity).
  change (Forall (line_ok 512) [[35; 32; 99]; [116; 63; 115; 116; 32]; []]). repeat (constructor; [apply HS; cbn [length In]; [lia|intuition discriminate|intuition discriminate|intuition discriminate]|]). constructor.
Qed.
(** The query for the root: it is refused or not depending on what is on the stack, although no rule covers it. *)
Theorem C45_root_refuted : exists fn stale ds k, domains_init ds [] = Ret (Some k) /\ (forall d, In d ds -> ~ covers fn [] d) /\ filter_out fn stale None (Some k) false [1; 2; 1; 0] 1 [] (bkdr []) = Ret (Some [1; 2; 129; 128]).
Proof.
  exists (fun _ _ => false), [103; 46; 99; 111; 109], [[99; 111; 109]]. eexists. split; [reflexivity|]. split; [|vm_compute; reflexivity].
  intros d [<-|[]] [(_ & [E|(p & _ & E)])|(_ & E)]; [discriminate E|destruct p; discriminate E|discriminate E].
Qed.
Print Assumptions C45_root_refuted.
(** Capital letters in a rule: the names of queries are put into lower case (iheader.c 63), the rules are not; such a rule never applies. *)
Theorem C45_case_refuted : exists fn ds k name, domains_init ds [] = Ret (Some k) /\ (exists d, In d ds /\ Chunk_Spec.plain d /\ str_to_lower d = name) /\ str_to_lower name = name /\ filter_out fn [] None (Some k) false [1; 2; 1; 0] 1 name (bkdr name) = Ret None.
Proof.
  exists (fun _ _ => false), [[65; 100]]. eexists. exists [97; 100]. split; [reflexivity|]. split; [exists [65; 100]; split; [left; reflexivity|]; split; [vm_compute; intuition discriminate|vm_compute; reflexivity]|]. split; vm_compute; reflexivity.
Qed.
Print Assumptions C45_case_refuted.
