(** C33: which server group a query is sent to. *)
From Verif Require Import Base BaseFacts Hash_Model Addr_Model Sht_Model Chunk_Model Chunk_Spec Chunk_Proofs Chunk_Props Slist_Model Slist_Proofs Slist_Props Line_Model Line_Props Config_Model Filter_Model Filter_Props Mmgr_Model.
Require Import ZifyBool ZifyNat.

(** * Specification *)
(** A server group: its protocol and its domains. *)
Notation group := (proto * list (list Z))%type.
Section S.
Context (udp_ok tcp_ok : list Z -> bool) (fs : list Z -> option (option (list Z))).
Definition ok_for (s : list Z) (p : proto) : bool := match p with UDP => udp_ok s | TCP => tcp_ok s end.
(** A group file: its lines in lower case; a line with a value is an argument (the last one counts), any other a domain. *)
Definition args_of (ls : list (list Z)) : list (list Z * list Z) := flat_map (fun l => match split_nv l with Some kv => [kv] | None => [] end) ls.
Definition arg_of (k : list Z) (ls : list (list Z)) : option (list Z) := option_map snd (find (fun kv => str_eqb (fst kv) k) (rev (args_of ls))).
Definition domains_of (ls : list (list Z)) : list (list Z) := filter (fun l => match split_nv l with Some _ => false | None => true end) ls.
Definition protocols (p : list Z) : list proto := if str_eqb p [42] then [UDP; TCP] else if str_eqb p [117; 100; 112] then [UDP] else if str_eqb p [116; 99; 112] then [TCP] else [].
(** "protocol", "list" and "server". *)
Definition k_protocol : list Z := [112; 114; 111; 116; 111; 99; 111; 108].
Definition k_list : list Z := [108; 105; 115; 116].
Definition k_server : list Z := [115; 101; 114; 118; 101; 114].
(** Domains in lower case without the tabs, blanks and dots around them; C37 says what [strip_all] removes. *)
Definition trimmed (l : list (list Z)) : list (list Z) := map str_to_lower (strip_all [9; 32; 46] l).
Definition file_groups (bs : list Z) : option (list group) :=
  let ls := map str_to_lower (content bs) in
  match arg_of k_protocol ls with
  | None => None
  | Some p =>
    match match arg_of k_list ls with
          | None => Some []
          | Some x => match fs x with None => None | Some None => Some [] | Some (Some b) => Some (map str_to_lower (content b)) end
          end with
    | None => None
    | Some more =>
      match trimmed (domains_of ls ++ more) with
      | [] => Some []
      | ds => match protocols p, arg_of k_server ls with
              | [], _ | _, None => None
              | l, Some s => if forallb (ok_for s) l then Some (map (fun x => (x, ds)) l) else None
              end
      end
    end
  end.
(** The groups of the strings of ServerGroup, in order; None: one of them is wrong. *)
Fixpoint groups_of (l : list (list Z)) : option (list group) :=
  let one (o : option (list group)) (r : option (list group)) := match o, r with Some a, Some b => Some (a ++ b) | _, _ => None end in
  match l with
  | [] => Some []
  | ty :: l1 =>
    if str_eqb ty [85; 68; 80] then match l1 with s :: d :: _ :: l2 => one (if udp_ok s then Some [(UDP, trimmed (pieces [44] d))] else None) (groups_of l2) | _ => None end
    else if str_eqb ty [84; 67; 80] then match l1 with s :: d :: _ :: _ :: l2 => one (if tcp_ok s then Some [(TCP, trimmed (pieces [44] d))] else None) (groups_of l2) | _ => None end
    else if str_eqb ty [70; 73; 76; 69] then match l1 with f :: l2 => one (match fs f with None => None | Some None => Some [] | Some (Some bs) => file_groups bs end) (groups_of l2) | _ => None end
    else None
  end.
Definition fs_ok : Prop := forall p bs, fs p = Some (Some bs) -> Forall (line_ok 384) (file_lines bs) /\ end_ok bs.
(** The rules: each domain with the number of its group. *)
Definition numbered (gs : list group) : list (nat * group) := combine (seq 0 (length gs)) gs.
Definition rules_of (gs : list group) : list (list Z * option nat) := flat_map (fun g => map (fun d => (d, Some (fst g))) (snd (snd g))) (numbered gs).
(** A group fits a query: one of its own kind, or the other kind if that is enabled. *)
Definition fits (gs : list group) (t2u u2t tcp : bool) (i : nat) : Prop :=
  exists p ds, nth_error gs i = Some (p, ds) /\ (tcp = true /\ p = TCP \/ tcp = false /\ p = UDP \/ tcp = true /\ p = UDP /\ t2u = true \/ tcp = false /\ p = TCP /\ u2t = true).

(** * Loading *)
Definition map_of (m : mmap) (gs : list group) : mmap := fold_left (fun m g => add_module m (fst g) (snd g)) gs m.
Definition arg_rules (ls : list (list Z)) : list (list Z * option (list Z)) := map (fun kv => (fst kv, Some (snd kv))) (args_of ls).
Lemma group_lines_ok fuel : forall pre bs e, (e = true -> bs = []) -> Forall (line_ok 384) (file_lines bs) -> end_ok bs -> (length bs < fuel)%nat ->
  group_lines fuel (chunk_of (arg_rules pre)) (domains_of pre) (mkf bs e) = Ret (chunk_of (arg_rules (pre ++ map str_to_lower (content bs))), domains_of (pre ++ map str_to_lower (content bs))).
Proof.
  induction fuel as [|fuel IH]; intros pre bs e He HF HE Hf; [lia|]. cbn [group_lines]. unfold read_line1. cbn [f_bytes].
  pose proof (read_line_ok 384 ltac:(lia) (length bs) bs e (S (length bs)) (le_n _) ltac:(lia) He HF HE) as HR. destruct (content bs) as [|v vs]; [destruct HR as (f' & ->); cbn [bind fst snd map]; rewrite app_nil_r; reflexivity|].
  destruct HR as (f' & -> & G1 & G2 & G3 & G4 & G5). cbn [bind fst snd]. destruct f' as [bs' e']. cbn [f_bytes] in *. cbn [map]. replace (pre ++ str_to_lower v :: map str_to_lower vs) with ((pre ++ [str_to_lower v]) ++ map str_to_lower vs) by (rewrite <- app_assoc; reflexivity). rewrite <- G2. rewrite <- (IH (pre ++ [str_to_lower v]) bs' e' G1 G4 G5 ltac:(lia)).
  unfold arg_rules, args_of, domains_of. rewrite flat_map_app, filter_app, map_app. cbn [flat_map filter app]. destruct (split_nv (str_to_lower v)) as [(k, x)|].
  - rewrite !app_nil_r. f_equal. unfold chunk_of. rewrite fold_left_app. reflexivity.
  - rewrite app_nil_r. reflexivity.
Qed.
Lemma list_lines_ok fuel : forall ds bs e, (e = true -> bs = []) -> Forall (line_ok 384) (file_lines bs) -> end_ok bs -> (length bs < fuel)%nat -> list_lines fuel ds (mkf bs e) = Ret (ds ++ map str_to_lower (content bs)).
Proof.
  induction fuel as [|fuel IH]; intros ds bs e He HF HE Hf; [lia|]. cbn [list_lines]. unfold read_line1. cbn [f_bytes].
  pose proof (read_line_ok 384 ltac:(lia) (length bs) bs e (S (length bs)) (le_n _) ltac:(lia) He HF HE) as HR. destruct (content bs) as [|v vs]; [destruct HR as (f' & ->); cbn [bind fst snd map]; rewrite app_nil_r; reflexivity|].
  destruct HR as (f' & -> & G1 & G2 & G3 & G4 & G5). cbn [bind fst snd]. destruct f' as [bs' e']. cbn [f_bytes] in *. cbn [map]. rewrite (IH _ bs' e' G1 G4 G5 ltac:(lia)), G2, <- app_assoc. reflexivity.
Qed.
Lemma arg_ok ls k def : Chunk_Spec.plain k -> arg (chunk_of (arg_rules ls)) k def = Ret (match arg_of k ls with Some v => Some v | None => def end).
Proof.
  intros Hk. unfold arg. rewrite (match_plain_ok _ (arg_rules ls) k None _ (chunk_of_inv _)) by (left; reflexivity). cbn [bind]. f_equal. unfold arg_of, arg_rules. rewrite <- map_rev.
  induction (rev (args_of ls)) as [|(k', v) l IH]; [reflexivity|]. cbn [map find fst snd]. rewrite andb_true_r. destruct (str_eqb k' k) eqn:E.
  - apply str_eqb_eq in E. subst k'. apply has_wildcard_plain in Hk. rewrite Hk. reflexivity.
  - rewrite andb_false_r. exact IH.
Qed.
Lemma init_from_file_ok m path : fs_ok -> init_from_file udp_ok tcp_ok fs m path = Ret (option_map (map_of m) (match fs path with None => None | Some None => Some [] | Some (Some bs) => file_groups bs end)).
Proof.
  intros HF. unfold init_from_file. destruct (fs path) as [[bs|]|] eqn:Ep; [|reflexivity|reflexivity]. destruct (HF _ _ Ep) as (HL & HE). pose proof (group_lines_ok (S (length bs)) [] bs false ltac:(discriminate) HL HE ltac:(lia)) as HG. change (chunk_of (arg_rules [])) with (@chunk_init (list Z)) in HG. change (domains_of []) with (@nil (list Z)) in HG. rewrite HG. clear HG.
  cbn [app bind fst snd]. unfold file_groups. cbv zeta. change k_protocol with w_protocol. change k_list with w_list. change k_server with w_server. change trimmed with tidy. set (ls := map str_to_lower (content bs)). rewrite !arg_ok by (vm_compute; intuition discriminate). cbn [bind]. destruct (arg_of w_protocol ls) as [p|]; [|reflexivity].
  cbn [bind].
  assert (HM : (match match arg_of w_list ls with Some v => Some v | None => None end with None => Ret (Some (domains_of ls)) | Some x => match fs x with None => Ret None | Some None => Ret (Some (domains_of ls)) | Some (Some bs') => let! d := list_lines (S (length bs')) (domains_of ls) (mkf bs' false) in Ret (Some d) end end)
    = Ret (option_map (app (domains_of ls)) match arg_of w_list ls with None => Some [] | Some x => match fs x with None => None | Some None => Some [] | Some (Some b) => Some (map str_to_lower (content b)) end end)).
  { destruct (arg_of w_list ls) as [x|]; [|cbn; rewrite app_nil_r; reflexivity]. destruct (fs x) as [[b|]|] eqn:Ex; [|cbn; rewrite app_nil_r; reflexivity|reflexivity]. destruct (HF _ _ Ex) as (HL' & HE'). rewrite list_lines_ok by (auto; discriminate). reflexivity. }
  rewrite HM. clear HM. cbn [bind]. match goal with |- context [option_map (app (domains_of ls)) ?o] => destruct o as [more|] end; cbn [option_map]; [|reflexivity].
  destruct (tidy (domains_of ls ++ more)) as [|d ds]; [reflexivity|]. cbn [bind].
  assert (HP : exists x, match arg_of w_parallel ls with Some v => Some v | None => Some [111; 110] end = Some x) by (destruct (arg_of w_parallel ls); eauto). assert (HX : exists x, match arg_of w_proxy ls with Some v => Some v | None => Some [110; 111] end = Some x) by (destruct (arg_of w_proxy ls); eauto).
  destruct HP as (par & ->). destruct HX as (prx & ->). cbn [bind]. unfold protocols, udp_core, tcp_core. f_equal.
  destruct (str_eqb p [42]); [|destruct (str_eqb p [117; 100; 112]); [|destruct (str_eqb p [116; 99; 112])]]; cbn [orb]; destruct (arg_of w_server ls) as [s|]; cbn [forallb ok_for andb]; try reflexivity; destruct (udp_ok s); cbn [andb]; try reflexivity; destruct (tcp_ok s); reflexivity.
Qed.
Lemma modules_init_ok n : forall l m, (length l <= n)%nat -> fs_ok -> modules_init udp_ok tcp_ok fs m l = Ret (option_map (map_of m) (groups_of l)).
Proof.
  induction n as [|n IH]; intros l m Hn HF; (destruct l as [|ty l1]; [reflexivity|]); cbn [length] in Hn; [lia|]. cbn [modules_init groups_of]. destruct (str_eqb ty [85; 68; 80]).
  - destruct l1 as [|s [|d [|p l2]]]; try reflexivity. cbn [length] in Hn. unfold udp_core. destruct (udp_ok s); [|reflexivity]. rewrite IH by (lia || exact HF). destruct (groups_of l2); reflexivity.
  - destruct (str_eqb ty [84; 67; 80]).
    + destruct l1 as [|s [|d [|p [|x l2]]]]; try reflexivity. cbn [length] in Hn. unfold tcp_core. destruct (tcp_ok s); [|reflexivity]. rewrite IH by (lia || exact HF). destruct (groups_of l2); reflexivity.
    + destruct (str_eqb ty [70; 73; 76; 69]); [|reflexivity]. destruct l1 as [|f l2]; [reflexivity|]. cbn [length] in Hn. rewrite (init_from_file_ok m f HF). cbn [bind]. match goal with |- context [option_map (map_of m) ?o] => destruct o as [a|] end; cbn [option_map]; [|reflexivity]. rewrite IH by (lia || exact HF).
      destruct (groups_of l2) as [b|]; cbn [option_map]; [|reflexivity]. unfold map_of. rewrite fold_left_app. reflexivity.
Qed.
End S.

(** * The choice *)
Lemma chunk_of_domains_app {V} (rs rs' : list (list Z * option V)) : chunk_of_domains (rs ++ rs') = fold_left (fun k r => chunk_add_domain k (fst r) (snd r)) rs' (chunk_of_domains rs).
Proof. unfold chunk_of_domains. apply fold_left_app. Qed.
Lemma map_of_ok gs : forall m rs, m_dist m = chunk_of_domains rs -> m_mods (map_of m gs) = m_mods m ++ map fst gs /\
  m_dist (map_of m gs) = chunk_of_domains (rs ++ flat_map (fun g => map (fun d => (d, Some (fst g))) (snd (snd g))) (combine (seq (length (m_mods m)) (length gs)) gs)).
Proof.
  induction gs as [|(p, ds) gs IH]; intros m rs Hm; [cbn; rewrite !app_nil_r; auto|]. cbn [map_of fold_left fst snd length seq combine flat_map map].
  destruct (IH (add_module m p ds) (rs ++ map (fun d => (d, Some (length (m_mods m)))) ds)) as (E1 & E2).
  { cbn [add_module m_dist]. rewrite Hm, chunk_of_domains_app. generalize (chunk_of_domains rs) as k. induction ds as [|d ds IHd]; intros k; [reflexivity|]. cbn [map fold_left fst snd]. apply IHd. }
  unfold map_of in E1, E2. cbn [add_module m_mods] in E1, E2. rewrite app_length in E2. cbn [length] in E2. rewrite Nat.add_1_r in E2. split; [rewrite E1, <- app_assoc; reflexivity|]. rewrite E2, <- app_assoc. reflexivity.
Qed.
Lemma map_of_init gs : m_mods (map_of mmap_init gs) = map fst gs /\ m_dist (map_of mmap_init gs) = chunk_of_domains (rules_of gs).
Proof. destruct (map_of_ok gs mmap_init [] eq_refl) as (E1 & E2). split; [exact E1|exact E2]. Qed.
Lemma fit_fits gs t2u u2t tcp i : module_fit (map fst gs) t2u u2t tcp (Some i) = true <-> fits gs t2u u2t tcp i.
Proof.
  cbn [module_fit]. rewrite nth_error_map. unfold fits. destruct (nth_error gs i) as [(p, ds)|]; cbn [option_map fst].
  - split.
    + intros H. exists p, ds. split; [reflexivity|]. destruct p, tcp; subst; tauto.
    + intros (p' & ds' & [= <- <-] & [(-> & ->)|[(-> & ->)|[(-> & -> & ->)|(-> & -> & ->)]]]); reflexivity.
  - split; [discriminate|]. intros (p & ds & E & _). discriminate.
Qed.

(** What a rule does: the rules in the order of the configuration, without a leading dot, each with the number of its group. *)
Definition rules (gs : list group) : list (list Z * option nat) := map (fun r => (undot (fst r), snd r)) (rules_of gs).

(** The domain of a rule is the name or encloses it, or its pattern matches. *)
Definition applies (fn : list Z -> list Z -> bool) (name d : list Z) : Prop := Chunk_Spec.plain d /\ encloses d name \/ ~ Chunk_Spec.plain d /\ fn d name = true.

(** * C33 *)
(** Loading: the groups of the configuration, or the old ones if one of them is wrong. *)
Theorem C33_load udp_ok tcp_ok fs l cur : fs_ok fs -> l <> [] -> exists m, modules_load udp_ok tcp_ok fs cur l = Ret m /\ match groups_of udp_ok tcp_ok fs l with Some gs => m = map_of mmap_init gs | None => m = cur end.
Proof.
  intros HF Hl. unfold modules_load. destruct l as [|x l]; [congruence|]. rewrite (modules_init_ok udp_ok tcp_ok fs _ (x :: l) mmap_init (le_n _) HF). cbn [bind]. eexists. split; [reflexivity|]. destruct (groups_of udp_ok tcp_ok fs (x :: l)); reflexivity.
Qed.
Print Assumptions C33_load.
(** For every configuration, every query with a name, every random number: (A) the group of the newest rule for the longest enclosing domain that has a fitting
    rule; (B) otherwise that of some matching fitting pattern, "*" last; (C) only if no fitting rule covers the name, the group given by the identifier. *)
Theorem C33_choice fn gs stale t2u u2t tcp name rnd id : name <> [] -> gs <> [] -> 0 <= id ->
  exists i, choose fn stale (map_of mmap_init gs) t2u u2t tcp name (bkdr name) rnd id = Ret (Some i) /\ (i < length gs)%nat /\
    let fit := fits gs t2u u2t tcp in
    ((exists n r1 r2, rules gs = r1 ++ (n, Some i) :: r2 /\ Chunk_Spec.plain n /\ encloses n name /\ fit i /\ (forall j, In (n, Some j) r2 -> ~ fit j) /\
        (forall d j, In (d, Some j) (rules gs) -> Chunk_Spec.plain d -> encloses d name -> fit j -> (length d <= length n)%nat)) \/
     ((forall d j, In (d, Some j) (rules gs) -> Chunk_Spec.plain d -> encloses d name -> ~ fit j) /\
      exists p, In (p, Some i) (rules gs) /\ ~ Chunk_Spec.plain p /\ fn p name = true /\ fit i /\
        (p = [42] -> forall d j, In (d, Some j) (rules gs) -> ~ Chunk_Spec.plain d -> fn d name = true -> fit j -> d = [42])) \/
     ((forall d j, In (d, Some j) (rules gs) -> applies fn name d -> ~ fit j) /\ Z.of_nat i = id mod Z.of_nat (length gs))).
Proof.
  intros Hn Hg Hi. destruct (map_of_init gs) as (E1 & E2). unfold choose. rewrite E1, E2.
  assert (HR : map undotted (rules_of gs) = rules gs) by (unfold rules, undotted; apply map_ext; intros (d, v); reflexivity).
  assert (HS : forall r, In r (rules_of gs) -> snd r <> None). { intros r Hr. unfold rules_of in Hr. apply in_flat_map in Hr. destruct Hr as (x & _ & Hr). apply in_map_iff in Hr. destruct Hr as (d & <- & _). discriminate. }
  assert (HS' : forall d v, In (d, v) (rules gs) -> exists j, v = Some j). { intros d v Hv. unfold rules in Hv. apply in_map_iff in Hv. destruct Hv as (r & [= _ <-] & Hr). specialize (HS r Hr). destruct (snd r); [eauto|congruence]. }
  destruct (C26_domain_match_random fn (rules_of gs) (module_fit (map fst gs) t2u u2t tcp) name (Some (bkdr name)) rnd stale Hn (or_intror eq_refl) HS) as (p & w & Hp & -> & Hw). rewrite HR in *. cbn [bind].
  assert (HL : forall i, fits gs t2u u2t tcp i -> (i < length gs)%nat) by (intros i (q & ds & E & _); apply nth_error_Some; congruence).
  destruct p as [v|].
  - destruct Hp as (n & He & (Hpl & r1 & r2 & E & Ha & H2) & Hc). destruct (HS' n v) as (i & ->); [rewrite E; apply in_or_app; right; left; reflexivity|]. apply fit_fits in Ha. exists i. split; [reflexivity|]. split; [apply HL, Ha|]. left. exists n, r1, r2. split; [exact E|]. split; [exact Hpl|]. split; [exact He|]. split; [exact Ha|]. split.
    + intros j Hj X. apply fit_fits in X. specialize (H2 _ Hj eq_refl). cbn [snd] in H2. congruence.
    + intros d j Hd P X Y. apply (Hc _ Hd P X). apply fit_fits, Y.
  - assert (HA : forall d j, In (d, Some j) (rules gs) -> Chunk_Spec.plain d -> encloses d name -> ~ fits gs t2u u2t tcp j) by (intros d j Hd P X Y; apply fit_fits in Y; specialize (Hp _ Hd P X); cbn [snd] in Hp; congruence).
    destruct w as [v|].
    + destruct Hw as (p & Hin & Hpl & Hm & Ha & H42). destruct (HS' p v Hin) as (i & ->). apply fit_fits in Ha. exists i. split; [reflexivity|]. split; [apply HL, Ha|]. right. left. split; [exact HA|]. exists p. split; [exact Hin|]. split; [exact Hpl|]. split; [exact Hm|]. split; [exact Ha|].
      intros E d j Hd P X Y. apply (H42 E _ Hd P X). apply fit_fits, Y.
    + destruct gs as [|g gs']; [congruence|]. set (gs := g :: gs') in *. change (match map fst gs with [] => Ret None | l => Ret (Some (Z.to_nat (Z.rem id (Z.of_nat (length l))))) end) with (Ret (Some (Z.to_nat (Z.rem id (Z.of_nat (length (map fst gs))))))). rewrite map_length.
      assert (HM : Z.rem id (Z.of_nat (length gs)) = id mod Z.of_nat (length gs)) by (apply Z.rem_mod_nonneg; [exact Hi|unfold gs; cbn [length]; lia]). pose proof (Z.mod_pos_bound id (Z.of_nat (length gs)) ltac:(unfold gs; cbn [length]; lia)) as HB. rewrite HM. eexists. split; [reflexivity|]. split; [lia|]. right. right. split; [|lia].
      intros d j Hd [(P & X)|(P & X)] Y; [apply (HA d j Hd P X Y)|]. apply fit_fits in Y. specialize (Hw _ Hd P X). cbn [snd] in Hw. congruence.
Qed.
Print Assumptions C33_choice.
(** Isolation: if a fitting rule covers the name, the query goes to a fitting group, one with a rule that covers the name. *)
Theorem C33_isolated_partial fn gs stale t2u u2t tcp name rnd id : name <> [] -> 0 <= id -> (exists d j, In (d, Some j) (rules gs) /\ applies fn name d /\ fits gs t2u u2t tcp j) ->
  exists i d, choose fn stale (map_of mmap_init gs) t2u u2t tcp name (bkdr name) rnd id = Ret (Some i) /\ fits gs t2u u2t tcp i /\ In (d, Some i) (rules gs) /\ applies fn name d.
Proof.
  intros Hn Hi (d & j & Hd & Hc & Hf). assert (Hg : gs <> []) by (intros ->; destruct Hd). destruct (C33_choice fn gs stale t2u u2t tcp name rnd id Hn Hg Hi) as (i & E & _ & [(n & r1 & r2 & ER & Hp & He & Hfi & _)|[(_ & p & Hin & Hp & Hm & Hfi & _)|(HN & _)]]).
  - exists i, n. split; [exact E|]. split; [exact Hfi|]. split; [rewrite ER; apply in_or_app; right; left; reflexivity|]. left. auto.
  - exists i, p. unfold applies. auto 6.
  - exfalso. apply (HN d j Hd Hc Hf).
Qed.
Print Assumptions C33_isolated_partial.
(** Without a fitting rule there is no isolation: a query that came over UDP goes to the TCP group, although nothing enables that. *)
Theorem C33_fallback_refuted : exists fn gs, ~ fits gs false false false 0 /\ choose fn [] (map_of mmap_init gs) false false false [97] (bkdr [97]) 0 5 = Ret (Some 0%nat).
Proof. exists (fun _ _ => true), [(TCP, [[42]])]. split; [|vm_compute; reflexivity]. intros (p & ds & E & H). injection E as <- <-. intuition discriminate. Qed.
Print Assumptions C33_fallback_refuted.
(** Two groups for the same domain, "UDP 1.2.4.8 .ad.com,* on" and "TCP 8.8.8.8 ad.com on no", and a group file. *)
Definition ex_fs (p : list Z) : option (option (list Z)) := if str_eqb p [102] then Some (Some ([80; 82; 79; 84; 79; 67; 79; 76; 32; 42; 10] ++ [83; 69; 82; 86; 69; 82; 61; 49; 10] ++ [46; 88; 46; 99; 10])) else Some None.
Definition ex_groups : list (list Z) := [[85; 68; 80]; [49]; [46; 97; 100; 46; 99; 44; 42]; [111; 110]; [84; 67; 80]; [50]; [65; 68; 46; 99; 32]; [111; 110]; [110; 111]; [70; 73; 76; 69]; [102]].
Definition all_ok (s : list Z) : bool := true.
Example C33_nonvacuous : groups_of all_ok all_ok ex_fs ex_groups = Some [(UDP, [[97; 100; 46; 99]; [42]]); (TCP, [[97; 100; 46; 99]]); (UDP, [[120; 46; 99]]); (TCP, [[120; 46; 99]])] /\
  let run t2u u2t tcp name := let! m := modules_load all_ok all_ok ex_fs mmap_init ex_groups in choose (fun p _ => str_eqb p [42]) [] m t2u u2t tcp name (bkdr name) 0 7 in
  let a := [98; 46; 97; 100; 46; 99] in let x := [120; 46; 99] in
  run false false false a = Ret (Some 0%nat) /\ run false false true a = Ret (Some 1%nat) /\ run false true false a = Ret (Some 1%nat) /\ run false false false x = Ret (Some 2%nat) /\ run false false true x = Ret (Some 3%nat) /\
  run false false false [122] = Ret (Some 0%nat) /\ run false false true [122] = Ret (Some 3%nat).
Proof. vm_compute. repeat split; reflexivity. Qed.
Example C33_nonvacuous_fs : fs_ok ex_fs.
Proof.
  intros p bs H. unfold ex_fs in H. destruct (str_eqb p [102]); [|discriminate]. injection H as <-. split; [|left; vm_compute; reflexivity].
  assert (HS : forall l, (length l + 2 <= 384)%nat -> ~ In 0 l -> ~ In 59 l -> ~ In 13 l -> line_ok 384 l) by (intros l H1 H2 H3 H4; split; [exact H1|]; split; [exact H2|]; split; intros a b ->; exfalso; [apply H3|apply H4]; apply in_or_app; right; left; reflexivity).
  change (Forall (line_ok 384) [[80; 82; 79; 84; 79; 67; 79; 76; 32; 42]; [83; 69; 82; 86; 69; 82; 61; 49]; [46; 88; 46; 99]; []]). repeat (constructor; [apply HS; cbn [length In]; [lia|intuition discriminate|intuition discriminate|intuition discriminate]|]). constructor.
Qed.

(** * C55 *)
(** Every query with a name has exactly one of five fates, decided in this order: refused by the filter, answered from the hosts, answered from the cache, sent
    to one server group (the one of C33_choice), or dropped if there is no group at all. *)
Theorem C55_fate fn stale n0 items ds files hosts cache gs t2u u2t tcp q type name rnd id :
  name <> [] -> in_range type -> Forall in_range (listed n0 items) -> Forall file_ok files -> 0 <= id ->
  let disabled := In type (listed n0 items) \/ exists d, In d (ds ++ file_rules files) /\ covers fn name d in
  exists t k f, types_init n0 items = Ret t /\ domains_init ds files = Ret k /\
    mmgr_send fn stale t k hosts cache (map_of mmap_init gs) t2u u2t tcp q type name (bkdr name) rnd id = Ret f /\
    (disabled -> f = Refused (send_back tcp (refused_flags q))) /\
    (~ disabled -> hosts = true -> f = FromHosts) /\
    (~ disabled -> hosts = false -> cache = true -> f = FromCache) /\
    (~ disabled -> hosts = false -> cache = false -> gs <> [] -> exists i, f = Sent i /\ (i < length gs)%nat /\ choose fn stale (map_of mmap_init gs) t2u u2t tcp name (bkdr name) rnd id = Ret (Some i)) /\
    (~ disabled -> hosts = false -> cache = false -> gs = [] -> f = Dropped).
Proof.
  intros Hn Ht HF Hf Hi disabled. destruct (C45_filter_partial fn stale n0 items ds files tcp q type name Hn Ht HF Hf) as (t & k & r & E1 & E2 & E3 & H1 & H2). exists t, k. unfold mmgr_send. rewrite E3. cbn [bind].
  assert (HD : ~ disabled -> r = None) by (intros X; apply H2; [intros Y; apply X; left; exact Y|intros d Hd Hc; apply X; right; eauto]).
  assert (HC : exists c, choose fn stale (map_of mmap_init gs) t2u u2t tcp name (bkdr name) rnd id = Ret c /\ (gs = [] -> c = None) /\ (gs <> [] -> exists i, c = Some i /\ (i < length gs)%nat)).
  { destruct gs as [|g gs']; [|destruct (C33_choice fn (g :: gs') stale t2u u2t tcp name rnd id Hn ltac:(discriminate) Hi) as (i & E & Hl & _); exists (Some i); split; [exact E|]; split; [discriminate|eauto]].
    exists None. split; [|split; [reflexivity|congruence]]. unfold choose. destruct (map_of_init []) as (M1 & M2). rewrite M1, M2. destruct (C26_domain_match_random fn (rules_of []) (module_fit (map fst (@nil group)) t2u u2t tcp) name (Some (bkdr name)) rnd stale Hn (or_intror eq_refl) ltac:(intros ? [])) as (p & w & Hp & -> & Hw). cbn [bind].
    destruct p as [v|]; [destruct Hp as (n & _ & (_ & r1 & r2 & E & _) & _); destruct r1; discriminate E|]. destruct w as [v|]; [destruct Hw as (p & [] & _)|]. reflexivity. }
  destruct HC as (c & EC & C1 & C2). destruct r as [reply|].
  - eexists. split; [exact E1|]. split; [exact E2|]. split; [reflexivity|]. split; [intros X; injection (H1 X) as ->; reflexivity|]. repeat split; intros X; specialize (HD X); discriminate.
  - assert (HN : ~ disabled) by (intros X; specialize (H1 X); discriminate). destruct hosts; [eexists; split; [exact E1|]; split; [exact E2|]; split; [reflexivity|]; split; [contradiction|]; split; [reflexivity|]; split; [discriminate|]; split; discriminate|].
    destruct cache; [eexists; split; [exact E1|]; split; [exact E2|]; split; [reflexivity|]; split; [contradiction|]; split; [discriminate|]; split; [reflexivity|]; split; discriminate|].
    rewrite EC. cbn [bind]. eexists. split; [exact E1|]. split; [exact E2|]. split; [reflexivity|]. split; [contradiction|]. split; [discriminate|]. split; [discriminate|]. split.
    + intros _ _ _ Hg. destruct (C2 Hg) as (i & -> & Hl). exists i. auto.
    + intros _ _ _ Hg. rewrite (C1 Hg). reflexivity.
Qed.
Print Assumptions C55_fate.
Example C55_nonvacuous : let run hosts cache type := match types_init 7 ex_types, domains_init ex_rules ex_files, modules_load all_ok all_ok ex_fs mmap_init ex_groups with Ret t, Ret k, Ret m => mmgr_send ex_fn [] t k hosts cache m false false true [1; 2; 1; 0] type [120; 46; 99] (bkdr [120; 46; 99]) 0 9 | _, _, _ => Fuel end in
  run true true 28 = Ret (Refused [0; 4; 1; 2; 129; 128]) /\ run true true 2 = Ret FromHosts /\ run false true 2 = Ret FromCache /\ run false false 2 = Ret (Sent 3).
Proof. vm_compute. repeat split; reflexivity. Qed.
