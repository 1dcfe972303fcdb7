(** C39: the values of the options after reading a configuration file. *)
From Verif Require Import Base BaseFacts List2Facts Hash_Model Addr_Model Arr_Model Slist_Model Replace_Props Slist_Proofs Slist_Props Sht_Model Chunk_Model Chunk_Spec Chunk_Proofs Line_Model Line_Props Config_Model Config_Proofs.
Require Import ZifyBool ZifyNat.

(** * Specification *)
(** Setting up the table: options, aliases, other delimiters, other defaults. *)
Inductive sop := SOpt (name : list Z) (st : strategy) (ty : otype) (vi : Z) (vb : bool) (vs : option (list Z)) | SAlias (target name : list Z) (prep delims : option (list Z))
  | SDelims (key ds : list Z) | SDefault (key : list Z) (vi : Z) (vb : bool) (vs : list Z).
Definition spec_setup (t : atable) (o : sop) : atable :=
  match o with
  | SOpt n st ty vi vb vs => t ++ [(n, AOpt (mk_dopt ty st false vi vb (match ty, vs with TPath, Some x | TStr, Some x => pieces [44] x | _, _ => [] end) [44]))]
  | SAlias tg n p d => t ++ [(n, AAlias tg p d)]
  | SDelims k ds => match resolve t k with
                    | Some (n, _, _) => a_update t n (fun d => match d_type d with TStr => mk_dopt TStr (d_strat d) (d_special d) (d_int d) (d_bool d) (d_str d) ds | _ => d end)
                    | None => t
                    end
  | SDefault k vi vb vs => match resolve t k with
                           | Some (n, _, _) => a_update t n (fun d => match d_type d with
                               | TInt => mk_dopt TInt (d_strat d) (d_special d) vi (d_bool d) (d_str d) (d_delims d)
                               | TBool => mk_dopt TBool (d_strat d) (d_special d) (d_int d) vb (d_str d) (d_delims d)
                               | TStr => mk_dopt TStr (d_strat d) (d_special d) (d_int d) (d_bool d) (pieces (d_delims d) vs) (d_delims d)
                               | TPath => d end)
                           | None => t
                           end
  end.
Definition run_setup (junk : nat -> Z) (g : cfg) (o : sop) : outcome cfg :=
  match o with
  | SOpt n st ty vi vb vs => config_add_option junk g n st ty vi vb vs
  | SAlias tg n p d => Ret (config_add_alias g tg n p d)
  | SDelims k ds => config_set_delims g k ds
  | SDefault k vi vb vs => config_set_default junk g k vi vb vs
  end.
Definition sop_ok (o : sop) : Prop := match o with SOpt _ _ _ _ _ (Some x) => ~ In 0 x | SDefault _ _ _ x => ~ In 0 x | _ => True end.
Fixpoint run_setups (junk : nat -> Z) (g : cfg) (os : list sop) : outcome cfg := match os with [] => Ret g | o :: os' => let! g' := run_setup junk g o in run_setups junk g' os' end.
(** Every table on the way is well formed. *)
Fixpoint setups_ok (t : atable) (os : list sop) : Prop := good_table t /\ match os with [] => True | o :: os' => sop_ok o /\ setups_ok (spec_setup t o) os' end.

(** The values given to an option, in order: [given t n lines] (Config_Proofs): for each line that names it or an alias of it, what the alias prepends, the
    alias's delimiters, the text of the value, and the room for it.  The value of a line: *)
Definition number (v : list Z) : list Z := match scan_d v with Some (x, _) => [to_int32 x] | None => [] end.
Definition texts (q : option (list Z) * option (list Z) * list Z * nat) : list (list Z) := let '(p, _, v, _) := q in match p with Some x => [x; v] | None => [v] end.
Definition strings (d0 : list Z) (q : option (list Z) * option (list Z) * list Z * nat) : list (list Z) :=
  let '(p, ds, v, _) := q in let dl := match ds with Some e => e | None => d0 end in match p with Some x => pieces dl x ++ pieces dl v | None => pieces dl v end.
Definition last_strings (d0 : list Z) (q : option (list Z) * option (list Z) * list Z * nat) : list (list Z) :=
  let '(_, ds, v, _) := q in pieces (match ds with Some e => e | None => d0 end) v.
Definition paths (expand : list Z -> nat -> list Z) (q : option (list Z) * option (list Z) * list Z * nat) : list (list Z) :=
  let '(_, _, v, room) := q in match trim_path v with Some x => [expand x room] | None => [] end.
Definition final_bool (st : strategy) (def : bool) (ts : list (list Z)) : bool :=
  match st with
  | StDefault | StReplace => last (map bool_of ts) def
  | StAppend => def || existsb bool_of ts
  | StDiscard => match ts with [] => def | _ => existsb bool_of ts end
  end.
Definition add_number (stale : Z) (n : Z) (t : list Z) : Z := to_int32 (n + last (number t) stale).
Definition final_int (stale : Z) (st : strategy) (def : Z) (ts : list (list Z)) : Z :=
  match st with
  | StDefault | StReplace => last (flat_map number ts) def
  | StAppend => fold_left (add_number stale) ts def
  | StDiscard => match ts with [] => def | t :: ts' => fold_left (add_number stale) ts' (last (number t) def) end
  end.
Definition final_strings (st : strategy) (def : list (list Z)) (dl : list Z) (gs : list (option (list Z) * option (list Z) * list Z * nat)) : list (list Z) :=
  match gs with
  | [] => def
  | g0 :: _ => strip_all blanks (match st with
                                 | StDefault | StReplace => last_strings dl (last gs g0)
                                 | StAppend => def ++ flat_map (strings dl) gs
                                 | StDiscard => flat_map (strings dl) gs
                                 end)
  end.
Definition final_paths (st : strategy) (def ps : list (list Z)) : list (list Z) :=
  match ps with
  | [] => def
  | _ => strip_all blanks (match st with StDefault | StReplace => [last ps []] | StAppend => def ++ ps | StDiscard => ps end)
  end.

(** * Set-up *)
Lemma krules_snoc t n e : krules (t ++ [(n, e)]) = krules t ++ [(n, Some (length t))].
Proof.
  unfold krules. rewrite !map_app, app_length. cbn [length map fst]. rewrite seq_app, map_app. cbn [seq map Nat.add]. generalize (eq_trans (map_length fst t) (eq_sym (eq_trans (map_length (@Some nat) (seq 0 (length t))) (seq_length (length t) 0)))).
  generalize (map Some (seq 0 (length t))) as b, (map fst t) as a. intros b a. revert b. induction a as [|x a IH]; intros [|y b] E; try discriminate; [reflexivity|]. cbn [combine app]. rewrite IH; [reflexivity|]. cbn [length] in E. congruence.
Qed.
Lemma add_entry_ok g t n e a : table g t -> erel e a -> table (add_entry g n e) (t ++ [(n, a)]).
Proof.
  intros (HK & HF) He. assert (HL : length (g_store g) = length t) by (rewrite <- (map_length snd t); clear -HF; induction HF; cbn [length]; congruence). split; cbn [add_entry g_keys g_store].
  - rewrite krules_snoc, HL. apply kinv_add, HK.
  - rewrite map_app. apply Forall2_app; [exact HF|]. constructor; [exact He|constructor].
Qed.
Lemma setup_ok junk g t o : table g t -> good_table t -> sop_ok o -> exists g', run_setup junk g o = Ret g' /\ table g' (spec_setup t o).
Proof.
  intros HT HG Ho. destruct o as [n st ty vi vb vs|tg n p d|k ds|k vi vb vs]; cbn [run_setup spec_setup sop_ok] in *.
  - unfold config_add_option. assert (HS : exists s ls, match ty, vs with TPath, Some x | TStr, Some x => let! r := sl_add true junk [] x (Some [44]) in Ret (snd r) | _, _ => Ret [] end = Ret s /\ lholds s ls /\ concat ls = match ty, vs with TPath, Some x | TStr, Some x => pieces [44] x | _, _ => [] end).
    { assert (HA : forall x, vs = Some x -> exists s ls, (let! r := sl_add true junk [] x (Some [44]) in Ret (snd r)) = Ret s /\ lholds s ls /\ concat ls = pieces [44] x). { intros x ->. destruct (sl_add_ok true junk [] [] x (Some [44]) ltac:(constructor) Ho) as (r & s & ls & -> & L & Hr & C). cbn [bind snd]. rewrite (Hr eq_refl) in C. eauto. }
      destruct ty, vs as [x|]; try (exists [], []; split; [reflexivity|split; [constructor|reflexivity]]); apply (HA x eq_refl). }
    destruct HS as (s & ls & -> & L & C). cbn [bind]. eexists. split; [reflexivity|]. apply add_entry_ok; [exact HT|]. cbn [erel]. unfold orel. cbn [c_type c_strat c_special c_int c_bool c_str c_delims d_type d_strat d_special d_int d_bool d_str d_delims]. do 6 (split; [reflexivity|]). eauto.
  - eexists. split; [reflexivity|]. apply add_entry_ok; [exact HT|]. cbn [erel]. auto.
  - unfold config_set_delims. pose proof (get_opt_ok g t k HT HG) as HO. destruct (resolve t k) as [((n, p), e)|]; [|rewrite HO; cbn [bind]; eauto]. destruct HO as (i & d & Hi & ->). cbn [bind]. destruct (store_nth g t i n _ HT Hi) as (c & -> & Hr). destruct c as [o|]; [|destruct Hr]. cbn [erel] in Hr. pose proof Hr as (R1 & R2 & R3 & R4 & R5 & R6 & ls & R7 & R8).
    set (h := fun d : dopt => match d_type d with TStr => mk_dopt TStr (d_strat d) (d_special d) (d_int d) (d_bool d) (d_str d) ds | _ => d end).
    assert (HSAME : h d = d -> table g (a_update t n h)). { intros Hd. destruct HT as (HK & HF). split; [rewrite (krules_fst _ t (a_update_fst t n h)); exact HK|]. assert (EU : a_update t n h = t); [|rewrite EU; exact HF]. destruct HG as (HN & _). clear -Hi Hd HN. revert i Hi HN. induction t as [|(m, e) t IH]; intros i Hi HN; [reflexivity|]. cbn [a_update]. cbn [map fst] in HN. inversion HN as [|? ? Hx HN']; subst. destruct i as [|i]; cbn [nth_error] in Hi.
      - injection Hi as -> ->. rewrite str_eqb_refl, Hd. f_equal. clear -Hx. induction t as [|(m, e) t IH]; [reflexivity|]. cbn [a_update]. rewrite IH by (intros X; apply Hx; right; exact X). destruct (str_eqb m n) eqn:E; [|reflexivity]. apply str_eqb_eq in E. subst. exfalso. apply Hx. left. reflexivity.
      - rewrite (IH i Hi HN'). destruct (str_eqb m n) eqn:E; [|reflexivity]. apply str_eqb_eq in E. subst. exfalso. apply Hx. change n with (fst (n, AOpt d)). apply in_map. eapply nth_error_In, Hi. }
    rewrite R1. destruct (d_type d) eqn:Ed; try (exists g; split; [reflexivity|]; apply HSAME; unfold h; rewrite Ed; reflexivity).
    eexists. split; [reflexivity|]. eapply set_entry_ok; [exact HT|apply HG|exact Hi|]. unfold h. rewrite Ed. unfold orel. cbn [c_type c_strat c_special c_int c_bool c_str c_delims d_type d_strat d_special d_int d_bool d_str d_delims]. do 6 (split; [congruence|]). eauto.
  - unfold config_set_default. pose proof (get_opt_ok g t k HT HG) as HO. destruct (resolve t k) as [((n, p), e)|]; [|rewrite HO; cbn [bind]; eauto]. destruct HO as (i & d & Hi & ->). cbn [bind]. destruct (store_nth g t i n _ HT Hi) as (c & Ec & Hr). rewrite Ec. destruct c as [o|]; [|destruct Hr]. cbn [erel] in Hr. pose proof Hr as (R1 & R2 & R3 & R4 & R5 & R6 & ls & R7 & R8).
    rewrite R1. destruct (d_type d) eqn:Ed.
    + eexists. split; [reflexivity|]. eapply set_entry_ok; [exact HT|apply HG|exact Hi|]. cbv beta. rewrite Ed. unfold orel. cbn [c_type c_strat c_special c_int c_bool c_str c_delims d_type d_strat d_special d_int d_bool d_str d_delims]. do 6 (split; [congruence|]). eauto.
    + eexists. split; [reflexivity|]. eapply set_entry_ok; [exact HT|apply HG|exact Hi|]. cbv beta. rewrite Ed. unfold orel. cbn [c_type c_strat c_special c_int c_bool c_str c_delims d_type d_strat d_special d_int d_bool d_str d_delims]. do 6 (split; [congruence|]). eauto.
    + exists g. split; [reflexivity|]. assert (EG : set_entry g i o = g). { destruct g as [ks st]. cbn [set_entry g_keys g_store] in *. unfold set_entry. cbn [g_keys g_store]. f_equal. cbn [app]. rewrite <- (skipn_nth _ _ _ Ec). apply firstn_skipn. } rewrite <- EG. eapply set_entry_ok; [exact HT|apply HG|exact Hi|]. cbv beta. rewrite Ed. exact Hr.
    + rewrite R6. destruct (sl_add_ok true junk [] [] vs (Some (d_delims d)) ltac:(constructor) Ho) as (r & s & ls' & -> & L & Hrr & C). cbn [bind snd]. rewrite (Hrr eq_refl) in C. eexists. split; [reflexivity|]. eapply set_entry_ok; [exact HT|apply HG|exact Hi|]. cbv beta. rewrite Ed. unfold orel. cbn [c_type c_strat c_special c_int c_bool c_str c_delims d_type d_strat d_special d_int d_bool d_str d_delims]. do 6 (split; [congruence|]). eauto.
Qed.
Lemma setups_table junk os : forall g t, table g t -> setups_ok t os -> exists g', run_setups junk g os = Ret g' /\ table g' (fold_left spec_setup os t) /\ good_table (fold_left spec_setup os t).
Proof.
  induction os as [|o os IH]; intros g t HT HS; cbn [run_setups fold_left setups_ok] in *; [exists g; tauto|]. destruct HS as (HG & Ho & HS). destruct (setup_ok junk g t o HT HG Ho) as (g1 & -> & HT1). cbn [bind]. apply IH; assumption.
Qed.
Lemma table_init : table cfg_init [].
Proof. split; [apply kinv_init|constructor]. Qed.

(** * The effect of all values *)
Lemma strip_all_app g a b : strip_all g (a ++ b) = strip_all g a ++ strip_all g b.
Proof. apply flat_map_app. Qed.
Lemma drop_front_idem g x : drop_front g (drop_front g x) = drop_front g x.
Proof. induction x as [|c x IH]; [reflexivity|]. cbn [drop_front]. destruct (memz c g) eqn:E; [exact IH|]. cbn [drop_front]. rewrite E. reflexivity. Qed.
Lemma drop_front_head g x c r : drop_front g x = c :: r -> memz c g = false.
Proof. induction x as [|d x IH]; cbn [drop_front]; [discriminate|]. destruct (memz d g) eqn:E; [exact IH|]. intros [= <- _]. exact E. Qed.
Lemma drop_front_suffix g x : exists r, x = r ++ drop_front g x.
Proof. induction x as [|c x (r & IH)]; [exists []; reflexivity|]. cbn [drop_front]. destruct (memz c g); [exists (c :: r); cbn [app]; rewrite <- IH; reflexivity|exists []; reflexivity]. Qed.
Lemma strip_idem g x : strip g (strip g x) = strip g x.
Proof.
  unfold strip at 1. assert (E : drop_front g (strip g x) = strip g x).
  { unfold strip. set (z := drop_front g x). destruct (drop_front_suffix g (rev z)) as (r & Er). apply (f_equal (@rev Z)) in Er. rewrite rev_involutive, rev_app_distr in Er. set (y := rev (drop_front g (rev z))) in *. destruct y as [|c y]; [reflexivity|]. cbn [drop_front]. assert (Hc : memz c g = false) by (apply (drop_front_head g x c (y ++ rev r)); exact Er). rewrite Hc. reflexivity. }
  rewrite E. unfold strip. rewrite rev_involutive, drop_front_idem. reflexivity.
Qed.
Lemma strip_all_idem g l : strip_all g (strip_all g l) = strip_all g l.
Proof.
  induction l as [|x l IH]; [reflexivity|]. change (strip_all g (x :: l)) with ((match strip g x with [] => [] | y => [y] end) ++ strip_all g l). rewrite strip_all_app, IH. f_equal. destruct (strip g x) as [|c y] eqn:E; [reflexivity|]. unfold strip_all. cbn [flat_map]. rewrite <- E, strip_idem, E. reflexivity.
Qed.
Section E.
Context (stale : Z) (expand : list Z -> nat -> list Z).
Notation gv := (option (list Z) * option (list Z) * list Z * nat)%type.
Definition st_after (st : strategy) : strategy := match st with StDiscard => StAppend | _ => st end.
Lemma fold_set_type gs : forall d, d_type (fold_left (a_set stale expand) gs d) = d_type d /\ d_delims (fold_left (a_set stale expand) gs d) = d_delims d.
Proof.
  induction gs as [|(((p, ds), v), room) gs IH]; intros d; [auto|]. cbn [fold_left]. destruct (IH (a_set stale expand d (p, ds, v, room))) as (-> & ->). unfold a_set.
  assert (H1 : d_type (a_prepend stale d p ds) = d_type d /\ d_delims (a_prepend stale d p ds) = d_delims d) by (unfold a_prepend; destruct p as [x|]; [|auto]; destruct (d_type d) eqn:E; rewrite <- E; [apply a_parse_int_type|apply a_parse_bool_type|apply a_parse_string_type|apply a_parse_string_type]).
  destruct H1 as (<- & <-). unfold a_value. destruct (d_type (a_prepend stale d p ds)) eqn:E; rewrite <- ?E; [apply a_parse_int_type|apply a_parse_bool_type| |apply a_parse_string_type]. destruct (trim_path v); [apply a_parse_string_type|auto].
Qed.
(** Strings. *)
Lemma fold_strings d gs : d_type d = TStr -> d_special d = false ->
  let d' := fold_left (a_set stale expand) gs d in d_str d' = final_strings (d_strat d) (d_str d) (d_delims d) gs /\ (gs <> [] -> d_special d' = true /\ d_strat d' = st_after (d_strat d)).
Proof.
  intros HT HS. cbv zeta. induction gs as [|g gs IH] using rev_ind; [cbn [fold_left final_strings]; split; [reflexivity|congruence]|].
  rewrite fold_left_app. cbn [fold_left]. destruct (fold_set_type gs d) as (ET & ED). rewrite HT in ET. set (e := fold_left (a_set stale expand) gs d) in *. destruct g as (((p, ds), v), room). destruct IH as (IH1 & IH2).
  set (dl := match ds with Some e => e | None => d_delims d end).
  assert (EV : a_set stale expand e (p, ds, v, room) = a_parse_string (match p with Some x => a_parse_string e dl x false | None => e end) dl v true).
  { unfold a_set, a_value, a_prepend. rewrite ET. destruct p as [x|]; [|rewrite ET; unfold dl; rewrite ED; reflexivity]. destruct (a_parse_string_type e (match ds with Some e => e | None => d_delims e end) x false) as (-> & ->). rewrite ET. unfold dl. rewrite ED. reflexivity. }
  rewrite EV. clear EV. assert (EF : final_strings (d_strat d) (d_str d) (d_delims d) (gs ++ [(p, ds, v, room)]) = strip_all blanks (match d_strat d with StDefault | StReplace => pieces dl v | StAppend => d_str d ++ flat_map (strings (d_delims d)) gs ++ (match p with Some x => pieces dl x ++ pieces dl v | None => pieces dl v end) | StDiscard => flat_map (strings (d_delims d)) gs ++ (match p with Some x => pieces dl x ++ pieces dl v | None => pieces dl v end) end)).
  { unfold final_strings. destruct (gs ++ [(p, ds, v, room)]) as [|g0 gs'] eqn:Eg; [destruct gs; discriminate|]. rewrite <- Eg. rewrite last_last. rewrite flat_map_app. cbn [flat_map last_strings strings]. rewrite app_nil_r. reflexivity. }
  rewrite EF. clear EF. destruct gs as [|g0 gs'].
  - assert (Ee : e = d) by reflexivity. rewrite Ee. cbn [flat_map app]. unfold a_parse_string, a_discard, a_str. destruct p as [x|]; destruct (d_strat d) eqn:Es; cbn [d_str d_strat d_special d_type d_int d_bool d_delims]; rewrite ?Es, ?HS; cbn [d_str d_strat d_special d_type d_int d_bool d_delims st_after]; (split; [rewrite ?app_assoc; reflexivity|auto]).
  - destruct (IH2 ltac:(discriminate)) as (S1 & S2). clear IH2. set (gs := g0 :: gs') in *. unfold final_strings in IH1. change gs with (g0 :: gs') in IH1 at 1. cbn iota in IH1.
    unfold a_parse_string, a_discard, a_str. rewrite S2. destruct p as [x|]; destruct (d_strat d) eqn:Es; cbn [d_str d_strat d_special d_type d_int d_bool d_delims st_after]; rewrite ?S2; cbn [st_after]; cbn [d_str d_strat d_special d_type d_int d_bool d_delims]; (split; [|auto]); try reflexivity; rewrite IH1; rewrite ?strip_all_app, ?strip_all_idem, ?strip_all_app, <- ?app_assoc; reflexivity.
Qed.
(** Numbers and booleans. *)
Lemma fold_ints d gs : d_type d = TInt -> d_special d = false -> d_int (fold_left (a_set stale expand) gs d) = final_int stale (d_strat d) (d_int d) (flat_map texts gs).
Proof.
  intros HT HS. assert (E : forall gs d, d_type d = TInt -> fold_left (a_set stale expand) gs d = fold_left (a_parse_int stale) (flat_map texts gs) d).
  { clear. induction gs as [|(((p, ds), v), room) gs IH]; intros d HT; [reflexivity|]. cbn [fold_left flat_map]. rewrite fold_left_app. rewrite <- IH.
    - f_equal. unfold a_set, a_value, a_prepend, texts. destruct p as [x|]; rewrite HT; cbn [fold_left]; [|reflexivity]. destruct (a_parse_int_type stale d x) as (-> & _). rewrite HT. reflexivity.
    - clear IH. generalize (texts (p, ds, v, room)) as ts. intros ts. revert d HT. induction ts as [|u ts IH]; intros d HT; [exact HT|]. cbn [fold_left]. apply IH. destruct (a_parse_int_type stale d u) as (-> & _). exact HT. }
  rewrite E by exact HT. clear E. generalize (flat_map texts gs) as ts. intros ts. unfold final_int.
  assert (HA : forall ts d, d_strat d = StAppend -> d_int (fold_left (a_parse_int stale) ts d) = fold_left (add_number stale) ts (d_int d)).
  { clear. induction ts as [|v ts IH]; intros d Hd; [reflexivity|]. cbn [fold_left]. rewrite IH; unfold a_parse_int; rewrite Hd; [|exact Hd]. cbn [a_int d_int]. f_equal. unfold add_number, number. destruct (scan_d v) as [(x, l)|]; reflexivity. }
  assert (HR : forall ts d, d_strat d = StDefault \/ d_strat d = StReplace -> d_int (fold_left (a_parse_int stale) ts d) = last (flat_map number ts) (d_int d)).
  { clear. induction ts as [|v ts IH] using rev_ind; intros d Hd; [reflexivity|]. rewrite fold_left_app, flat_map_app. cbn [fold_left flat_map]. rewrite app_nil_r. specialize (IH d Hd). assert (Hs : d_strat (fold_left (a_parse_int stale) ts d) = d_strat d). { clear -Hd. revert d Hd. induction ts as [|v ts IH]; intros d Hd; [reflexivity|]. cbn [fold_left]. assert (E : d_strat (a_parse_int stale d v) = d_strat d) by (unfold a_parse_int; destruct Hd as [Hd|Hd]; rewrite Hd; cbn [a_int d_strat]; congruence). rewrite IH; rewrite E; [reflexivity|exact Hd]. }
    unfold a_parse_int at 1. rewrite Hs. unfold number at 2. destruct Hd as [Hd|Hd]; rewrite Hd; cbn [a_int d_int]; (destruct (scan_d v) as [(x, l)|]; [rewrite last_last; reflexivity|rewrite app_nil_r; exact IH]). }
  destruct (d_strat d) eqn:Es; [apply HR; auto|apply HR; auto|apply HA; auto|]. destruct ts as [|v ts]; [reflexivity|]. cbn [fold_left]. rewrite HA; unfold a_parse_int, a_discard; rewrite Es, HS; [|reflexivity]. cbn [a_int d_int]. f_equal. unfold number. destruct (scan_d v) as [(x, l)|]; reflexivity.
Qed.
Lemma fold_bools d gs : d_type d = TBool -> d_special d = false -> d_bool (fold_left (a_set stale expand) gs d) = final_bool (d_strat d) (d_bool d) (flat_map texts gs).
Proof.
  intros HT HS. assert (E : forall gs d, d_type d = TBool -> fold_left (a_set stale expand) gs d = fold_left a_parse_boolean (flat_map texts gs) d).
  { clear. induction gs as [|(((p, ds), v), room) gs IH]; intros d HT; [reflexivity|]. cbn [fold_left flat_map]. rewrite fold_left_app. rewrite <- IH.
    - f_equal. unfold a_set, a_value, a_prepend, texts. destruct p as [x|]; rewrite HT; cbn [fold_left]; [|reflexivity]. destruct (a_parse_bool_type d x) as (-> & _). rewrite HT. reflexivity.
    - clear IH. generalize (texts (p, ds, v, room)) as ts. intros ts. revert d HT. induction ts as [|u ts IH]; intros d HT; [exact HT|]. cbn [fold_left]. apply IH. destruct (a_parse_bool_type d u) as (-> & _). exact HT. }
  rewrite E by exact HT. clear E. generalize (flat_map texts gs) as ts. intros ts. unfold final_bool.
  assert (HA : forall ts d, d_strat d = StAppend -> d_bool (fold_left a_parse_boolean ts d) = d_bool d || existsb bool_of ts).
  { clear. induction ts as [|v ts IH]; intros d Hd; [cbn; rewrite orb_false_r; reflexivity|]. cbn [fold_left existsb]. rewrite IH; unfold a_parse_boolean; rewrite Hd; [|exact Hd]. cbn [a_bool d_bool]. rewrite orb_assoc. reflexivity. }
  assert (HR : forall ts d, d_strat d = StDefault \/ d_strat d = StReplace -> d_bool (fold_left a_parse_boolean ts d) = last (map bool_of ts) (d_bool d)).
  { clear. induction ts as [|v ts IH] using rev_ind; intros d Hd; [reflexivity|]. rewrite fold_left_app, map_app. cbn [fold_left map]. rewrite last_last. assert (Hs : d_strat (fold_left a_parse_boolean ts d) = d_strat d). { clear -Hd. revert d Hd. induction ts as [|v ts IH]; intros d Hd; [reflexivity|]. cbn [fold_left]. assert (E : d_strat (a_parse_boolean d v) = d_strat d) by (unfold a_parse_boolean; destruct Hd as [Hd|Hd]; rewrite Hd; cbn [a_bool d_strat]; congruence). rewrite IH; rewrite E; [reflexivity|exact Hd]. }
    unfold a_parse_boolean at 1. rewrite Hs. destruct Hd as [Hd|Hd]; rewrite Hd; reflexivity. }
  destruct (d_strat d) eqn:Es; [apply HR; auto|apply HR; auto|apply HA; auto|]. destruct ts as [|v ts]; [reflexivity|]. cbn [fold_left existsb]. rewrite HA; unfold a_parse_boolean, a_discard; rewrite Es, HS; reflexivity.
Qed.
(** Paths. *)
Lemma fold_paths d gs : d_type d = TPath -> d_special d = false -> Forall (fun q : gv => fst (fst (fst q)) = None) gs ->
  d_str (fold_left (a_set stale expand) gs d) = final_paths (d_strat d) (d_str d) (flat_map (paths expand) gs).
Proof.
  intros HT HS HF. assert (E : forall gs d, d_type d = TPath -> Forall (fun q : gv => fst (fst (fst q)) = None) gs -> fold_left (a_set stale expand) gs d = fold_left (fun d x => a_parse_string d [] x true) (flat_map (paths expand) gs) d).
  { clear. induction gs as [|(((p, ds), v), room) gs IH]; intros d HT HF; [reflexivity|]. inversion HF as [|? ? Hp HF']; subst. cbn [fst] in Hp. subst p. cbn [fold_left flat_map]. rewrite fold_left_app. rewrite <- IH; [|unfold paths; destruct (trim_path v); cbn [fold_left]; [destruct (a_parse_string_type d [] (expand l room) true) as (-> & _); exact HT|exact HT]|exact HF'].
    f_equal. unfold a_set, a_value, a_prepend, paths. rewrite HT. destruct (trim_path v); reflexivity. }
  rewrite E by assumption. clear E. generalize (flat_map (paths expand) gs) as ps. clear HF. intros ps.
  enough (G : let d' := fold_left (fun d x => a_parse_string d [] x true) ps d in d_str d' = final_paths (d_strat d) (d_str d) ps /\ (ps <> [] -> d_special d' = true /\ d_strat d' = st_after (d_strat d))) by apply G. cbv zeta.
  assert (HP : forall x, pieces [] x = [x]) by (induction x as [|c x IH]; [reflexivity|cbn [pieces]; rewrite IH; reflexivity]).
  induction ps as [|x ps IH] using rev_ind; [split; [reflexivity|congruence]|]. rewrite fold_left_app. cbn [fold_left]. set (e := fold_left (fun d x => a_parse_string d [] x true) ps d) in *. destruct IH as (IH1 & IH2).
  assert (EF : final_paths (d_strat d) (d_str d) (ps ++ [x]) = strip_all blanks (match d_strat d with StDefault | StReplace => [x] | StAppend => d_str d ++ ps ++ [x] | StDiscard => ps ++ [x] end)).
  { unfold final_paths. destruct (ps ++ [x]) as [|y ys] eqn:Ey; [destruct ps; discriminate|]. rewrite <- Ey, last_last. reflexivity. }
  rewrite EF. clear EF. destruct ps as [|y ps'].
  - assert (Ee : e = d) by reflexivity. rewrite Ee. unfold a_parse_string, a_discard, a_str. rewrite HP. destruct (d_strat d) eqn:Es; rewrite ?HS; cbn [d_str d_strat d_special d_type d_int d_bool d_delims st_after app]; (split; [reflexivity|auto]).
  - destruct (IH2 ltac:(discriminate)) as (S1 & S2). clear IH2. set (ps := y :: ps') in *. unfold final_paths in IH1. change ps with (y :: ps') in IH1 at 1. cbn iota in IH1. unfold a_parse_string, a_discard, a_str. rewrite S2, HP. destruct (d_strat d) eqn:Es; cbn [d_str d_strat d_special d_type d_int d_bool d_delims st_after]; (split; [|auto]); try reflexivity; rewrite IH1; rewrite ?strip_all_app, ?strip_all_idem, ?strip_all_app, <- ?app_assoc; reflexivity.
Qed.
End E.

(** * C39 *)
(** Which option a name on a line means. *)
Theorem C39_names t k n p ds : good_table t -> (resolve t k = Some (n, p, ds) <-> (exists d, In (k, AOpt d) t) /\ n = k /\ p = None /\ ds = None \/ In (k, AAlias n p ds) t).
Proof.
  intros (HN & _). unfold resolve. split.
  - destruct (assoc t k) as [[d|tg q r]|] eqn:E; [| |discriminate]; apply assoc_in in E; intros [= <- <- <-]; [left; eauto|right; exact E].
  - intros [((d & H) & -> & -> & ->)|H]; rewrite (in_assoc t k _ HN H); reflexivity.
Qed.
Print Assumptions C39_names.
(** Name and value on a line: the name ends before the first blank, tab or '='; then blanks are skipped; a line without a value has no effect. *)
Theorem C39_split l k v : split_nv l = Some (k, v) <-> exists c b, l = k ++ c :: b ++ v /\ In c [32; 9; 61] /\ (forall x, In x k -> ~ In x [32; 9; 61]) /\ (forall x, In x b -> In x [9; 32]) /\ exists d r, v = d :: r /\ ~ In d [9; 32].
Proof.
  assert (HM : forall x g, memz x g = true <-> In x g) by (intros x g; unfold memz; rewrite existsb_exists; split; [intros (y & Hy & E); apply Z.eqb_eq in E; congruence|intros H; exists x; split; [exact H|apply Z.eqb_refl]]).
  split.
  - revert k. induction l as [|c l IH]; intros k; cbn [split_nv]; [discriminate|]. destruct (memz c [32; 9; 61]) eqn:Ec.
    + pose proof (npbrk_ok [9; 32] l) as HN. destruct (npbrk [9; 32] l) as [h|]; [|discriminate]. intros [= <- <-]. destruct HN as (Hl & Hd & Hn). exists c, (firstn h l). rewrite firstn_skipn. split; [reflexivity|]. split; [apply HM, Ec|]. split; [intros x []|].
      assert (HB : forall l h, drop_front [9; 32] l = skipn h l -> drop_front [9; 32] l <> [] -> (h <= length l)%nat -> forall x, In x (firstn h l) -> In x [9; 32]).
      { clear -HM. induction l as [|y l IH]; intros h Hd Hn Hh x Hx; [destruct h; destruct Hx|]. destruct h as [|h]; [destruct Hx|]. cbn [firstn skipn drop_front length] in *. destruct (memz y [9; 32]) eqn:Ey; [destruct Hx as [<-|Hx]; [apply HM, Ey|apply (IH h Hd Hn ltac:(lia) x Hx)]|]. exfalso. apply (f_equal (@length Z)) in Hd. rewrite skipn_length in Hd. cbn [length] in Hd. lia. }
      split; [apply (HB l h Hd Hn Hl)|]. rewrite <- Hd. destruct (drop_front [9; 32] l) as [|d r] eqn:E; [congruence|]. exists d, r. split; [reflexivity|]. pose proof (drop_front_head _ _ _ _ E) as X. intros Y. apply HM in Y. congruence.
    + destruct (split_nv l) as [(k', v')|] eqn:E; [|discriminate]. intros [= <- <-]. destruct (IH k' eq_refl) as (c' & b & -> & H1 & H2 & H3 & H4). exists c', b. split; [reflexivity|]. split; [exact H1|]. split; [|auto]. intros x [<-|Hx]; [|apply H2, Hx]. intros Y. apply HM in Y. congruence.
  - intros (c & b & -> & Hc & Hk & Hb & d & r & -> & Hd). induction k as [|x k IH]; cbn [app split_nv].
    + apply HM in Hc. rewrite Hc. assert (EN : npbrk [9; 32] (b ++ d :: r) = Some (length b)). { clear -Hb Hd HM. induction b as [|y b IH]; cbn [app npbrk length]; [destruct (memz d [9; 32]) eqn:E; [apply HM in E; contradiction|reflexivity]|]. assert (Ey : memz y [9; 32] = true) by (apply HM, Hb; left; reflexivity). rewrite Ey, IH by (intros z Hz; apply Hb; right; exact Hz). reflexivity. }
      rewrite EN. rewrite skipn_app, skipn_all, Nat.sub_diag. reflexivity.
    + destruct (memz x [32; 9; 61]) eqn:Ex; [exfalso; apply (Hk x); [left; reflexivity|apply HM, Ex]|]. rewrite IH; [reflexivity|]. intros y Hy. apply Hk. right. exact Hy.
Qed.
Print Assumptions C39_split.
(** The reading of a boolean: a leading digit decides; otherwise the words in the first seven characters, in any case. *)
Theorem C39_boolean v : let has w := exists a b, str_to_lower (firstn 7 v) = a ++ w ++ b in let fls := [102; 97; 108; 115; 101] in let tru := [116; 114; 117; 101] in let no := [110; 111] in let yes := [121; 101; 115] in
  (forall c r, v = c :: r -> 48 <= c <= 57 -> (bool_of v = true <-> c <> 48)) /\
  ((forall c r, v = c :: r -> ~ 48 <= c <= 57) -> (bool_of v = true <-> ~ has fls /\ (has tru \/ ~ has no /\ has yes))).
Proof.
  intros has fls tru no yes. assert (HH : forall w, has_str w (str_to_lower (firstn 7 v)) = true <-> has w).
  { intros w. unfold has_str, has. pose proof (find_str_ok w (str_to_lower (firstn 7 v))) as F. destruct (find_str w (str_to_lower (firstn 7 v))) as [i|]; [destruct F as (a & b & E & _); split; [eauto|reflexivity]|split; [discriminate|]]. intros (a & b & E). exfalso. apply (F a b E). }
  assert (HW : (if has_str fls (str_to_lower (firstn 7 v)) then false else if has_str tru (str_to_lower (firstn 7 v)) then true else if has_str no (str_to_lower (firstn 7 v)) then false else has_str yes (str_to_lower (firstn 7 v))) = true <-> ~ has fls /\ (has tru \/ ~ has no /\ has yes)).
  { rewrite <- !HH. destruct (has_str fls _), (has_str tru _), (has_str no _), (has_str yes _); intuition congruence. }
  split.
  - intros c r -> Hc. unfold bool_of. replace ((48 <=? c) && (c <=? 57)) with true by lia. split; [intros X Y; subst; discriminate|intros X; lia].
  - intros Hd. rewrite <- HW. unfold bool_of. fold fls tru no yes. destruct v as [|c r]; [reflexivity|]. specialize (Hd c r eq_refl). replace ((48 <=? c) && (c <=? 57)) with false by lia. reflexivity.
Qed.
Print Assumptions C39_boolean.
(** The reading of a path: the quotes at its end and the quotes and blanks at its start go. *)
Theorem C39_path v : match trim_path v with
  | Some x => exists a b, v = a ++ x ++ b /\ (forall c, In c a -> In c [34; 9; 32]) /\ (forall c, In c b -> c = 34) /\ (exists d r, x = d :: r /\ ~ In d [34; 9; 32]) /\ last x 0 <> 34
  | None => forall c, In c v -> In c [34; 9; 32]
  end.
Proof.
  assert (HM : forall x g, memz x g = true <-> In x g) by (intros x g; unfold memz; rewrite existsb_exists; split; [intros (y & Hy & E); apply Z.eqb_eq in E; congruence|intros H; exists x; split; [exact H|apply Z.eqb_refl]]).
  assert (HD : forall g l, exists r, l = r ++ drop_front g l /\ forall c, In c r -> In c g).
  { intros g. induction l as [|c l (r & E & Hr)]; [exists []; split; [reflexivity|intros c []]|]. cbn [drop_front]. destruct (memz c g) eqn:Ec; [exists (c :: r); split; [cbn [app]; congruence|intros x [<-|Hx]; [apply HM, Ec|apply Hr, Hx]]|exists []; split; [reflexivity|intros x []]]. }
  destruct (HD [34] (rev v)) as (q & Eq & Hq). apply (f_equal (@rev Z)) in Eq. rewrite rev_involutive, rev_app_distr in Eq. unfold trim_path. pose proof (rnpbrk_ok [34] v) as HR. destruct (rnpbrk [34] v) as [t|].
  - destruct HR as (Hl & HR). rewrite HR in Eq. set (y := firstn (S t) v) in *. destruct (HD [34; 9; 32] y) as (a & Ea & Ha). pose proof (npbrk_ok [34; 9; 32] y) as HP. destruct (npbrk [34; 9; 32] y) as [h|].
    + destruct HP as (Hh & Hd & Hn). rewrite <- Hd. exists a, (rev q). split; [rewrite app_assoc, <- Ea; exact Eq|]. split; [exact Ha|]. split; [intros c Hc; apply in_rev in Hc; destruct (Hq c Hc) as [<-|[]]; reflexivity|].
      destruct (drop_front [34; 9; 32] y) as [|d r] eqn:E; [congruence|]. split; [exists d, r; split; [reflexivity|]; intros Y; apply HM in Y; pose proof (drop_front_head _ _ _ _ E); congruence|].
      intros L. assert (Ly : last y 0 = 34). { rewrite Ea. clear -L. induction a as [|x a IH]; [exact L|]. cbn [app last]. destruct (a ++ d :: r) eqn:E; [destruct a; discriminate|exact IH]. }
      clearbody y. destruct (drop_front [34] (rev v)) as [|z zs] eqn:Ez; cbn [rev] in HR; [subst y; destruct a; discriminate|]. rewrite <- HR, last_last in Ly. subst z. apply drop_front_head in Ez. discriminate.
    + rewrite HP, app_nil_r in Ea. intros c Hc. rewrite Eq in Hc. apply in_app_or in Hc. destruct Hc as [Hc|Hc]; [apply Ha; rewrite <- Ea; exact Hc|]. apply in_rev in Hc. destruct (Hq c Hc) as [<-|[]]. left. reflexivity.
  - rewrite HR in Eq. cbn [app] in Eq. rewrite app_nil_r in Eq || idtac. intros c Hc. rewrite Eq in Hc. cbn [app] in Hc. apply in_rev in Hc. destruct (Hq c Hc) as [<-|[]]. left. reflexivity.
Qed.
Print Assumptions C39_path.

Lemma setup_fresh os : forall t, (forall n d, In (n, AOpt d) t -> d_special d = false) -> forall n d, In (n, AOpt d) (fold_left spec_setup os t) -> d_special d = false.
Proof.
  induction os as [|o os IH]; intros t H; [exact H|]. cbn [fold_left]. apply IH. clear IH. intros n d Hi. destruct o as [m st ty vi vb vs|tg m p ds|k ds|k vi vb vs]; cbn [spec_setup] in Hi.
  - apply in_app_or in Hi. destruct Hi as [Hi|[[= <- <-]|[]]]; [apply (H n d Hi)|reflexivity].
  - apply in_app_or in Hi. destruct Hi as [Hi|[X|[]]]; [apply (H n d Hi)|discriminate].
  - destruct (resolve t k) as [((m, p), e)|]; [|apply (H n d Hi)]. apply a_update_in in Hi. destruct Hi as (e0 & Hi & E). destruct (str_eqb n m); [|subst e0; apply (H n d Hi)]. destruct e0 as [d0|]; [|discriminate]. injection E as ->. destruct (d_type d0); cbn [d_special]; apply (H n d0 Hi).
  - destruct (resolve t k) as [((m, p), e)|]; [|apply (H n d Hi)]. apply a_update_in in Hi. destruct Hi as (e0 & Hi & E). destruct (str_eqb n m); [|subst e0; apply (H n d Hi)]. destruct e0 as [d0|]; [|discriminate]. injection E as ->. destruct (d_type d0); cbn [d_special]; apply (H n d0 Hi).
Qed.
Lemma resolve_fold lines stale expand : forall t k, NoDup (map fst t) -> resolve (fold_left (a_line stale expand) lines t) k = resolve t k.
Proof.
  induction lines as [|l lines IH]; intros t k HN; [reflexivity|]. cbn [fold_left]. unfold a_line at 2. destruct (split_nv l) as [(q, v)|]; [|apply IH, HN]. destruct (resolve t q) as [((m, p), ds)|]; [|apply IH, HN]. rewrite IH by (rewrite a_update_fst; exact HN). apply resolve_update, HN.
Qed.
(** The set-up calls and the reading of a file, for every table of options that can be set up, and every file all of whose lines fit in the buffer of 2048
    bytes ([line_ok], [end_ok] as in C38).  What is missing: lines that do not fit (C39_long_refuted: the rest of such a line can be taken as option lines of
    its own) and prepended texts for path options. *)
Theorem C39_values_partial junk stale expand os bs fuel : (forall x room, ~ In 0 x -> ~ In 0 (expand x room)) -> setups_ok [] os -> let t := fold_left spec_setup os [] in
  Forall (line_ok 2048) (file_lines bs) -> end_ok bs -> (length bs < fuel)%nat ->
  exists g0 g, run_setups junk cfg_init os = Ret g0 /\ config_read junk stale expand fuel g0 (mkf bs false) 0 = Ret (Z.of_nat (length (filter (counts t) (content bs))), g) /\
    (forall name, resolve t name = None -> config_get g name = Ret None) /\
    (forall name n p ds, resolve t name = Some (n, p, ds) -> config_get g name = config_get g n) /\
    forall name d, In (name, AOpt d) t -> exists o, config_get g name = Ret (Some o) /\ c_type o = d_type d /\
      let gs := given t name (content bs) in
      match d_type d with
      | TInt => c_int o = final_int stale (d_strat d) (d_int d) (flat_map texts gs)
      | TBool => c_bool o = final_bool (d_strat d) (d_bool d) (flat_map texts gs)
      | TStr => exists m, forall w, (m < w)%nat -> sl_walk w (c_str o) None = Ret (final_strings (d_strat d) (d_str d) (d_delims d) gs)
      | TPath => Forall (fun q => fst (fst (fst q)) = None) gs -> exists m, forall w, (m < w)%nat -> sl_walk w (c_str o) None = Ret (final_paths (d_strat d) (d_str d) (flat_map (paths expand) gs))
      end.
Proof.
  intros HX HS t HF HE Hf. destruct (setups_table junk os cfg_init [] table_init HS) as (g0 & E0 & HT & HG). fold t in HT, HG. destruct (config_read_ok junk stale expand HX fuel g0 t bs false 0 HT HG ltac:(discriminate) HF HE Hf) as (g & E1 & HT' & HG').
  exists g0, g. split; [exact E0|]. split; [exact E1|]. set (t' := fold_left (a_line stale expand) (content bs) t) in *.
  assert (HR : forall k, resolve t' k = resolve t k) by (intros k; apply resolve_fold, HG). split; [|split].
  - intros name Hn. unfold config_get. pose proof (get_opt_ok g t' name HT' HG') as X. rewrite HR, Hn in X. rewrite X. reflexivity.
  - intros name n p ds Hn. assert (Hn2 : resolve t n = Some (n, None, None)).
    { apply C39_names in Hn; [|exact HG]. apply C39_names; [exact HG|]. left. destruct Hn as [(Hd & -> & _)|Hi]; [auto|]. destruct HG as (_ & _ & HA & _). split; [exact (HA _ _ _ _ Hi)|auto]. }
    unfold config_get. pose proof (get_opt_ok g t' name HT' HG') as X. rewrite HR, Hn in X. pose proof (get_opt_ok g t' n HT' HG') as Y. rewrite HR, Hn2 in Y. destruct X as (i & d & Hi & ->). destruct Y as (j & e & Hj & ->). cbn [bind].
    assert (i = j) as ->; [|reflexivity]. destruct HG' as (HN & _). assert (H1 : nth_error (map fst t') i = Some n) by (rewrite nth_error_map, Hi; reflexivity). assert (H2 : nth_error (map fst t') j = Some n) by (rewrite nth_error_map, Hj; reflexivity). pose proof (str_index_nth _ _ _ HN H1). pose proof (str_index_nth _ _ _ HN H2). congruence.
  - intros name d Hi. pose proof (fold_option stale expand (content bs) t name d ltac:(apply HG) Hi) as Hi'. fold t' in Hi'. set (gs := given t name (content bs)) in *. assert (Hn : resolve t' name = Some (name, None, None)) by (apply C39_names; [exact HG'|]; left; eauto).
    pose proof (get_opt_ok g t' name HT' HG') as X. rewrite Hn in X. destruct X as (i & e & Hj & X). unfold config_get. rewrite X. cbn [bind]. destruct (store_nth g t' i name _ HT' Hj) as (c & -> & Hr). destruct c as [o|]; [|destruct Hr]. cbn [erel] in Hr.
    assert (Ee : e = fold_left (a_set stale expand) gs d). { destruct HG' as (HN & _). pose proof (in_assoc t' name _ HN (nth_error_In _ _ Hj)) as A1. pose proof (in_assoc t' name _ HN Hi') as A2. congruence. }
    exists o. split; [reflexivity|]. destruct Hr as (R1 & R2 & R3 & R4 & R5 & R6 & ls & R7 & R8). subst e. destruct (fold_set_type stale expand gs d) as (T1 & T2). split; [congruence|]. cbv zeta. assert (Hs : d_special d = false) by (apply (setup_fresh os [] ltac:(intros ? ? []) name d Hi)).
    destruct (d_type d) eqn:Ed.
    + rewrite R4. apply fold_ints; assumption.
    + rewrite R5. apply fold_bools; assumption.
    + intros HP. rewrite <- (fold_paths stale expand d gs Ed Hs HP), <- R8. exists (length (concat ls)). intros w Hw. apply walk_ok; assumption.
    + destruct (fold_strings stale expand d gs Ed Hs) as (E & _). rewrite <- E, <- R8. exists (length (concat ls)). intros w Hw. apply walk_ok; assumption.
Qed.
Print Assumptions C39_values_partial.

Require Import Ascii String.
Fixpoint bytes (s : string) : list Z := match s with EmptyString => [] | String a s' => Z.of_nat (nat_of_ascii a) :: bytes s' end.
(** Some of the options of main.c. *)
Definition ex_setup : list sop :=
  [SOpt (bytes "LogFileThresholdLength") StDefault TInt 102400 false None; SOpt (bytes "LogOn") StDefault TBool 0 false None;
   SOpt (bytes "LogFileFolder") StReplace TPath 0 false (Some (bytes "/d/")); SOpt (bytes "UDPLocal") StDiscard TStr 0 false None; SDelims (bytes "UDPLocal") [44]; SDefault (bytes "UDPLocal") 0 false (bytes "127.0.0.1:53");
   SOpt (bytes "ServerGroup") StAppend TStr 0 false None; SDelims (bytes "ServerGroup") [32]; SAlias (bytes "ServerGroup") (bytes "GroupFile") (Some (bytes "FILE")) (Some []); SAlias (bytes "ServerGroup") (bytes "UDPGroup") (Some (bytes "UDP")) None].
Definition ex_file : list Z :=
  bytes "LogOn=1 # on" ++ [10] ++ bytes "LogFileThresholdLength 7" ++ [10] ++ bytes "UDPLocal  1.1.1.1:5, ,[::1]:5 " ++ [10] ++ bytes "Nothing 5" ++ [10] ++ bytes "UDPGroup 8.8.8.8 * on" ++ [10] ++ bytes "LogFileFolder=/a/" ++ [10]
  ++ bytes "LogFileThresholdLength x" ++ [10] ++ bytes "UDPLocal 2.2.2.2:5" ++ [10] ++ bytes "GroupFile a b" ++ [10] ++ bytes "LogFileFolder " ++ [34] ++ bytes "/b c/" ++ [34; 10].
Fixpoint nonulb (l : list Z) : bool := match l with [] => true | c :: l' => negb (c =? 0) && nonulb l' end.
Lemma nonulb_ok l : nonulb l = true -> ~ In 0 l.
Proof. induction l as [|c l IH]; cbn [nonulb]; [auto|]. intros H [->|X]; [discriminate|]. apply andb_prop in H. apply (IH (proj2 H) X). Qed.
Lemma ex_good os : match os with [] => True | _ => True end -> (exists k, os = firstn k ex_setup) -> good_table (fold_left spec_setup os []).
Proof.
  intros _ (k & ->). assert (HK : exists j, (j <= 10)%nat /\ firstn k ex_setup = firstn j ex_setup). { destruct (Nat.le_gt_cases k 10) as [H|H]; [exists k; auto|exists 10%nat; split; [lia|]]. rewrite firstn_all2 by (cbn [ex_setup List.length]; lia). reflexivity. }
  destruct HK as (j & Hj & ->). clear k.
  assert (ND : forall l : list (list Z), (fix nd l := match l with [] => true | x :: l' => negb (existsb (str_eqb x) l') && nd l' end) l = true -> NoDup l).
  { induction l as [|x l IH]; intros H; [constructor|]. apply andb_prop in H. destruct H as (H1 & H2). constructor; [|apply IH, H2]. intros X. apply negb_true_iff in H1. assert (existsb (str_eqb x) l = true) by (apply existsb_exists; exists x; split; [exact X|apply str_eqb_refl]). congruence. }
  do 11 (destruct j as [|j]; [clear Hj; set (t := fold_left spec_setup _ []); vm_compute in t; split; [apply ND; vm_compute; reflexivity|]; split; [intros n e Hi; repeat (destruct Hi as [[= <- <-]|Hi]; [vm_compute; intuition congruence|]); destruct Hi|]; split; intros n tg p d Hi; repeat (destruct Hi as [X|Hi]; [first [discriminate X | injection X as <- <- <- <-; first [eexists; vm_compute; tauto | apply nonulb_ok; vm_compute; reflexivity]]|]); destruct Hi|]). lia.
Qed.
Example C39_nonvacuous : setups_ok [] ex_setup /\ Forall (line_ok 2048) (file_lines ex_file) /\ end_ok ex_file /\
  content ex_file = [bytes "LogOn=1"; bytes "LogFileThresholdLength 7"; bytes "UDPLocal  1.1.1.1:5, ,[::1]:5"; bytes "Nothing 5"; bytes "UDPGroup 8.8.8.8 * on"; bytes "LogFileFolder=/a/"; bytes "LogFileThresholdLength x"; bytes "UDPLocal 2.2.2.2:5"; bytes "GroupFile a b"; bytes "LogFileFolder " ++ [34] ++ bytes "/b c/" ++ [34]]%list /\
  let show r k := match r with Ret (n, g) => match config_get g k with Ret (Some o) => (n, c_int o, c_bool o, sl_walk 20 (c_str o) None) | _ => (0, 0, false, Fuel) end | _ => (0, 0, false, Fuel) end in
  let r := let! g := run_setups (fun _ => 1) cfg_init ex_setup in config_read (fun _ => 1) 5 (fun x _ => x) 2000 g (mkf ex_file false) 0 in
  show r (bytes "LogOn") = (9, 0, true, Ret []) /\ show r (bytes "LogFileThresholdLength") = (9, 7, false, Ret []) /\ show r (bytes "LogFileFolder") = (9, 0, false, Ret [bytes "/b c/"]) /\
  show r (bytes "UDPLocal") = (9, 0, false, Ret [bytes "1.1.1.1:5"; bytes "[::1]:5"; bytes "2.2.2.2:5"]) /\
  show r (bytes "UDPGroup") = (9, 0, false, Ret [bytes "UDP"; bytes "8.8.8.8"; bytes "*"; bytes "on"; bytes "FILE"; bytes "a b"]).
Proof.
  split.
  { assert (H : forall k os, skipn k ex_setup = os -> (forall o, In o os -> sop_ok o) -> setups_ok (fold_left spec_setup (firstn k ex_setup) []) os).
    { intros k os. revert k. induction os as [|o os IH]; intros k Hk Ho; cbn [setups_ok]; (split; [apply ex_good; [destruct (firstn k ex_setup); exact I|eauto]|]); [exact I|]. split; [apply Ho; left; reflexivity|].
      assert (Hn : nth_error ex_setup k = Some o) by (rewrite <- (firstn_skipn k ex_setup), nth_error_app2; rewrite firstn_length; assert (k < List.length ex_setup)%nat by (apply (f_equal (@List.length sop)) in Hk; rewrite skipn_length in Hk; cbn [List.length] in Hk; lia); [replace (k - Nat.min k (List.length ex_setup))%nat with 0%nat by lia; rewrite Hk; reflexivity|lia]).
      specialize (IH (S k)). rewrite (firstn_S_nth _ _ _ Hn), fold_left_app in IH. cbn [fold_left] in IH. apply IH; [|intros q Hq; apply Ho; right; exact Hq]. rewrite (List2Facts.skipn_nth k _ _ Hn) in Hk. congruence. }
    apply (H 0%nat ex_setup eq_refl). intros o Ho. repeat (destruct Ho as [<-|Ho]; [cbn [sop_ok]; first [exact I | apply nonulb_ok; vm_compute; reflexivity]|]). destruct Ho. }
  split.
  { assert (HL : forall l, ((List.length l + 2 <=? 2048)%nat && nonulb l && negb (existsb (Z.eqb 59) l) && negb (existsb (Z.eqb 13) l))%bool = true -> line_ok 2048 l).
    { intros l H. apply andb_prop in H. destruct H as (H & H4). apply andb_prop in H. destruct H as (H & H3). apply andb_prop in H. destruct H as (H1 & H2). apply Nat.leb_le in H1. apply nonulb_ok in H2. apply negb_true_iff in H3, H4.
      assert (HN : forall c, existsb (Z.eqb c) l = false -> forall a b, l <> (a ++ c :: b)%list) by (intros c Hc a b E; assert (existsb (Z.eqb c) l = true) by (apply existsb_exists; exists c; split; [rewrite E; apply in_or_app; right; left; reflexivity|apply Z.eqb_refl]); congruence).
      split; [exact H1|]. split; [exact H2|]. split; [intros a b E; destruct (HN 59 H3 a b E)|intros a b E; destruct (HN 13 H4 a b E)]. }
    assert (HB : forallb (fun l => ((List.length l + 2 <=? 2048)%nat && nonulb l && negb (existsb (Z.eqb 59) l) && negb (existsb (Z.eqb 13) l))%bool) (file_lines ex_file) = true) by (vm_compute; reflexivity).
    apply Forall_forall. intros l Hl. apply HL. rewrite forallb_forall in HB. apply HB, Hl. }
  split; [left; vm_compute; reflexivity|]. split; [vm_compute; reflexivity|]. vm_compute. repeat split; reflexivity.
Qed.
(** A line that does not fit: the file has one line, and it names no option; but its rest sets one. *)
Definition long_file : list Z := (bytes "Nothing " ++ repeat 97 2039 ++ bytes "LogOn 1")%list.
Theorem C39_long_refuted : content long_file = [long_file] /\ (exists v, split_nv long_file = Some (bytes "Nothing", v)) /\ resolve (fold_left spec_setup ex_setup []) (bytes "Nothing") = None /\
  exists g0 g o, run_setups (fun _ => 1) cfg_init ex_setup = Ret g0 /\ config_read (fun _ => 1) 5 (fun x _ => x) 3000 g0 (mkf long_file false) 0 = Ret (1, g) /\ config_get g (bytes "LogOn") = Ret (Some o) /\ c_bool o = true.
Proof.
  split; [vm_compute; reflexivity|]. split; [eexists; vm_compute; reflexivity|]. split; [vm_compute; reflexivity|].
  assert (H : match run_setups (fun _ => 1) cfg_init ex_setup with Ret g0 => match config_read (fun _ => 1) 5 (fun x _ => x) 3000 g0 (mkf long_file false) 0 with Ret (1, g) => match config_get g (bytes "LogOn") with Ret (Some o) => c_bool o | _ => false end | _ => false end | _ => false end = true) by (vm_compute; reflexivity).
  destruct (run_setups (fun _ => 1) cfg_init ex_setup) as [g0| | |]; try discriminate. destruct (config_read (fun _ => 1) 5 (fun x _ => x) 3000 g0 (mkf long_file false) 0) as [(n, g)| | |] eqn:E; try discriminate. exists g0, g. destruct n as [|[| |]|]; try discriminate. destruct (config_get g (bytes "LogOn")) as [[o|]| | |]; try discriminate. exists o. auto.
Qed.
Print Assumptions C39_long_refuted.
