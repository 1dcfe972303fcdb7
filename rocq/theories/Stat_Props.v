(** C48: the statistics add up. *)
From Verif Require Import Base BaseFacts List2Facts Hash_Model Sht_Model Sht_Proofs Chunk_Model Chunk_Spec Chunk_Proofs Stat_Model.
Require Import ZifyBool ZifyNat.

(** * Specification *)
Notation event := (list Z * stype)%type.

(** The events that count: those that do not fall between the beginning and the end of writing the page. *)
Fixpoint recorded (skip : bool) (ops : list sop) : list event :=
  match ops with
  | [] => []
  | SEvent d _ t :: ops' => if skip then recorded skip ops' else (d, t) :: recorded skip ops'
  | SBegin :: ops' => recorded true ops'
  | SEnd :: ops' => recorded false ops'
  end.

Definition stype_eqb (a b : stype) : bool :=
  match a, b with
  | SRefused, SRefused | SHosts, SHosts | SCache, SCache | SUdp, SUdp | STcp, STcp | SBlocked, SBlocked => true
  | _, _ => false
  end.
Definition name_dec := list_eq_dec Z.eq_dec.

(** How many of the events are of kind [t]. *)
Definition times (t : stype) (evs : list event) : Z := Z.of_nat (length (filter (fun e => stype_eqb (snd e) t) evs)).
Definition totals (evs : list event) : info :=
  mk_info (times SRefused evs + times SHosts evs + times SCache evs + times SUdp evs + times STcp evs)
          (times SRefused evs) (times SHosts evs) (times SCache evs) (times SUdp evs) (times STcp evs) (times SBlocked evs).
(** The events about domain [d]. *)
Definition about (d : list Z) (evs : list event) : list event := filter (fun e => if name_dec (fst e) d then true else false) evs.
(** The domains, in the order of their first event. *)
Fixpoint domains_from (l : list (list Z)) (evs : list event) : list (list Z) :=
  match evs with
  | [] => l
  | e :: evs' => domains_from (if in_dec name_dec (fst e) l then l else l ++ [fst e]) evs'
  end.
Definition domains := domains_from [].

(** * Lemmas *)
Lemma domains_from_app l a b : domains_from l (a ++ b) = domains_from (domains_from l a) b.
Proof. revert l. induction a as [|e a IH]; intros l; cbn [app domains_from]; auto. Qed.
Lemma domains_snoc evs e : domains (evs ++ [e]) = if in_dec name_dec (fst e) (domains evs) then domains evs else domains evs ++ [fst e].
Proof. unfold domains. rewrite domains_from_app. reflexivity. Qed.
Lemma domains_from_nodup evs : forall l, NoDup l -> NoDup (domains_from l evs).
Proof.
  induction evs as [|e evs IH]; intros l H; cbn [domains_from]; [exact H|]. apply IH. destruct (in_dec _ _ _) as [|N]; [exact H|].
  clear IH. induction l as [|x l IHl]; cbn [app].
  - constructor; [tauto|constructor].
  - inversion_clear H. constructor.
    + rewrite in_app_iff. cbn [In]. intros [A|[A|[]]]; [auto|]. apply N. left. congruence.
    + apply IHl; auto. intros A. apply N. right. exact A.
Qed.
Lemma domains_from_in evs : forall l d, In d (domains_from l evs) <-> In d l \/ In d (map fst evs).
Proof.
  induction evs as [|e evs IH]; intros l d; cbn [domains_from map In]; [tauto|]. rewrite IH. destruct (in_dec _ _ _) as [N|N].
  - split; [tauto|]. intros [A|[A|A]]; auto. subst. auto.
  - rewrite in_app_iff. cbn [In]. tauto.
Qed.
Lemma times_app t a b : times t (a ++ b) = times t a + times t b.
Proof. unfold times. rewrite filter_app, app_length. lia. Qed.
Lemma times_one t d t' : times t [(d, t')] = if stype_eqb t' t then 1 else 0.
Proof. unfold times. cbn [filter snd]. destruct (stype_eqb t' t); reflexivity. Qed.
Lemma totals_snoc evs d t : totals (evs ++ [(d, t)]) = info_bump t (totals evs).
Proof. unfold totals. rewrite !times_app, !times_one. destruct t; cbn [stype_eqb info_bump i_count i_refused i_hosts i_cache i_udp i_tcp i_blocked]; f_equal; lia. Qed.
Lemma totals_app a b : totals (a ++ b) = info_sum (totals a) (totals b).
Proof. unfold totals, info_sum. rewrite !times_app. cbn. f_equal; lia. Qed.
Lemma about_snoc_same evs d t : about d (evs ++ [(d, t)]) = about d evs ++ [(d, t)].
Proof. unfold about. rewrite filter_app. cbn [filter fst]. destruct (name_dec d d); [reflexivity|congruence]. Qed.
Lemma about_snoc_other evs d d' t : d' <> d -> about d (evs ++ [(d', t)]) = about d evs.
Proof. intros N. unfold about. rewrite filter_app. cbn [filter fst]. destruct (name_dec d' d); [congruence|apply app_nil_r]. Qed.
Lemma about_none evs d : ~ In d (domains evs) -> about d evs = [].
Proof.
  intros N. unfold domains in N. rewrite domains_from_in in N. unfold about. assert (N' : ~ In d (map fst evs)) by tauto. clear N.
  induction evs as [|e evs IH]; cbn [filter map In] in *; [reflexivity|]. destruct (name_dec (fst e) d); [exfalso; apply N'; auto|]. apply IH. tauto.
Qed.
Lemma info_new_bump t : info_new t = info_bump t info0.
Proof. destruct t; reflexivity. Qed.

Lemma info_update_map (f : list Z -> info) (g : info -> info) (h : list Z -> info) l : forall k d, NoDup l -> nth_error l k = Some d ->
  h d = g (f d) -> (forall d', In d' l -> d' <> d -> h d' = f d') -> info_update (map f l) k g = map h l.
Proof.
  induction l as [|x l IH]; intros k d HN HK HD HO; [destruct k; discriminate|]. inversion_clear HN as [|? ? NI HN']. destruct k as [|k]; cbn [map info_update nth_error] in *.
  - injection HK as ->. rewrite HD. f_equal. apply map_ext_in. intros d' Hd'. rewrite HO; [reflexivity|right; exact Hd'|]. intros ->. auto.
  - rewrite (HO x); [|left; reflexivity|].
    + f_equal. apply (IH k d); auto. intros d' A. apply HO. right. exact A.
    + intros ->. apply NI. eapply nth_error_In; eauto.
Qed.

Definition positions (rs : list (list Z * option nat)) : Prop := map snd rs = map Some (seq 0 (length rs)).
Lemma positions_nth rs d k : positions rs -> In (d, Some k) rs -> nth_error rs k = Some (d, Some k).
Proof.
  intros HP HI. apply In_nth_error in HI. destruct HI as (j & Hj). assert (E : nth_error (map snd rs) j = Some (Some k)) by (rewrite nth_error_map, Hj; reflexivity).
  rewrite HP in E. rewrite nth_error_map in E. assert (Hl : (j < length rs)%nat) by (apply nth_error_Some; congruence).
  rewrite (nth_error_nth' (seq 0 (length rs)) 0%nat) in E by (rewrite seq_length; exact Hl). rewrite seq_nth in E by exact Hl. cbn in E. injection E as E. subst. exact Hj.
Qed.
Lemma positions_some rs d o : positions rs -> In (d, o) rs -> exists k, o = Some k /\ (k < length rs)%nat.
Proof.
  intros HP HI. assert (E : In o (map snd rs)) by (apply in_map_iff; exists (d, o); auto). rewrite HP in E. apply in_map_iff in E. destruct E as (k & <- & Hk).
  apply in_seq in Hk. exists k. split; [reflexivity|lia].
Qed.
Lemma positions_snoc rs d : positions rs -> positions (rs ++ [(d, Some (length rs))]).
Proof. unfold positions. intros H. rewrite map_app, app_length, H. cbn [length map snd]. rewrite Nat.add_1_r, seq_S, map_app. reflexivity. Qed.

(** What a search in the rule set of the statistics returns. *)
Lemma wild_loop_in fn (l : list (entry nat)) s acc d : wild_loop fn l s acc = Some d -> exists e, In e l /\ e_data e = d.
Proof.
  induction l as [|e l IH]; cbn [wild_loop]; [discriminate|]. destruct (_ && _); intros H; [injection H as <-; exists e; cbn; auto|]. destruct (IH H) as (e' & A & B). exists e'. cbn. auto.
Qed.
Lemma match_in fn (k : chunk nat) rs d : kinv k rs -> exists r, chunk_match fn k d (Some (bkdr d)) (fun _ => true) = Ret r /\ forall o, r = Some o -> exists d', In (d', o) rs.
Proof.
  intros HK. unfold chunk_match, orelse. rewrite (match_plain_ok k rs d _ _ HK (or_intror eq_refl)). cbn [bind]. eexists. split; [reflexivity|]. intros o.
  destruct (find _ (rev rs)) as [[d' o']|] eqn:E; cbn [option_map snd].
  - intros H. injection H as <-. apply find_some in E. destruct E as [E _]. apply in_rev in E. eauto.
  - unfold match_wild. intros H. destruct (wild_loop_in _ _ _ _ _ H) as (e & HI & <-). destruct HK as [_ _ HW]. rewrite HW in HI. apply in_map_iff in HI.
    destruct HI as ([d' o'] & <- & HI). apply filter_In in HI. exists d'. cbn. tauto.
Qed.
Lemma match_exact fn (k : chunk nat) rs d : kinv k rs -> (forall r, In r rs -> has_wildcard (fst r) = false) ->
  exists r, chunk_match fn k d (Some (bkdr d)) (fun _ => true) = Ret r /\ match r with Some o => In (d, o) rs | None => ~ In d (map fst rs) end.
Proof.
  intros HK HP. unfold chunk_match, orelse. rewrite (match_plain_ok k rs d _ _ HK (or_intror eq_refl)). cbn [bind]. eexists. split; [reflexivity|].
  destruct (find _ (rev rs)) as [[d' o']|] eqn:E; cbn [option_map snd].
  - apply find_some in E. destruct E as [E F]. apply in_rev in E. cbn [fst snd] in F. rewrite andb_true_r in F. apply andb_prop in F. destruct F as [_ F]. apply str_eqb_eq in F. subst. exact E.
  - unfold match_wild. destruct HK as [_ _ HW]. replace (k_wild k) with (@nil (entry nat)).
    + cbn [wild_loop]. intros HI. apply in_map_iff in HI. destruct HI as ([d' o] & <- & HI). pose proof (find_none _ _ E (d', o) (proj1 (in_rev _ _) HI)) as F. cbn [fst snd] in F.
      pose proof (HP _ HI) as W. cbn [fst] in W. rewrite W in F. cbn [negb] in F. assert (R : str_eqb d' d' = true) by (apply str_eqb_eq; reflexivity). rewrite R in F. discriminate.
    + rewrite HW. symmetry. clear - HP. induction rs as [|r rs IH]; cbn [filter map]; [reflexivity|]. rewrite (HP r (or_introl eq_refl)). apply IH. intros r' A. apply HP. right. exact A.
Qed.

Section S.
Context (fn : list Z -> list Z -> bool).
Definition hashed (ops : list sop) : Prop := forall d hv t, In (SEvent d hv t) ops -> hv = bkdr d.

(** ** Plain names *)
Record pinv (s : stat) (evs : list event) : Prop := {
  pi_rules : exists rs, kinv (st_chunk s) rs /\ positions rs /\ map fst rs = domains evs /\ (forall r, In r rs -> has_wildcard (fst r) = false);
  pi_infos : st_infos s = map (fun d => totals (about d evs)) (domains evs) }.
Lemma pinv_add s evs d t : pinv s evs -> st_skip s = false -> has_wildcard d = false ->
  exists s', stat_add fn s d (bkdr d) t = Ret s' /\ st_skip s' = false /\ pinv s' (evs ++ [(d, t)]).
Proof.
  intros [(rs & HK & HP & HD & HW) HI] HS Hd. unfold stat_add. rewrite HS. destruct (match_exact fn _ rs d HK HW) as (r & -> & Hr). cbn [bind].
  assert (HL : length (st_infos s) = length rs) by (rewrite HI, map_length, <- HD, map_length; reflexivity).
  assert (HN : NoDup (domains evs)) by (apply domains_from_nodup; constructor).
  destruct r as [o|].
  - destruct (positions_some _ _ _ HP Hr) as (k & -> & Hk). eexists. split; [reflexivity|]. split; [reflexivity|].
    assert (Hin : In d (domains evs)) by (rewrite <- HD; apply in_map_iff; exists (d, Some k); auto).
    assert (ED : domains (evs ++ [(d, t)]) = domains evs) by (rewrite domains_snoc; cbn [fst]; destruct (in_dec _ _ _); tauto).
    split; cbn [st_chunk st_infos]; rewrite ED.
    + exists rs. auto.
    + rewrite HI. apply info_update_map with (d := d); [exact HN| | |].
      * rewrite <- HD, nth_error_map, (positions_nth _ _ _ HP Hr). reflexivity.
      * rewrite about_snoc_same. apply totals_snoc.
      * intros d' _ N. rewrite about_snoc_other by congruence. reflexivity.
  - eexists. split; [reflexivity|]. split; [reflexivity|]. rewrite HD in Hr.
    assert (ED : domains (evs ++ [(d, t)]) = domains evs ++ [d]) by (rewrite domains_snoc; cbn [fst]; destruct (in_dec _ _ _); tauto).
    split; cbn [st_chunk st_infos]; rewrite ED.
    + exists (rs ++ [(d, Some (length (st_infos s)))]). split; [apply kinv_add; exact HK|]. split; [rewrite HL; apply positions_snoc; exact HP|].
      split; [rewrite map_app, HD; reflexivity|]. intros r A. apply in_app_or in A. destruct A as [A|[<-|[]]]; [auto|exact Hd].
    + rewrite map_app. cbn [map]. rewrite about_snoc_same, (about_none _ _ Hr), totals_snoc, info_new_bump. f_equal. rewrite HI. apply map_ext_in. intros d' A.
      rewrite about_snoc_other; [reflexivity|]. intros ->. auto.
Qed.
Lemma pinv_flag s evs b : pinv s evs -> pinv (mk_stat (st_chunk s) (st_infos s) b) evs.
Proof. intros [A B]. split; assumption. Qed.
Lemma pinv_run ops : forall s evs, pinv s evs -> hashed ops -> (forall d hv t, In (SEvent d hv t) ops -> has_wildcard d = false) ->
  exists s', stat_run fn s ops = Ret s' /\ pinv s' (evs ++ recorded (st_skip s) ops).
Proof.
  induction ops as [|o ops IH]; intros s evs HI HH HW; cbn [stat_run recorded].
  - exists s. rewrite app_nil_r. auto.
  - assert (HH' : hashed ops) by (intros d hv t A; apply (HH d hv t); right; exact A).
    assert (HW' : forall d hv t, In (SEvent d hv t) ops -> has_wildcard d = false) by (intros d hv t A; apply (HW d hv t); right; exact A).
    destruct o as [d hv t| |].
    + rewrite (HH d hv t (or_introl eq_refl)). destruct (st_skip s) eqn:ES.
      * unfold stat_add. rewrite ES. cbn [bind]. destruct (IH s evs HI HH' HW') as (s' & A & B). rewrite ES in B. eauto.
      * destruct (pinv_add s evs d t HI ES (HW d hv t (or_introl eq_refl))) as (s1 & -> & E1 & I1). cbn [bind].
        destruct (IH s1 _ I1 HH' HW') as (s' & A & B). rewrite E1, <- app_assoc in B. eauto.
    + apply (IH (stat_begin s) evs (pinv_flag _ _ _ HI) HH' HW').
    + apply (IH (stat_end s) evs (pinv_flag _ _ _ HI) HH' HW').
Qed.

(** ** All names *)
Definition balanced (i : info) : Prop := i_count i = i_refused i + i_hosts i + i_cache i + i_udp i + i_tcp i.
Definition sum_infos (l : list info) : info := fold_right info_sum info0 l.
Record ginv (s : stat) (evs : list event) : Prop := {
  gi_rules : exists rs, kinv (st_chunk s) rs /\ positions rs /\ length (st_infos s) = length rs;
  gi_sum : sum_infos (st_infos s) = totals evs;
  gi_bal : Forall balanced (st_infos s) }.
Lemma info_sum_bump t a b : info_sum (info_bump t a) b = info_bump t (info_sum a b).
Proof. destruct t; unfold info_sum, info_bump; cbn; f_equal; lia. Qed.
Lemma info_sum_comm a b : info_sum a b = info_sum b a.
Proof. unfold info_sum. f_equal; lia. Qed.
Lemma sum_update t l : forall k, (k < length l)%nat -> sum_infos (info_update l k (info_bump t)) = info_bump t (sum_infos l).
Proof.
  induction l as [|i l IH]; intros k Hk; cbn [length] in Hk; [lia|]. destruct k as [|k]; cbn [info_update sum_infos fold_right].
  - apply info_sum_bump.
  - fold (sum_infos (info_update l k (info_bump t))). fold (sum_infos l). rewrite IH by lia. rewrite info_sum_comm, info_sum_bump, info_sum_comm. reflexivity.
Qed.
Lemma sum_snoc l i : sum_infos (l ++ [i]) = info_sum (sum_infos l) i.
Proof.
  induction l as [|x l IH]; cbn [app sum_infos fold_right].
  - unfold info_sum, info0. cbn. destruct i; cbn; f_equal; lia.
  - fold (sum_infos (l ++ [i])). fold (sum_infos l). rewrite IH. unfold info_sum. cbn. f_equal; lia.
Qed.
Lemma bump_balanced t i : balanced i -> balanced (info_bump t i).
Proof. destruct t; unfold balanced, info_bump; cbn; lia. Qed.
Lemma update_balanced t l : forall k, Forall balanced l -> Forall balanced (info_update l k (info_bump t)).
Proof.
  induction l as [|i l IH]; intros k H; cbn [info_update]; [destruct k; exact H|]. inversion_clear H. destruct k as [|k]; constructor; auto. apply bump_balanced. assumption.
Qed.
Lemma update_length l f : forall k, length (info_update l k f) = length l.
Proof. induction l as [|i l IH]; intros [|k]; cbn [info_update length]; auto. Qed.
Lemma ginv_add s evs d t : ginv s evs -> st_skip s = false -> exists s', stat_add fn s d (bkdr d) t = Ret s' /\ st_skip s' = false /\ ginv s' (evs ++ [(d, t)]).
Proof.
  intros [(rs & HK & HP & HL) HT HB] HS. unfold stat_add. rewrite HS. destruct (match_in fn _ rs d HK) as (r & -> & Hr). cbn [bind]. destruct r as [o|].
  - destruct (Hr o eq_refl) as (d' & HI). destruct (positions_some _ _ _ HP HI) as (k & -> & Hk). eexists. split; [reflexivity|]. split; [reflexivity|]. split; cbn [st_chunk st_infos].
    + exists rs. rewrite update_length. auto.
    + rewrite sum_update by lia. rewrite HT. symmetry. apply totals_snoc.
    + apply update_balanced. exact HB.
  - eexists. split; [reflexivity|]. split; [reflexivity|]. split; cbn [st_chunk st_infos].
    + exists (rs ++ [(d, Some (length (st_infos s)))]). split; [apply kinv_add; exact HK|]. split; [rewrite HL; apply positions_snoc; exact HP|]. rewrite !app_length. cbn. lia.
    + rewrite sum_snoc, HT, totals_app. f_equal. destruct t; reflexivity.
    + apply Forall_app. split; [exact HB|]. repeat constructor. rewrite info_new_bump. apply bump_balanced. reflexivity.
Qed.
Lemma ginv_flag s evs b : ginv s evs -> ginv (mk_stat (st_chunk s) (st_infos s) b) evs.
Proof. intros [A B C]. split; assumption. Qed.
Lemma ginv_run ops : forall s evs, ginv s evs -> hashed ops -> exists s', stat_run fn s ops = Ret s' /\ ginv s' (evs ++ recorded (st_skip s) ops).
Proof.
  induction ops as [|o ops IH]; intros s evs HI HH; cbn [stat_run recorded].
  - exists s. rewrite app_nil_r. auto.
  - assert (HH' : hashed ops) by (intros d hv t A; apply (HH d hv t); right; exact A). destruct o as [d hv t| |].
    + rewrite (HH d hv t (or_introl eq_refl)). destruct (st_skip s) eqn:ES.
      * unfold stat_add. rewrite ES. cbn [bind]. destruct (IH s evs HI HH') as (s' & A & B). rewrite ES in B. eauto.
      * destruct (ginv_add s evs d t HI ES) as (s1 & -> & E1 & I1). cbn [bind]. destruct (IH s1 _ I1 HH') as (s' & A & B). rewrite E1, <- app_assoc in B. eauto.
    + apply (IH (stat_begin s) evs (ginv_flag _ _ _ HI) HH').
    + apply (IH (stat_end s) evs (ginv_flag _ _ _ HI) HH').
Qed.

(** ** The page *)
Lemma report_ok infos rs : forall sum, (forall r, In r rs -> exists k, snd r = Some k /\ (k < length infos)%nat) ->
  forall l, map (fun e => (e_str e, e_data e)) l = rs ->
  report_loop infos l sum = (map (fun r => (fst r, nth (match snd r with Some k => k | None => O end) infos info0)) rs,
    fold_left info_sum (map (fun r => nth (match snd r with Some k => k | None => O end) infos info0) rs) sum).
Proof.
  induction rs as [|r rs IH]; intros sum HR l HL; (destruct l as [|e l]; cbn [map] in HL; try discriminate); cbn [report_loop map fold_left]; [reflexivity|].
  injection HL as HE HL. subst r. cbn [fst snd]. destruct (HR _ (or_introl eq_refl)) as (k & Hk & Hl). cbn [snd] in Hk. rewrite Hk. rewrite (nth_error_nth' infos info0 Hl).
  rewrite (IH (info_sum sum (nth k infos info0)) (fun r A => HR r (or_intror A)) l HL). reflexivity.
Qed.
Lemma fold_sum l : forall a, fold_left info_sum l a = info_sum a (sum_infos l).
Proof.
  induction l as [|x l IH]; intros a; cbn [fold_left sum_infos fold_right].
  - unfold info_sum, info0. cbn. destruct a; cbn; f_equal; lia.
  - fold (sum_infos l). rewrite IH. unfold info_sum. cbn. f_equal; lia.
Qed.
Lemma info_sum_0 a : info_sum info0 a = a.
Proof. unfold info_sum, info0. cbn. destruct a; reflexivity. Qed.
Lemma map_nth_seq {A} (l : list A) d : map (fun k => nth k l d) (seq 0 (length l)) = l.
Proof.
  induction l as [|x l IH]; cbn [length seq map nth]; [reflexivity|]. f_equal. rewrite <- seq_shift, map_map. exact IH.
Qed.
Lemma filter_all {A} (f : A -> bool) l : (forall x, In x l -> f x = true) -> filter f l = l.
Proof. induction l as [|x l IH]; intros H; cbn [filter]; [reflexivity|]. rewrite (H x (or_introl eq_refl)), IH; auto. intros y A0. apply H. right. exact A0. Qed.
Lemma report_pinv s evs : pinv s evs -> ginv s evs -> stat_report s = (map (fun d => (d, totals (about d evs))) (domains evs), totals evs).
Proof.
  intros [(rs & HK & HP & HD & HW) HI] [_ HT _]. unfold stat_report.
  assert (HL : length (st_infos s) = length rs) by (rewrite HI, map_length, <- HD, map_length; reflexivity).
  assert (HR : forall r, In r rs -> exists k, snd r = Some k /\ (k < length (st_infos s))%nat).
  { intros [d o] A. destruct (positions_some _ _ _ HP A) as (k & -> & Hk). exists k. split; [reflexivity|lia]. }
  rewrite (report_ok (st_infos s) rs info0 HR).
  - set (g := fun r : list Z * option nat => nth (match snd r with Some k => k | None => O end) (st_infos s) info0).
    assert (E : map g rs = st_infos s).
    { transitivity (map (fun o => nth (match o with Some k => k | None => O end) (st_infos s) info0) (map snd rs)); [rewrite map_map; reflexivity|].
      rewrite HP, map_map, <- HL. apply map_nth_seq. }
    f_equal.
    + rewrite <- HD. rewrite map_map. rewrite HI in E. rewrite <- HD, map_map in E. clear - E. induction rs as [|r rs IH]; cbn [map] in *; [reflexivity|].
      injection E as E1 E2. f_equal; [f_equal; exact E1|]. apply IH. exact E2.
    + change (fold_left info_sum (map g rs) info0 = totals evs). rewrite E, fold_sum, HT. apply info_sum_0.
  - rewrite (chunk_enum_ok _ _ HK). apply filter_all. intros r A. rewrite (HW r A). reflexivity.
Qed.

Lemma pinv_init : pinv stat_init [].
Proof. split; [|reflexivity]. exists []. split; [apply kinv_init|]. split; [reflexivity|]. split; [reflexivity|]. intros r []. Qed.
Lemma ginv_init : ginv stat_init [].
Proof. split; [|reflexivity|constructor]. exists []. split; [apply kinv_init|]. split; reflexivity. Qed.

(** * C48 *)

(** Full statement: after any sequence of events, the page lists every domain with an event, once, with the number of its
    refused, hosts, cache, UDP, TCP and blocked events and the total of the first five; and the sums over all domains.  Proved
    for names without the characters * ? [ , and arbitrary pauses for writing the page; see [C48_wildcard_refuted] for others. *)
Theorem C48_page_partial ops : hashed ops -> (forall d hv t, In (SEvent d hv t) ops -> has_wildcard d = false) ->
  exists s, stat_run fn stat_init ops = Ret s /\
    let evs := recorded false ops in
    stat_report s = (map (fun d => (d, totals (about d evs))) (domains evs), totals evs) /\
    NoDup (domains evs) /\ (forall d, In d (domains evs) <-> In d (map fst evs)).
Proof.
  intros HH HW. destruct (pinv_run ops stat_init [] pinv_init HH HW) as (s & E & HP). destruct (ginv_run ops stat_init [] ginv_init HH) as (s' & E' & HG).
  rewrite E in E'. injection E' as <-. exists s. split; [exact E|]. cbv zeta. split; [apply report_pinv; [exact HP|exact HG]|].
  split; [apply domains_from_nodup; constructor|]. intros d. unfold domains. rewrite domains_from_in. cbn. tauto.
Qed.

(** For all names: every recorded event is counted in exactly one of the counters kept, under its kind, and each total kept
    is the sum of its five kinds. *)
Theorem C48_once ops : hashed ops ->
  exists s, stat_run fn stat_init ops = Ret s /\ sum_infos (st_infos s) = totals (recorded false ops) /\
    Forall (fun i => i_count i = i_refused i + i_hosts i + i_cache i + i_udp i + i_tcp i) (st_infos s).
Proof.
  intros HH. destruct (ginv_run ops stat_init [] ginv_init HH) as (s & E & [_ HT HB]). exists s. split; [exact E|]. split; [exact HT|exact HB].
Qed.

(** A query for the name "*" makes the page lose every domain that has no line yet. *)
Theorem C48_wildcard_refuted : (forall s, fn [42] s = true) -> forall d t, has_wildcard d = false ->
  exists ops s, hashed ops /\ recorded false ops = [([42], SUdp); (d, t)] /\ stat_run fn stat_init ops = Ret s /\ stat_report s = ([], info0).
Proof.
  intros HF d t Hd. exists [SEvent [42] (bkdr [42]) SUdp; SEvent d (bkdr d) t].
  assert (HH : hashed [SEvent [42] (bkdr [42]) SUdp; SEvent d (bkdr d) t]) by (intros d' hv t' [A|[A|[]]]; congruence).
  eexists. split; [exact HH|]. split; [reflexivity|]. cbn [stat_run].
  assert (E : stat_add fn stat_init [42] (bkdr [42]) SUdp = Ret (mk_stat (mk_chunk (sht_init 5) [mk_entry [42] (Some O)]) [info_new SUdp] false)) by reflexivity.
  rewrite E. cbn [bind]. unfold stat_add. cbn [st_skip].
  assert (HK : kinv (mk_chunk (sht_init 5) [mk_entry [42] (Some 0%nat)]) [([42], Some O)]) by (split; [apply sinv_init|reflexivity..]).
  assert (E2 : chunk_match fn (mk_chunk (sht_init 5) [mk_entry [42] (Some 0%nat)]) d (Some (bkdr d)) (fun _ => true) = Ret (Some (Some O))).
  { unfold chunk_match, orelse. rewrite (match_plain_ok _ _ d _ _ HK (or_intror eq_refl)). cbn [rev app find option_map fst snd has_wildcard existsb Z.eqb Pos.eqb orb negb andb bind].
    unfold match_wild. cbn [k_wild wild_loop e_str e_data]. rewrite HF. reflexivity. }
  cbn [st_chunk]. rewrite E2. cbn [bind]. split; [reflexivity|]. reflexivity.
Qed.
End S.
Print Assumptions C48_page_partial.
Print Assumptions C48_once.
Print Assumptions C48_wildcard_refuted.

(** Three domains, one event during the writing of the page. *)
Example C48_nonvacuous :
  let a := [97] in let b := [98; 46; 99] in
  let ops := [SEvent a (bkdr a) SUdp; SEvent b (bkdr b) SRefused; SEvent a (bkdr a) SCache; SBegin; SEvent a (bkdr a) STcp; SEnd; SEvent a (bkdr a) SBlocked; SEvent b (bkdr b) SHosts] in
  hashed ops /\ (forall d hv t, In (SEvent d hv t) ops -> has_wildcard d = false) /\
  match stat_run (fun _ _ => false) stat_init ops with
  | Ret s => stat_report s = ([(a, mk_info 2 0 0 1 1 0 1); (b, mk_info 2 1 1 0 0 0 0)], mk_info 4 1 1 1 1 0 1)
  | _ => False
  end.
Proof.
  cbv zeta. split; [|split].
  - intros d hv t H. cbn [In] in H. repeat (destruct H as [H|H]; [try discriminate; injection H as <- <- <-; reflexivity|]). contradiction.
  - intros d hv t H. cbn [In] in H. repeat (destruct H as [H|H]; [try discriminate; injection H as <- <- <-; reflexivity|]). contradiction.
  - vm_compute. reflexivity.
Qed.
