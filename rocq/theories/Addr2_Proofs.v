From Verif Require Import Base BaseFacts ListFacts List2Facts Hash_Model Ttl_Model Ttl_Spec Ttl_Proofs Addr_Model Addr_Spec Addr_Proofs.
Require Import ZifyBool ZifyNat.

(** * IPv6 text to number *)
Lemma Forall2_length {A B} (R : A -> B -> Prop) l m : Forall2 R l m -> length l = length m.
Proof. induction 1; cbn [length]; congruence. Qed.
Arguments Forall2_length {A B R l m}.
Lemma group_facts t g : group t g -> t <> [] /\ ~ In 58 t /\ ~ In 37 t /\ (forall c, In c t -> is_space c = false) /\ 0 <= g < 65536.
Proof.
  intros (H & Hg). destruct (hexadecimal_facts t g H) as (N & HD & _ & H0). split; [exact N|].
  split; [intros X; destruct (HD _ X) as (d & Hd); destruct (hexit_digit _ _ Hd); lia|].
  split; [intros X; destruct (HD _ X) as (d & Hd); destruct (hexit_digit _ _ Hd); lia|]. split; [|lia].
  intros c X; destruct (HD _ X) as (d & Hd); destruct (hexit_digit _ _ Hd) as (_ & _ & _ & _ & E). exact E.
Qed.
Definition tail_ok (r : list Z) : Prop := ~ In 58 r /\ (r = [] \/ exists w, r = 37 :: w).
Lemma tail_stop r : tail_ok r -> r = [] \/ exists c r', r = c :: r' /\ (c = 58 \/ c = 37).
Proof. intros (_ & [H|(w & ->)]); [auto|right; eauto 6]. Qed.

Lemma scan_groups ts gs r : Forall2 group ts gs -> ts <> [] -> tail_ok r -> forall n, length ts = n -> scan_list scan_x 58 n (join 58 ts ++ r) = gs.
Proof.
  intros HF. induction HF as [|t g ts gs Ht HF IH]; intros N Hr n E; [contradiction|]. destruct n as [|n]; [discriminate|]. injection E as E.
  destruct ts as [|t2 ts].
  - inversion HF; subst. cbn [join scan_list]. rewrite (scan_x_ok t g r Ht (tail_stop r Hr)). reflexivity.
  - destruct n as [|n]; [discriminate|]. change (join 58 (t :: t2 :: ts)) with (t ++ 58 :: join 58 (t2 :: ts)). rewrite <- app_assoc. cbn [app]. cbn [scan_list].
    rewrite (scan_x_ok t g _ Ht) by (right; eauto 6). change (58 =? 58) with true. cbv iota. f_equal. exact (IH ltac:(discriminate) Hr (S n) E).
Qed.
Lemma colons_none t : ~ In 58 t -> str_colons t = false.
Proof. induction t as [|c t IH]; intros H; cbn [str_colons]; [reflexivity|]. destruct (Z.eqb_spec c 58) as [->|]; [exfalso; apply H; left; reflexivity|]. cbn [andb orb]. apply IH. intros X. apply H. right. exact X. Qed.
Lemma colons_skip t u : ~ In 58 t -> t <> [] -> str_colons (t ++ u) = str_colons u \/ exists c r, u = c :: r /\ str_colons (t ++ u) = str_colons u.
Proof.
  intros H N. left. induction t as [|c t IH]; [contradiction|]. cbn [app str_colons]. destruct (Z.eqb_spec c 58) as [->|]; [exfalso; apply H; left; reflexivity|]. cbn [andb orb].
  destruct t as [|d t]; [reflexivity|]. apply IH; [intros X; apply H; right; exact X|discriminate].
Qed.
Lemma colons_app t u : ~ In 58 t -> str_colons (t ++ u) = str_colons u.
Proof. intros H. destruct t as [|c t]; [reflexivity|]. destruct (colons_skip (c :: t) u H) as [E|(x & r & _ & E)]; [discriminate|exact E|exact E]. Qed.
Lemma join_no_colons ts gs r : Forall2 group ts gs -> tail_ok r -> str_colons (join 58 ts ++ r) = false.
Proof.
  intros HF (Hr & _). induction HF as [|t g ts gs Ht HF IH]; [apply colons_none, Hr|]. destruct (group_facts t g Ht) as (N & NC & _).
  destruct ts as [|t2 ts]; [cbn [join]; rewrite colons_app by exact NC; apply colons_none, Hr|].
  change (join 58 (t :: t2 :: ts)) with (t ++ 58 :: join 58 (t2 :: ts)). rewrite <- app_assoc. rewrite colons_app by exact NC. cbn [app str_colons]. rewrite IH, orb_false_r. change (58 =? 58) with true. cbn [andb].
  inversion HF as [|? g2 ? ? Ht2]; subst. destruct (group_facts t2 g2 Ht2) as (N2 & NC2 & _). destruct t2 as [|c t2]; [contradiction|]. destruct ts; cbn [join app]; (destruct (Z.eqb_spec c 58) as [->|]; [exfalso; apply NC2; left; reflexivity|reflexivity]).
Qed.
Lemma join_colons tp pre u : Forall2 group tp pre -> str_colons (join 58 tp ++ 58 :: 58 :: u) = true.
Proof.
  intros HF. induction HF as [|t g ts gs Ht HF IH]; [reflexivity|]. destruct (group_facts t g Ht) as (N & NC & _).
  destruct ts as [|t2 ts]; [cbn [join]; rewrite colons_app by exact NC; reflexivity|].
  change (join 58 (t :: t2 :: ts)) with (t ++ 58 :: join 58 (t2 :: ts)). rewrite <- app_assoc. rewrite colons_app by exact NC. cbn [app str_colons]. rewrite IH. apply orb_true_r.
Qed.
Lemma skip_space_join ts gs u : Forall2 group ts gs -> (u = [] \/ exists c u', u = c :: u' /\ is_space c = false) -> skip_space (join 58 ts ++ u) = join 58 ts ++ u.
Proof.
  intros HF Hu. destruct HF as [|t g ts gs Ht HF]; cbn [join app].
  - destruct Hu as [->|(c & u' & -> & E)]; [reflexivity|apply skip_space_hd, E].
  - destruct (group_facts t g Ht) as (N & _ & _ & NS & _). destruct t as [|c t]; [contradiction|]. assert (E : is_space c = false) by (apply NS; left; reflexivity).
    destruct ts; cbn [app]; apply skip_space_hd, E.
Qed.

(** ** The groups before "::" *)
Definition fr (tp : list (list Z)) : list Z := concat (map (fun t => t ++ [58]) tp).
Definition bk (tq : list (list Z)) : list Z := concat (map (fun t => 58 :: t) tq).
Lemma join_fr t tp : join 58 (t :: tp) ++ [58] = fr (t :: tp).
Proof.
  revert t. induction tp as [|t2 tp IH]; intros t; [cbn; rewrite app_nil_r; reflexivity|].
  change (join 58 (t :: t2 :: tp)) with (t ++ 58 :: join 58 (t2 :: tp)). rewrite <- app_assoc. cbn [app]. rewrite IH. unfold fr. cbn [map concat]. rewrite <- !app_assoc. reflexivity.
Qed.
Lemma join_bk t tq : 58 :: join 58 (t :: tq) = bk (t :: tq).
Proof.
  revert t. induction tq as [|t2 tq IH]; intros t; [cbn; rewrite app_nil_r; reflexivity|].
  change (join 58 (t :: t2 :: tq)) with (t ++ 58 :: join 58 (t2 :: tq)). rewrite IH. unfold bk. cbn [map concat]. reflexivity.
Qed.
Lemma str_chr_app c t u : ~ In c t -> str_chr c (t ++ c :: u) = Some (c :: u).
Proof. induction t as [|x t IH]; intros H; cbn [app str_chr]; [rewrite Z.eqb_refl; reflexivity|]. destruct (Z.eqb_spec x c) as [->|]; [exfalso; apply H; left; reflexivity|]. apply IH. intros X. apply H. right. exact X. Qed.
Lemma set_word_at d z k v : 0 <= v < 65536 -> set_word (d ++ repeat z (S k)) (Z.of_nat (length d)) v = Ret (d ++ v :: repeat z k).
Proof.
  intros Hv. unfold set_word. rewrite app_length, repeat_length. assert (E : (0 <=? Z.of_nat (length d)) && (Z.of_nat (length d) <? Z.of_nat (length d + S k)) = true) by lia. rewrite E.
  rewrite Nat2Z.id, firstn_app, Nat.sub_diag, firstn_all, app_nil_r, skipn_app, skipn_all2, Z.mod_small by lia. cbn [app]. replace (S (length d) - length d)%nat with 1%nat by lia. reflexivity.
Qed.
Lemma front_ok stale tp pre : Forall2 group tp pre -> forall fuel d k u, (length pre <= k)%nat -> (length tp < fuel)%nat ->
  v6_front fuel stale (d ++ repeat 0 k) (Z.of_nat (length d)) (fr tp ++ 58 :: u) = Ret (d ++ pre ++ repeat 0 (k - length pre), false).
Proof.
  induction 1 as [|t g tp pre Ht HF IH]; intros fuel d k u Hk Hf; destruct fuel as [|fuel]; try (cbn [length] in Hf; lia).
  - cbn [fr map concat app v6_front str_chr]. change (58 =? 58) with true. cbv iota. rewrite Nat.eqb_refl, Nat.sub_0_r. reflexivity.
  - destruct (group_facts t g Ht) as (N & NC & _ & _ & Hg). cbn [length] in *. destruct k as [|k]; [lia|].
    unfold fr. cbn [map concat]. fold (fr tp). rewrite <- !app_assoc. cbn [app v6_front]. rewrite str_chr_app by exact NC.
    assert (E : Nat.eqb (length (58 :: fr tp ++ 58 :: u)) (length (t ++ 58 :: fr tp ++ 58 :: u)) = false).
    { apply Nat.eqb_neq. rewrite app_length. destruct t; [contradiction|]. cbn [length]. lia. }
    rewrite E, (scan_x_ok t g _ Ht) by (right; eauto 6). rewrite set_word_at by exact Hg. cbn [bind tl].
    replace (Z.of_nat (length d) + 1) with (Z.of_nat (length (d ++ [g]))) by (rewrite app_length; cbn [length]; lia).
    replace (d ++ g :: repeat 0 k) with ((d ++ [g]) ++ repeat 0 k) by (rewrite <- app_assoc; reflexivity).
    rewrite IH by lia. rewrite <- app_assoc. replace (S k - S (length pre))%nat with (k - length pre)%nat by lia. reflexivity.
Qed.

(** ** The groups behind "::" *)
Lemma last_colon_ok s p : nth_error s p = Some 58 -> forall n, (forall i, (p < i <= p + n)%nat -> nth_error s i <> Some 58) -> last_colon s (p + n) = Some p.
Proof.
  intros Hp n. induction n as [|n IH]; intros H.
  - rewrite Nat.add_0_r. destruct p; cbn [last_colon]; rewrite Hp; reflexivity.
  - replace (p + S n)%nat with (S (p + n)) by lia. cbn [last_colon]. specialize (H (S (p + n)) ltac:(lia)) as H1.
    assert (E : match nth_error s (S (p + n)) with Some c => c =? 58 | None => false end = false).
    { destruct (nth_error s (S (p + n))) as [c|]; [|reflexivity]. destruct (Z.eqb_spec c 58) as [->|]; [contradiction|reflexivity]. }
    rewrite E. apply IH. intros i Hi. apply H. lia.
Qed.
Lemma set_word_before d z k v e : 0 <= v < 65536 -> set_word (d ++ repeat z (S k) ++ e) (Z.of_nat (length d + k)) v = Ret (d ++ repeat z k ++ v :: e).
Proof.
  intros Hv. unfold set_word. rewrite !app_length, repeat_length. assert (E : (0 <=? Z.of_nat (length d + k)) && (Z.of_nat (length d + k) <? Z.of_nat (length d + (S k + length e))) = true) by lia. rewrite E.
  rewrite Nat2Z.id, Z.mod_small by lia. replace (repeat z (S k)) with (repeat z k ++ [z]) by (rewrite <- repeat_cons; reflexivity). rewrite <- app_assoc. cbn [app].
  rewrite (app_assoc d). rewrite firstn_app, skipn_app. rewrite !app_length, repeat_length. rewrite Nat.sub_diag. rewrite firstn_all2 by (rewrite app_length, repeat_length; lia).
  rewrite skipn_all2 by (rewrite app_length, repeat_length; lia). replace (S (length d + k) - (length d + k))%nat with 1%nat by lia. cbn [firstn skipn app]. rewrite app_nil_r, <- app_assoc. reflexivity.
Qed.
Lemma bk_snoc tq t : bk (tq ++ [t]) = bk tq ++ 58 :: t.
Proof. unfold bk. rewrite map_app, concat_app. cbn [map concat]. rewrite app_nil_r. reflexivity. Qed.
Lemma back_ok stale d : forall tq post, Forall2 group tq post -> forall fuel F k e R s stop, tq <> [] -> (length post <= k)%nat -> (length tq <= fuel)%nat ->
  s = F ++ 58 :: bk tq ++ R -> (R = [] \/ exists c r', R = c :: r' /\ (c = 58 \/ c = 37)) ->
  ((stop = length F + length (bk tq))%nat \/ (stop = length s /\ ~ In 58 R)) ->
  v6_back fuel stale (d ++ repeat 0 k ++ e) (Z.of_nat (length d + k) - 1) s stop = Ret (d ++ repeat 0 (k - length post) ++ post ++ e).
Proof.
  intros tq. induction tq as [|t tq IH] using rev_ind; intros post HF fuel F k e R s stop N Hk Hf Es HR Hstop; [contradiction|].
  apply Forall2_app_inv_l in HF. destruct HF as (post' & l2 & HF & HF2 & ->). inversion HF2 as [|? g ? ? Ht HF3]; subst. inversion HF3; subst. clear HF2 HF3 N.
  destruct (group_facts t g Ht) as (Nt & NC & _ & _ & Hg). rewrite app_length in *. cbn [length] in *. destruct fuel as [|fuel]; [lia|]. destruct k as [|k]; [lia|].
  rewrite bk_snoc in *. rewrite app_length in Hstop. cbn [length] in Hstop. rewrite <- (app_assoc (bk tq)) in *. cbn [app] in *.
  set (p := (length F + 1 + length (bk tq))%nat). set (s := F ++ 58 :: bk tq ++ 58 :: t ++ R) in *.
  assert (Es : s = (F ++ 58 :: bk tq) ++ 58 :: t ++ R) by (unfold s; rewrite <- app_assoc; reflexivity).
  assert (Lp : length (F ++ 58 :: bk tq) = p) by (rewrite app_length; cbn [length]; unfold p; lia).
  assert (Hp : nth_error s p = Some 58) by (rewrite Es, nth_error_app2, Lp, Nat.sub_diag by lia; reflexivity).
  assert (Hlast : last_colon s stop = Some p).
  { replace stop with (p + (stop - p))%nat.
    - apply last_colon_ok; [exact Hp|]. intros i Hi X. rewrite Es, nth_error_app2 in X by lia. rewrite Lp in X. destruct (i - p)%nat as [|j] eqn:Ej; [lia|]. cbn [nth_error] in X.
      destruct (Nat.lt_ge_cases j (length t)) as [Hj|Hj].
      + rewrite nth_error_app1 in X by exact Hj. apply nth_error_In in X. contradiction.
      + rewrite nth_error_app2 in X by exact Hj. destruct Hstop as [->|(-> & HNR)]; [unfold p in *; lia|]. apply nth_error_In in X. contradiction.
    - destruct Hstop as [->|(-> & _)]; [unfold p; destruct t; [contradiction|cbn [length]]; lia|]. rewrite app_length. unfold p. lia. }
  cbn [v6_back]. rewrite Hlast. assert (Esk : skipn (S p) s = t ++ R).
  { rewrite Es. replace (S p) with (length ((F ++ 58 :: bk tq) ++ [58])) by (rewrite app_length, Lp; cbn [length]; lia). replace ((F ++ 58 :: bk tq) ++ 58 :: t ++ R) with (((F ++ 58 :: bk tq) ++ [58]) ++ t ++ R) by (rewrite <- app_assoc; reflexivity).
    rewrite skipn_app, skipn_all, Nat.sub_diag. reflexivity. }
  rewrite Esk. assert (Etr : exists c0 r0, t ++ R = c0 :: r0) by (destruct t; [contradiction|cbn [app]; eauto]). destruct Etr as (c0 & r0 & Etr). rewrite Etr. rewrite <- Etr. rewrite (scan_x_ok t g R Ht HR).
  replace (Z.of_nat (length d + S k) - 1) with (Z.of_nat (length d + k)) by lia. rewrite set_word_before by exact Hg. cbn [bind].
  assert (Pq : p = S (length F + length (bk tq))) by (unfold p; lia). rewrite Pq.
  assert (Eq : nth_error s (length F + length (bk tq)) = nth_error (58 :: bk tq) (length (bk tq))).
  { unfold s. rewrite nth_error_app2 by lia. replace (length F + length (bk tq) - length F)%nat with (length (bk tq)) by lia. change (58 :: bk tq ++ 58 :: t ++ R) with ((58 :: bk tq) ++ 58 :: t ++ R). apply nth_error_app1. cbn [length]. lia. }
  rewrite Eq. destruct tq as [|t1 tq1 _] using rev_ind.
  - inversion HF; subst. cbn [bk map concat length nth_error]. change (58 =? 58) with true. cbv iota. cbn [app]. replace (S k - (0 + 1))%nat with k by lia. reflexivity.
  - assert (Ez : match nth_error (58 :: bk (tq1 ++ [t1])) (length (bk (tq1 ++ [t1]))) with Some c => c =? 58 | None => false end = false).
    { apply Forall2_app_inv_l in HF. destruct HF as (p1 & l2 & _ & HF2 & _). inversion HF2 as [|? g1 ? ? Ht1 _]; subst. destruct (group_facts t1 g1 Ht1) as (Nt1 & NC1 & _).
      destruct (exists_last Nt1) as (t0 & c1 & ->). rewrite bk_snoc. rewrite app_comm_cons, !app_length. cbn [length]. rewrite app_length. cbn [length].
      rewrite nth_error_app2 by (cbn [length]; lia). cbn [length]. replace (length (bk tq1) + S (length t0 + 1) - S (length (bk tq1)))%nat with (S (length t0)) by lia. cbn [nth_error].
      rewrite nth_error_app2, Nat.sub_diag by lia. cbn [nth_error]. destruct (Z.eqb_spec c1 58) as [->|]; [|reflexivity]. exfalso. apply NC1. apply in_app_iff. right. left. reflexivity. }
    rewrite Ez. rewrite app_length in Hf. cbn [length] in Hf. replace (Z.of_nat (length d + k) - 1) with (Z.of_nat (length d + k) - 1) by lia.
    rewrite (IH post' HF fuel F k (g :: e) (58 :: t ++ R) s (length F + length (bk (tq1 ++ [t1])))%nat).
    + rewrite <- app_assoc. replace (S k - (length post' + 1))%nat with (k - length post')%nat by lia. reflexivity.
    + destruct tq1; discriminate.
    + lia.
    + rewrite app_length. cbn [length]. lia.
    + unfold s. reflexivity.
    + right. eauto 6.
    + left. reflexivity.
Qed.

Lemma join_space ts gs c : Forall2 group ts gs -> In c (join 58 ts) -> is_space c = false.
Proof.
  induction 1 as [|t g ts gs Ht HF IH]; [intros []|]. destruct (group_facts t g Ht) as (_ & _ & _ & NS & _). destruct ts as [|t2 ts]; [apply NS|].
  change (join 58 (t :: t2 :: ts)) with (t ++ 58 :: join 58 (t2 :: ts)). rewrite in_app_iff. intros [H|[<-|H]]; [apply NS, H|reflexivity|apply IH, H].
Qed.
Lemma map_nth_seq {A} (f : A -> A) (l : list A) (dflt : nat -> A) : map (fun i => f (nth i l (dflt i))) (seq 0 (length l)) = map f l.
Proof.
  assert (H : forall k, map (fun i => f (nth (i - k) l (dflt i))) (seq k (length l)) = map f l).
  { induction l as [|a l IH]; intros k; cbn [length seq map]; [reflexivity|]. rewrite Nat.sub_diag. cbn [nth]. f_equal. rewrite <- (IH (S k)). apply map_ext_in. intros i Hi. apply in_seq in Hi.
    replace (i - k)%nat with (S (i - S k)) by lia. reflexivity. }
  specialize (H 0%nat). rewrite <- H. apply map_ext. intros i. rewrite Nat.sub_0_r. reflexivity.
Qed.
Lemma groups_range ts gs : Forall2 group ts gs -> Forall (fun g => 0 <= g < 65536) gs.
Proof. induction 1 as [|t g ts gs Ht HF IH]; constructor; [apply (group_facts t g Ht)|exact IH]. Qed.
Lemma v6_words_ok stale gs t r : v6_form gs t -> tail_ok r -> (r <> [] -> forall u, t <> u ++ [58]) -> v6_words stale (t ++ r) = Ret (16, gs).
Proof.
  intros [ts L HF|pre tp post tq HF1 HF2 HL ->] Hr Hc; unfold v6_words.
  - rewrite (skip_space_join ts gs r HF) by (destruct (tail_stop r Hr) as [->|(c & r' & -> & Hcc)]; [auto|right; exists c, r'; split; [reflexivity|unfold is_space; lia]]).
    rewrite (join_no_colons ts gs r HF Hr). cbn [negb]. rewrite (scan_groups ts gs r HF); [|intros ->; inversion HF; subst; discriminate|exact Hr|rewrite (Forall2_length HF); exact L].
    unfold or_stale. rewrite <- L, (map_nth_seq (fun x => x mod 65536) gs stale). do 2 f_equal. rewrite <- (map_id gs) at 2. apply map_ext_in. intros g Hg.
    pose proof (groups_range ts gs HF) as HR. rewrite Forall_forall in HR. apply Z.mod_small, HR, Hg.
  - rewrite <- app_assoc. cbn [app]. rewrite (skip_space_join tp pre _ HF1) by (right; eexists _, _; split; [reflexivity|reflexivity]). rewrite (join_colons tp pre _ HF1). cbn [negb].
    set (s := join 58 tp ++ 58 :: 58 :: join 58 tq ++ r).
    assert (E2 : match nth_error s 2 with None => true | Some c => is_space c end = false).
    { unfold s. destruct HF1 as [|t1 g tp pre Ht HF1].
      - cbn [join app nth_error]. destruct HF2 as [|t2 g2 tq post Ht2 HF2]; [cbn [length] in HL; lia|]. destruct (group_facts t2 g2 Ht2) as (N & _ & _ & NS & _). destruct t2 as [|c t2]; [contradiction|].
        assert (E : is_space c = false) by (apply NS; left; reflexivity). destruct tq; cbn [join app]; exact E.
      - set (j := join 58 (t1 :: tp)). assert (Lj : (1 <= length j)%nat).
        { destruct (group_facts t1 g Ht) as (N & _). unfold j. destruct t1 as [|c t1]; [contradiction|]. destruct tp; cbn [join app length]; lia. }
        assert (E : nth_error (j ++ 58 :: 58 :: join 58 tq ++ r) 2 = nth_error (j ++ [58; 58]) 2).
        { replace (j ++ 58 :: 58 :: join 58 tq ++ r) with ((j ++ [58; 58]) ++ join 58 tq ++ r) by (rewrite <- app_assoc; reflexivity). apply nth_error_app1. rewrite app_length. cbn [length]. lia. }
        rewrite E. destruct (nth_error (j ++ [58; 58]) 2) as [c|] eqn:Ec.
        + apply nth_error_In, in_app_iff in Ec. destruct Ec as [Ec|[<-|[<-|[]]]]; [|reflexivity|reflexivity]. apply (join_space (t1 :: tp) (g :: pre)) in Ec; [exact Ec|constructor; assumption].
        + apply nth_error_None in Ec. rewrite app_length in Ec. cbn [length] in Ec. lia. }
    rewrite E2. clear E2.
    assert (Efr : s = fr tp ++ 58 :: (match tp with [] => [58] | _ => [] end) ++ join 58 tq ++ r).
    { unfold s. destruct tp as [|t1 tp]; [reflexivity|]. rewrite <- join_fr, <- app_assoc. reflexivity. }
    pose proof (Forall2_length HF1) as L1. pose proof (Forall2_length HF2) as L2.
    assert (Ls : (length tp < S (length s))%nat).
    { rewrite Efr, app_length. assert (length tp <= length (fr tp))%nat; [|lia]. clear. unfold fr. induction tp as [|t1 tp IH]; cbn [map concat length]; [lia|]. rewrite !app_length. cbn [length]. lia. }
    change 0 with (Z.of_nat (@length Z [])) at 2. change (repeat 0 8) with ([] ++ repeat 0 8). rewrite Efr at 2. rewrite (front_ok stale tp pre HF1) by lia. cbn [bind fst snd app].
    destruct tq as [|t1 tq].
    + inversion HF2; subst post. cbn [join app length] in *. rewrite Nat.sub_0_r, app_nil_r.
      destruct Hr as (Hr & [->|(w & ->)]).
      * rewrite app_nil_r in *. assert (Es : s = (join 58 tp ++ [58]) ++ [58]) by (unfold s; rewrite <- app_assoc; reflexivity).
        assert (Hl : last_colon s (length s) = Some (length (join 58 tp ++ [58]))).
        { replace (length s) with (length (join 58 tp ++ [58%Z]) + 1)%nat by (rewrite Es, (app_length (join 58 tp ++ [58])); reflexivity). apply last_colon_ok.
          - rewrite Es, nth_error_app2, Nat.sub_diag by lia. reflexivity.
          - intros i Hi X. assert (HN : nth_error s i = None) by (apply nth_error_None; rewrite Es, app_length; cbn [length]; lia). congruence. }
        cbn [v6_back]. rewrite Hl. rewrite Es at 1. rewrite skipn_all2 by (rewrite (app_length (join 58 tp ++ [58])); cbn [length]; lia). reflexivity.
      * exfalso. apply (Hc ltac:(discriminate) (join 58 tp ++ [58])). rewrite <- app_assoc. reflexivity.
    + assert (Es : s = join 58 tp ++ 58 :: bk (t1 :: tq) ++ r) by (unfold s; rewrite <- join_bk; reflexivity).
      replace 7 with (Z.of_nat (length pre + (8 - length pre)) - 1) by lia.
      replace (pre ++ repeat 0 (8 - length pre)) with (pre ++ repeat 0 (8 - length pre) ++ []) by (rewrite app_nil_r; reflexivity).
      rewrite (back_ok stale pre (t1 :: tq) post HF2 _ (join 58 tp) _ [] r s).
      * rewrite app_nil_r. cbn [bind]. reflexivity.
      * discriminate.
      * lia.
      * rewrite Es, app_length. cbn [length]. rewrite app_length. assert (S (length tq) <= length (bk (t1 :: tq)))%nat; [|lia]. change (S (length tq)) with (length (t1 :: tq)). clear.
        generalize (t1 :: tq) as l. unfold bk. induction l as [|x l IH]; cbn [map concat length app]; [lia|]. rewrite app_length. lia.
      * exact Es.
      * apply tail_stop, Hr.
      * right. split; [reflexivity|apply Hr].
Qed.
