(** C47: queries never see a half-updated rule table. *)
From Verif Require Import Base BaseFacts Reload_Model.
Require Import ZifyBool ZifyNat.

Section R.
Context {line : Type} (src : nat -> list line).
Implicit Types (s : @state line) (tr : list (@label line)).

(** * Specification *)

(** The table published last, and whether its successor is about to be published (the old one is freed already). *)
Definition published (loaded : bool) tr : option nat :=
  fold_left (fun o l => match l with LStore t => Some t | _ => o end) tr (if loaded then Some 0%nat else None).
Definition replacing tr : bool :=
  fold_left (fun b l => match l with LFree => true | LStore _ => false | _ => b end) tr false.

(** What each query does in an execution: it reads only complete tables, the one published last, and no freed memory; it does
    without a table only if none has been published yet. *)
Definition consistent (loaded : bool) tr : Prop := forall pre l post, tr = pre ++ l :: post ->
  match l with
  | LConsult i t c => published loaded pre = Some t /\ c = Some (src t)
  | LNull _ => False
  | LNone _ => published loaded pre = None
  | _ => True
  end.
(** The same, but a query may also do without a table while it is being replaced. *)
Definition consistent_but tr (loaded : bool) : Prop := forall pre l post, tr = pre ++ l :: post ->
  match l with
  | LConsult i t c => published loaded pre = Some t /\ c = Some (src t)
  | LNull _ => False
  | LNone _ => published loaded pre = None \/ replacing pre = true
  | _ => True
  end.

(** * The invariant *)
Definition holding (p : rpc) : bool := match p with RHeld | RUse _ => true | _ => false end.
Definition holders (l : list rpc) : nat := length (filter holding l).
Lemma holders_set l i x y : nth_error l i = Some x -> (holders (set_nth l i y) + (if holding x then 1 else 0) = holders l + (if holding y then 1 else 0))%nat.
Proof.
  unfold holders. revert i. induction l as [|a l IH]; intros [|i] H; cbn [nth_error] in H; try discriminate.
  - injection H as ->. unfold set_nth. cbn [firstn app skipn filter]. destruct (holding x), (holding y); cbn [length]; lia.
  - specialize (IH i H). unfold set_nth in *. cbn [firstn app skipn filter]. change (match l with [] => [] | _ :: l0 => skipn i l0 end) with (skipn (S i) l).
    destruct (holding a); cbn [length]; lia.
Qed.
Lemma holders_zero l i p : holders l = 0%nat -> nth_error l i = Some p -> holding p = false.
Proof.
  unfold holders. revert i. induction l as [|a l IH]; intros [|i] H E; cbn [nth_error filter] in *; try discriminate.
  - injection E as ->. destruct (holding p); [discriminate|reflexivity].
  - destruct (holding a); [discriminate|]. apply (IH i); assumption.
Qed.
Lemma nth_set l i j x p : (i < length l)%nat -> nth_error (set_nth l i x) j = Some p -> (i = j /\ p = x) \/ (i <> j /\ nth_error l j = Some p).
Proof.
  unfold set_nth. intros Hi H. destruct (Nat.eq_dec i j) as [<-|N].
  - left. rewrite nth_error_app2 in H by (rewrite firstn_length; lia). rewrite firstn_length, Nat.min_l, Nat.sub_diag in H by lia. cbn in H. split; congruence.
  - right. split; [exact N|]. destruct (Nat.lt_ge_cases j i) as [L|L].
    + rewrite nth_error_app1 in H by (rewrite firstn_length; lia). rewrite <- H. clear - L. revert i L. generalize l as m. clear. induction j as [|j IH]; intros [|a m] [|i] L; cbn [firstn nth_error]; try lia; try reflexivity. apply IH. lia.
    + rewrite nth_error_app2 in H by (rewrite firstn_length; lia). rewrite firstn_length, Nat.min_l in H by lia. destruct (j - i)%nat as [|d] eqn:E; [lia|]. cbn [nth_error] in H.
      rewrite <- H. replace j with (S i + d)%nat by lia. clear. revert l. generalize (S i) as k. induction k as [|k IH]; intros [|a l]; cbn [skipn nth_error Nat.add]; try reflexivity.
      * destruct d; reflexivity.
      * apply IH.
Qed.
Lemma nth_lt {A} (l : list A) i x : nth_error l i = Some x -> (i < length l)%nat.
Proof. intros H. apply nth_error_Some. congruence. Qed.

Lemma published_snoc loaded tr l : published loaded (tr ++ [l]) = match l with LStore t => Some t | _ => published loaded tr end.
Proof. unfold published. rewrite fold_left_app. reflexivity. Qed.
Lemma replacing_snoc tr l : replacing (tr ++ [l]) = match l with LFree => true | LStore _ => false | _ => replacing tr end.
Proof. unfold replacing. rewrite fold_left_app. reflexivity. Qed.

Definition writing (p : wpc) : bool := match p with WLocked _ | WFreed _ | WStored => true | _ => false end.
Definition freed_pc (p : wpc) : bool := match p with WFreed _ => true | _ => false end.
Definition new_table (p : wpc) : option nat := match p with WLoad t _ | WReady t | WLocked t | WFreed t => Some t | _ => None end.
Definition new_content (p : wpc) : list line := match p with WLoad t k => firstn k (src t) | WReady t | WLocked t | WFreed t => src t | _ => [] end.

Record inv (v : variant) (loaded : bool) tr s : Prop := {
  i_repl : replacing tr = freed_pc (w s) && negb (v_defer v);
  i_ptr : ptr s = if replacing tr && v_nulls v then None else published loaded tr;
  i_cur : forall t, published loaded tr = Some t -> (t < fresh s)%nat /\ new_table (w s) <> Some t /\ (freed_pc (w s) = false -> heap s t = Some (src t) /\ ~ In t (pend s));
  i_new : forall t, new_table (w s) = Some t -> (t < fresh s)%nat /\ heap s t = Some (new_content (w s)) /\ ~ In t (pend s);
  i_pend : forall x, In x (pend s) -> (x < fresh s)%nat /\ heap s x = Some (src x);
  i_nodup : NoDup (pend s);
  i_wr : wr s = writing (w s);
  i_rd : rd s = holders (r s);
  i_excl : wr s = true -> rd s = 0%nat;
  i_want : forall i, nth_error (r s) i = Some RWant \/ nth_error (r s) i = Some RHeld -> published loaded tr <> None;
  i_use : forall i o, nth_error (r s) i = Some (RUse o) -> o = published loaded tr /\ o <> None;
  i_nocheck : v_check v = false -> published loaded tr <> None }.

Lemma inv_start v loaded n : v_check v = true \/ loaded = true -> inv v loaded [] (start src loaded n).
Proof.
  intros HV.
  assert (HR : forall i p, nth_error (repeat RIdle n) i = Some p -> p = RIdle) by (intros i p H; apply nth_error_In, repeat_spec in H; exact H).
  assert (HH : holders (repeat RIdle n) = 0%nat) by (clear; unfold holders; induction n; cbn; auto).
  assert (HW : forall i, nth_error (repeat RIdle n) i = Some RWant \/ nth_error (repeat RIdle n) i = Some RHeld -> False) by (intros i [H|H]; apply HR in H; discriminate).
  destruct loaded; unfold start; split; cbn [ptr heap fresh rd wr pend w r freed_pc writing new_table new_content]; try reflexivity; try discriminate; try (intros x Hx; exact (False_ind _ Hx)); try (symmetry; exact HH).
  - intros t H. injection H as <-. split; [lia|]. split; [discriminate|]. intros _. split; [reflexivity|intros []].
  - constructor.
  - intros i o H. apply HR in H. discriminate.
  - constructor.
  - intros i H. destruct (HW i H).
  - intros i o H. apply HR in H. discriminate.
  - intros H. destruct HV; congruence.
Qed.

Lemma set_heap_same (h : nat -> option (list line)) t c : set_heap h t c t = c.
Proof. unfold set_heap. rewrite Nat.eqb_refl. reflexivity. Qed.
Lemma set_heap_other (h : nat -> option (list line)) t c x : x <> t -> set_heap h t c x = h x.
Proof. intros H. unfold set_heap. destruct (Nat.eqb_spec x t); [congruence|reflexivity]. Qed.
Lemma firstn_snoc {A} (l : list A) k x : nth_error l k = Some x -> firstn (S k) l = firstn k l ++ [x].
Proof. revert k. induction l as [|a l IH]; intros [|k] H; cbn [nth_error firstn] in *; try discriminate; [injection H as ->; reflexivity|]. rewrite (IH k H). reflexivity. Qed.

Lemma inv_step v loaded tr s l s' : inv v loaded tr s -> step src v s l s' -> inv v loaded (tr ++ [l]) s'.
Proof.
  intros HI HS. destruct HI as [I1 I2 I3 I4 I5 I6 I7 I8 I9 I10 I11 I12].
  destruct HS as [s Hw|s t k ln Hw Hn|s t k Hw|s t k Hw Hn|s t Hw Hr Hx|s t Hw Hd|s t Hw Hd|s a x b Hp|s t Hw|s Hw|s i Hi Hc Hp|s i Hi Hc|s i Hi Hx|s i Hi|s i t Hi|s i Hi|s i o Hi];
    try rewrite Hw in *; cbn [freed_pc writing new_table new_content andb] in *.
  - (* start *)
    split; cbn [ptr heap fresh rd wr pend w r freed_pc writing new_table new_content andb]; rewrite ?published_snoc, ?replacing_snoc; auto.
    + intros t Ht. destruct (I3 t Ht) as (A & _ & B). split; [lia|]. split; [intros E; injection E as E; lia|]. intros _. rewrite set_heap_other by lia. apply B. reflexivity.
    + intros t Ht. injection Ht as <-. split; [lia|]. split; [apply set_heap_same|]. intros Hin. destruct (I5 _ Hin). lia.
    + intros x Hx. destruct (I5 x Hx). split; [lia|]. rewrite set_heap_other by lia. assumption.
  - (* line *)
    destruct (I4 t eq_refl) as (A4 & B4 & C4). split; cbn [ptr heap fresh rd wr pend w r freed_pc writing new_table new_content andb]; rewrite ?published_snoc, ?replacing_snoc; auto.
    + intros t' Ht. destruct (I3 t' Ht) as (A & B & C). split; [lia|]. split; [exact B|]. intros _. rewrite set_heap_other by congruence. apply C. reflexivity.
    + intros t' Ht. injection Ht as <-. split; [lia|]. split; [|exact C4]. rewrite set_heap_same, B4. cbn [option_map]. f_equal. symmetry. apply firstn_snoc. exact Hn.
    + intros x Hx. destruct (I5 x Hx). split; [lia|]. rewrite set_heap_other; [assumption|]. intros ->. auto.
  - (* fail *)
    destruct (I4 t eq_refl) as (A4 & B4 & C4). split; cbn [ptr heap fresh rd wr pend w r freed_pc writing new_table new_content andb]; rewrite ?published_snoc, ?replacing_snoc; auto; try discriminate.
    + intros t' Ht. destruct (I3 t' Ht) as (A & B & C). split; [lia|]. split; [discriminate|]. intros _. rewrite set_heap_other by congruence. apply C. reflexivity.
    + intros x Hx. destruct (I5 x Hx). split; [lia|]. rewrite set_heap_other; [assumption|]. intros ->. auto.
  - (* ready *)
    destruct (I4 t eq_refl) as (A4 & B4 & C4). split; cbn [ptr heap fresh rd wr pend w r freed_pc writing new_table new_content andb]; rewrite ?published_snoc, ?replacing_snoc; auto.
    intros t' Ht. injection Ht as <-. split; [exact A4|]. split; [|exact C4]. rewrite B4. f_equal. apply firstn_all2. apply nth_error_None. exact Hn.
  - (* lock *)
    split; cbn [ptr heap fresh rd wr pend w r freed_pc writing new_table new_content andb]; rewrite ?published_snoc, ?replacing_snoc; auto.
  - (* free *)
    destruct (I4 t eq_refl) as (A4 & B4 & C4). rewrite I1 in I2. cbn [andb] in I2.
    split; cbn [ptr heap fresh rd wr pend w r freed_pc writing new_table new_content andb]; rewrite ?published_snoc, ?replacing_snoc; auto.
    + rewrite Hd. reflexivity.
    + cbn [andb]. destruct (v_nulls v); [reflexivity|exact I2].
    + intros t' Ht. destruct (I3 t' Ht) as (A & B & C). split; [exact A|]. split; [exact B|]. discriminate.
    + intros t' Ht. injection Ht as <-. split; [exact A4|]. split; [|exact C4]. rewrite I2. destruct (published loaded tr) as [o|] eqn:EP; [|exact B4]. cbn [free_old]. rewrite set_heap_other; [exact B4|].
      destruct (I3 o eq_refl) as (_ & B & _). congruence.
    + intros x Hx. destruct (I5 x Hx) as (A & B). split; [exact A|]. rewrite I2. destruct (published loaded tr) as [o|] eqn:EP; [|exact B]. cbn [free_old]. rewrite set_heap_other; [exact B|].
      destruct (I3 o eq_refl) as (_ & _ & C). intros ->. destruct (C eq_refl) as [_ C']. auto.
  - (* defer *)
    destruct (I4 t eq_refl) as (A4 & B4 & C4). rewrite I1 in I2. cbn [andb] in I2.
    split; cbn [ptr heap fresh rd wr pend w r freed_pc writing new_table new_content andb]; rewrite ?published_snoc, ?replacing_snoc; auto.
    + rewrite Hd. rewrite I1. reflexivity.
    + rewrite I1. exact I2.
    + intros t' Ht. destruct (I3 t' Ht) as (A & B & C). split; [exact A|]. split; [exact B|]. discriminate.
    + intros t' Ht. injection Ht as <-. split; [exact A4|]. split; [exact B4|]. rewrite I2. destruct (published loaded tr) as [o|] eqn:EP; [|exact C4]. intros [E|E]; [|auto]. subst o.
      destruct (I3 t eq_refl) as (_ & B & _). congruence.
    + intros x Hx. rewrite I2 in Hx. destruct (published loaded tr) as [o|] eqn:EP; [|apply I5; exact Hx]. destruct Hx as [<-|Hx]; [|apply I5; exact Hx]. destruct (I3 o eq_refl) as (A & _ & C). split; [exact A|]. apply C. reflexivity.
    + rewrite I2. destruct (published loaded tr) as [o|] eqn:EP; [|exact I6]. constructor; [|exact I6]. destruct (I3 o eq_refl) as (_ & _ & C). apply C. reflexivity.
  - (* clean *)
    rewrite Hp in *. assert (Hx : In x (a ++ x :: b)) by (apply in_or_app; right; left; reflexivity).
    assert (HN : ~ In x (a ++ b)) by (apply NoDup_remove_2; exact I6).
    assert (HS : forall y, In y (a ++ b) -> In y (a ++ x :: b)) by (intros y Hy; apply in_app_or in Hy; apply in_or_app; cbn; tauto).
    split; cbn [ptr heap fresh rd wr pend w r]; rewrite ?published_snoc, ?replacing_snoc; auto.
    + intros t Ht. destruct (I3 t Ht) as (A & B & C). split; [exact A|]. split; [exact B|]. intros HF. destruct (C HF) as [C1 C2]. split; [|intros X; apply C2, HS, X].
      rewrite set_heap_other; [exact C1|]. intros ->. auto.
    + intros t Ht. destruct (I4 t Ht) as (A & B & C). split; [exact A|]. split; [|intros X; apply C, HS, X]. rewrite set_heap_other; [exact B|]. intros ->. auto.
    + intros y Hy. destruct (I5 y (HS y Hy)) as (A & B). split; [exact A|]. rewrite set_heap_other; [exact B|]. intros ->. auto.
    + eapply NoDup_remove_1. exact I6.
  - (* store *)
    destruct (I4 t eq_refl) as (A4 & B4 & C4). split; cbn [ptr heap fresh rd wr pend w r freed_pc writing new_table new_content andb]; rewrite ?published_snoc, ?replacing_snoc; auto; try discriminate.
    + intros t' Ht. injection Ht as <-. split; [exact A4|]. split; [discriminate|]. intros _. split; [exact B4|exact C4].
    + intros i o Hi. exfalso. assert (Z0 : rd s = 0%nat) by (apply I9; exact I7). rewrite I8 in Z0. pose proof (holders_zero _ _ _ Z0 Hi). discriminate.
  - (* unlock *)
    split; cbn [ptr heap fresh rd wr pend w r freed_pc writing new_table new_content andb]; rewrite ?published_snoc, ?replacing_snoc; auto; try discriminate.
  - (* none *)
    split; rewrite ?published_snoc, ?replacing_snoc; auto.
  - (* check *)
    pose proof (holders_set (r s) i RIdle RWant Hi) as HC. cbn [holding] in HC. pose proof (nth_lt _ _ _ Hi) as Li.
    split; cbn [ptr heap fresh rd wr pend w r]; rewrite ?published_snoc, ?replacing_snoc; auto.
    + lia.
    + intros j Hj. destruct (v_check v) eqn:EV; [|apply I12; reflexivity]. specialize (Hc eq_refl). rewrite I2 in Hc. destruct (replacing tr && v_nulls v); [congruence|exact Hc].
    + intros j o Hj. apply nth_set in Hj; [|exact Li]. destruct Hj as [[_ Hj]|[_ Hj]]; [discriminate|]. apply (I11 j); exact Hj.
  - (* rdlock *)
    pose proof (holders_set (r s) i RWant RHeld Hi) as HC. cbn [holding] in HC. pose proof (nth_lt _ _ _ Hi) as Li.
    split; cbn [ptr heap fresh rd wr pend w r]; rewrite ?published_snoc, ?replacing_snoc; auto.
    + lia.
    + rewrite Hx. discriminate.
    + intros j Hj. apply (I10 i). left. exact Hi.
    + intros j o Hj. apply nth_set in Hj; [|exact Li]. destruct Hj as [[_ Hj]|[_ Hj]]; [discriminate|]. apply (I11 j); exact Hj.
  - (* read *)
    pose proof (holders_set (r s) i RHeld (RUse (ptr s)) Hi) as HC. cbn [holding] in HC. pose proof (nth_lt _ _ _ Hi) as Li.
    split; cbn [ptr heap fresh rd wr pend w r]; rewrite ?published_snoc, ?replacing_snoc; auto.
    + lia.
    + intros j Hj. apply (I10 i). right. exact Hi.
    + intros j o Hj. apply nth_set in Hj; [|exact Li]. destruct Hj as [[_ Hj]|[_ Hj]]; [|apply (I11 j); exact Hj]. injection Hj as ->.
      assert (HF : freed_pc (w s) = false). { destruct (freed_pc (w s)) eqn:E; [|reflexivity]. exfalso. assert (W : writing (w s) = true) by (destruct (w s); try discriminate; reflexivity).
        rewrite I7, W in I9. assert (Z0 := I9 eq_refl). rewrite I8 in Z0. pose proof (holders_zero _ _ _ Z0 Hi). discriminate. }
      rewrite HF in I1. cbn [andb] in I1. rewrite I1 in I2. cbn [andb] in I2. split; [exact I2|]. rewrite I2. apply (I10 i). right. exact Hi.
  - (* consult *) split; rewrite ?published_snoc, ?replacing_snoc; auto.
  - (* null *) split; rewrite ?published_snoc, ?replacing_snoc; auto.
  - (* rdunlock *)
    pose proof (holders_set (r s) i (RUse o) RIdle Hi) as HC. cbn [holding] in HC. pose proof (nth_lt _ _ _ Hi) as Li.
    split; cbn [ptr heap fresh rd wr pend w r]; rewrite ?published_snoc, ?replacing_snoc; auto.
    + lia.
    + intros HW. rewrite (I9 HW). reflexivity.
    + intros j Hj. apply (I10 j). destruct Hj as [Hj|Hj]; (apply nth_set in Hj; [|exact Li]); destruct Hj as [[_ Hj]|[_ Hj]]; try discriminate; auto.
    + intros j o' Hj. apply nth_set in Hj; [|exact Li]. destruct Hj as [[_ Hj]|[_ Hj]]; [discriminate|]. apply (I11 j); exact Hj.
Qed.

Lemma inv_run v loaded n tr s : v_check v = true \/ loaded = true -> run src v (start src loaded n) tr s -> inv v loaded tr s.
Proof.
  intros HV HR. remember (start src loaded n) as s0. induction HR; [subst; apply inv_start; exact HV|]. eapply inv_step; [apply IHHR; exact Heqs0|eassumption].
Qed.

Lemma step_ok v loaded tr s l s' : inv v loaded tr s -> step src v s l s' ->
  match l with
  | LConsult i t c => published loaded tr = Some t /\ c = Some (src t)
  | LNull _ => False
  | LNone _ => published loaded tr = None \/ (replacing tr = true /\ v_nulls v = true)
  | _ => True
  end.
Proof.
  intros HI HS. destruct HI as [I1 I2 I3 I4 I5 I6 I7 I8 I9 I10 I11 I12]. destruct HS as [| | | | | | | | | |s i Hi Hc Hp| | | |s i t Hi|s i Hi|]; try exact I.
  - rewrite I2 in Hp. destruct (replacing tr); [|left; exact Hp]. destruct (v_nulls v); [right; auto|left; exact Hp].
  - destruct (I11 _ _ Hi) as [E _]. split; [auto|]. destruct (I3 t (eq_sym E)) as (_ & _ & C). apply C.
    destruct (freed_pc (w s)) eqn:EF; [|reflexivity]. exfalso. assert (W : writing (w s) = true) by (destruct (w s); try discriminate; reflexivity).
    rewrite I7, W in I9. assert (Z0 := I9 eq_refl). rewrite I8 in Z0. pose proof (holders_zero _ _ _ Z0 Hi). discriminate.
  - destruct (I11 _ _ Hi) as [_ N]. congruence.
Qed.
Lemma run_pre v s0 tr s pre l post : run src v s0 tr s -> tr = pre ++ l :: post -> exists s1 s2, run src v s0 pre s1 /\ step src v s1 l s2.
Proof.
  intros HR. revert pre l post. induction HR as [|s tr s1 l1 s2 HR IH HS]; intros pre l post E; [destruct pre; discriminate|].
  destruct post as [|p post] using rev_ind.
  - apply app_inj_tail in E. destruct E as [<- <-]. eauto.
  - clear IHpost. rewrite app_comm_cons, app_assoc in E. apply app_inj_tail in E. destruct E as [E _]. eapply IH. exact E.
Qed.

(** * C47 *)

(** For hosts, address rules and server groups (the last of which is loaded before the first query): all interleavings. *)
Theorem C47_tables v loaded n tr s : In v [hosts_variant; ipmisc_variant] \/ (v = modules_variant /\ loaded = true) ->
  run src v (start src loaded n) tr s -> consistent loaded tr.
Proof.
  intros HV HR pre l post E. destruct (run_pre _ _ _ _ _ _ _ HR E) as (s1 & s2 & HR1 & HS).
  assert (HC : v_check v = true \/ loaded = true) by (destruct HV as [[<-|[<-|[]]]|[-> ->]]; auto).
  pose proof (step_ok _ _ _ _ _ _ (inv_run _ _ _ _ _ HC HR1) HS) as P. destruct l; auto. destruct P as [P|[_ P]]; [exact P|]. destruct HV as [[<-|[<-|[]]]|[-> ->]]; discriminate.
Qed.

(** Full statement for the disabled domains: [consistent loaded tr], see [C47_filter_refuted]. Proved: a query also does without
    the table while it is being replaced, but never sees anything else than the complete current table. *)
Theorem C47_filter_partial loaded n tr s : run src filter_variant (start src loaded n) tr s -> consistent_but tr loaded.
Proof.
  intros HR pre l post E. destruct (run_pre _ _ _ _ _ _ _ HR E) as (s1 & s2 & HR1 & HS).
  pose proof (step_ok _ _ _ _ _ _ (inv_run filter_variant loaded _ _ _ (or_introl (eq_refl true)) HR1) HS) as P. destruct l; auto. tauto.
Qed.

(** In no interleaving a table is freed twice, or while it is published and in use. *)
Theorem C47_memory v loaded n tr s : v_check v = true \/ loaded = true -> run src v (start src loaded n) tr s ->
  NoDup (pend s) /\ (forall t, In t (pend s) -> heap s t = Some (src t)) /\
  (forall t, w s = WLocked t -> forall o, ptr s = Some o -> heap s o = Some (src o) /\ ~ In o (pend s)) /\
  (forall i t, nth_error (r s) i = Some (RUse (Some t)) -> heap s t = Some (src t) /\ ~ In t (pend s) /\ ptr s = Some t).
Proof.
  intros HV HR. destruct (inv_run _ _ _ _ _ HV HR) as [I1 I2 I3 I4 I5 I6 I7 I8 I9 I10 I11 I12]. split; [exact I6|]. split; [intros t Ht; apply (I5 t Ht)|]. split.
  - intros t Hw o Ho. rewrite Hw in *. cbn [freed_pc andb] in *. rewrite I1 in I2. cbn [andb] in I2. rewrite I2 in Ho. destruct (I3 o Ho) as (_ & _ & C). apply C. reflexivity.
  - intros i t Hi. destruct (I11 _ _ Hi) as [E _].
    assert (HF : freed_pc (w s) = false). { destruct (freed_pc (w s)) eqn:EF; [|reflexivity]. exfalso. assert (W : writing (w s) = true) by (destruct (w s); try discriminate; reflexivity).
      rewrite I7, W in I9. assert (Z0 := I9 eq_refl). rewrite I8 in Z0. pose proof (holders_zero _ _ _ Z0 Hi). discriminate. }
    rewrite HF in I1. cbn [andb] in I1. rewrite I1 in I2. cbn [andb] in I2. destruct (I3 t (eq_sym E)) as (_ & _ & C). destruct (C HF). rewrite I2. auto.
Qed.

Lemma load_run v k : (k <= length (src 1))%nat ->
  exists s, run src v (start src true 1) (repeat LTau (S k)) s /\ w s = WLoad 1 k /\ ptr s = Some 0%nat /\ rd s = 0%nat /\ wr s = false /\ r s = [RIdle].
Proof.
  induction k as [|k IH]; intros Hk.
  - eexists. split; [change (repeat LTau 1) with ([] ++ [@LTau line]); eapply run_snoc; [apply run_nil|apply s_start; reflexivity]|]. repeat split.
  - destruct (IH ltac:(lia)) as (s & HR & Hw & Hp & Hrd & Hwr & Hr).
    destruct (nth_error (src 1) k) as [ln|] eqn:EN; [|apply nth_error_None in EN; lia].
    eexists. split; [|split; [|split; [|split; [|split]]]].
    + change (repeat LTau (S (S k))) with (@LTau line :: repeat LTau (S k)). rewrite repeat_cons. eapply run_snoc; [exact HR|]. eapply s_line; eassumption.
    + reflexivity.
    + exact Hp.
    + exact Hrd.
    + exact Hwr.
    + exact Hr.
Qed.
(** Whatever the files contain: a query that comes while the disabled domains are reloaded can find the pointer NULL, and lets
    every domain pass, though a table had been published before it came. *)
Theorem C47_filter_refuted : exists tr s, run src filter_variant (start src true 1) tr s /\ ~ consistent true tr.
Proof.
  destruct (load_run filter_variant _ (le_n _)) as (s & HR & Hw & Hp & Hrd & Hwr & Hr).
  set (pre := repeat LTau (S (length (src 1)))) in *.
  exists (pre ++ [LTau] ++ [LTau] ++ [LFree] ++ [LNone 0]). eexists. split.
  - rewrite !app_assoc. eapply run_snoc. eapply run_snoc. eapply run_snoc. eapply run_snoc. exact HR.
    + eapply s_ready; [exact Hw|]. apply nth_error_None. lia.
    + eapply s_lock; [reflexivity|exact Hrd|exact Hwr].
    + eapply s_free; reflexivity.
    + apply q_none; [cbn [r]; rewrite Hr|..]; reflexivity.
  - intros HC. specialize (HC (pre ++ [LTau; LTau; LFree]) (LNone 0) []). cbn iota in HC.
    assert (E : published true (pre ++ [LTau; LTau; LFree]) = Some 0%nat).
    { unfold published. rewrite fold_left_app. cbn [fold_left]. unfold pre. clear. generalize (S (length (src 1))). intros k. induction k as [|k IH]; [reflexivity|exact IH]. }
    rewrite E in HC. rewrite <- !app_assoc in HC. specialize (HC eq_refl). discriminate.
Qed.
Lemma consult v s i t c : nth_error (r s) i = Some (RUse (Some t)) -> heap s t = c -> step src v s (LConsult i t c) s.
Proof. intros H <-. apply q_consult. exact H. Qed.
End R.
Print Assumptions C47_tables.
Print Assumptions C47_filter_partial.
Print Assumptions C47_memory.
Print Assumptions C47_filter_refuted.

Local Ltac simp := cbn [ptr heap fresh rd wr pend w r start set_nth firstn skipn app repeat v_nulls hosts_variant].
(** An execution: query 0 takes the read lock and consults the first table (of 2 lines); meanwhile the second is built; the
    writer then waits; after it has published, query 1, which came before, consults the second. *)
Example C47_nonvacuous :
  let src := fun t => match t with O => [10; 20] | _ => [30] end in
  exists tr s, run src hosts_variant (start src true 2) tr s /\
    In (LConsult 0 0 (Some [10; 20])) tr /\ In (LConsult 1 1 (Some [30])) tr /\ consistent src true tr.
Proof.
  cbv zeta. set (src := fun t => match t with O => [10; 20] | _ => [30] end).
  assert (H : exists s, run src hosts_variant (start src true 2)
    ([] ++ [LTau] ++ [LTau] ++ [LTau] ++ [LTau] ++ [LTau] ++ [LTau] ++ [LConsult 0 0 (Some [10; 20])] ++ [LTau] ++ [LTau] ++ [LTau] ++ [LFree] ++ [LStore 1] ++ [LTau] ++ [LTau] ++ [LTau] ++ [LConsult 1 1 (Some [30])]) s).
  { eexists. rewrite !app_assoc. eapply run_snoc. eapply run_snoc. eapply run_snoc. eapply run_snoc. eapply run_snoc. eapply run_snoc. eapply run_snoc. eapply run_snoc. eapply run_snoc. eapply run_snoc. eapply run_snoc. eapply run_snoc. eapply run_snoc. eapply run_snoc. eapply run_snoc. eapply run_snoc. apply run_nil.
    - simp; apply s_start. reflexivity.
    - simp; eapply (q_check src _ _ 0); [reflexivity|discriminate].
    - simp; eapply (q_check src _ _ 1); [reflexivity|discriminate].
    - simp; eapply s_line; reflexivity.
    - simp; eapply (q_lock src _ _ 0); reflexivity.
    - simp; eapply (q_read src _ _ 0); reflexivity.
    - simp; apply (consult src _ _ 0 0); reflexivity.
    - simp; eapply (q_unlock src _ _ 0); reflexivity.
    - simp; eapply s_ready; reflexivity.
    - simp; eapply s_lock; reflexivity.
    - simp; eapply s_free; reflexivity.
    - simp; eapply s_store; reflexivity.
    - simp; eapply s_unlock; reflexivity.
    - simp; eapply (q_lock src _ _ 1); reflexivity.
    - simp; eapply (q_read src _ _ 1); reflexivity.
    - simp; apply (consult src _ _ 1 1); reflexivity. }
  destruct H as (s & HR). eexists _, s. split; [exact HR|]. cbn [app In]. split; [tauto|]. split; [tauto|].
  eapply C47_tables; [left; left; reflexivity|exact HR].
Qed.
