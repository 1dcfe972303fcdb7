From Verif Require Import Base BaseFacts ListFacts List2Facts Hash_Model Ttl_Model Ttl_Spec Ttl_Proofs Addr_Model Addr_Spec Addr_Proofs Ip_Model Loose_Spec Loose_Proofs.
Require Import ZifyBool ZifyNat.

(** The first of the characters '.' and ':' in a text. *)
Definition marked (m : Z) (s : list Z) : Prop := exists u w, s = u ++ m :: w /\ ~ In 46 u /\ ~ In 58 u.
Lemma marked_first m s : m = 46 \/ m = 58 -> marked m s -> exists r, first_mark s = Some (m, r).
Proof.
  intros Hm (u & w & -> & H1 & H2). induction u as [|c u IH]; cbn [app first_mark].
  - destruct Hm as [->| ->]; eexists; reflexivity.
  - destruct (Z.eqb_spec c 46) as [->|]; [destruct H1; left; reflexivity|]. destruct (Z.eqb_spec c 58) as [->|]; [destruct H2; left; reflexivity|].
    cbn [orb]. apply IH; intros H; [apply H1|apply H2]; right; exact H.
Qed.
Lemma unmarked s : ~ In 46 s -> ~ In 58 s -> first_mark s = None.
Proof.
  induction s as [|c s IH]; intros H1 H2; [reflexivity|]. cbn [first_mark]. destruct (Z.eqb_spec c 46) as [->|]; [destruct H1; left; reflexivity|].
  destruct (Z.eqb_spec c 58) as [->|]; [destruct H2; left; reflexivity|]. cbn [orb]. apply IH; intros H; [apply H1|apply H2]; right; exact H.
Qed.

(** C87, for texts with a dot in front of any colon: exactly four numbers with dots between them make an address, whatever comes behind them; the numbers may have
    blanks and a sign in front and any size.  [a]: the four bytes, the lowest eight bits of the numbers. *)
Theorem C87_dots_partial stale s : marked 46 s ->
  (forall a, ip_parse stale s = Ret (Some (from4 a)) <-> loose_dotted a s) /\
  ((forall a, ~ loose_dotted a s) -> ip_parse stale s = Ret None) /\
  (forall a1 a2, loose_dotted a1 s -> loose_dotted a2 s -> a1 = a2).
Proof.
  intros H. destruct (marked_first 46 s (or_introl eq_refl) H) as (r & E). unfold ip_parse. rewrite E. change (46 =? 46) with true. cbv iota. clear H E r.
  destruct (v4_to_num stale s) as [n b] eqn:EV. split; [|split].
  - intros a. rewrite <- (v4_accepted stale s a), EV. unfold from4. split.
    + destruct (Z.eqb_spec n 4) as [->|]; [|intros H; discriminate H]. intros H. assert (H1 : prefix4 ++ b = prefix4 ++ a) by congruence. apply app_inv_head in H1. congruence.
    + intros [= -> ->]. reflexivity.
  - intros H. destruct (Z.eqb_spec n 4) as [->|]; [|reflexivity]. exfalso. apply (H b). apply (v4_accepted stale). exact EV.
  - intros a1 a2 H1 H2. apply (v4_accepted stale) in H1, H2. congruence.
Qed.
Print Assumptions C87_dots_partial.

(** A text without dots and colons is none. *)
Theorem C87_neither stale s : ~ In 46 s -> ~ In 58 s -> ip_parse stale s = Ret None.
Proof. intros H1 H2. unfold ip_parse. rewrite (unmarked s H1 H2). reflexivity. Qed.
Print Assumptions C87_neither.

(** What is written as an address is one of these texts. *)
Theorem C87_written a t : dotted a t -> loose_dotted a t /\ marked 46 t.
Proof.
  intros H. split; [apply (v4_accepted (fun _ => 0)); rewrite <- (app_nil_r t); apply v4_to_num_ok; [exact H|exact I]|].
  destruct H as (ts & L & _ & F & ->). destruct (list4 a L) as (a1 & a2 & a3 & a4 & ->). inversion F as [|t1 ? ts' ? D1 F' E1]; subst. inversion F' as [|t2 ? ts2 ? D2 F2 E2]; subst.
  destruct ts2 as [|t3 ts2]; [inversion F2|]. exists t1, (join 46 (t2 :: t3 :: ts2)). split; [reflexivity|].
  split; intros Hx; pose proof (decimal_digit t1 a1 _ D1 Hx); lia.
Qed.
Print Assumptions C87_written.

(** "300.-1.2.3x" is taken for 44.255.2.3, whatever is on the stack. *)
Theorem C87_dots_refuted stale : let t := [51; 48; 48; 46; 45; 49; 46; 50; 46; 51; 120] in
  ip_parse stale t = Ret (Some (from4 [44; 255; 2; 3])) /\ forall a, ~ dotted a t.
Proof.
  split; [reflexivity|]. intros a (ts & L & _ & F & E). assert (C : forall x, In x (join 46 ts) -> x = 46 \/ 48 <= x <= 57).
  { clear - F. induction F as [|t v ts vs Ht F IH]; [intros x []|]. intros x Hx. destruct ts as [|t1 ts].
    - right. exact (decimal_digit t v x Ht Hx).
    - change (join 46 (t :: t1 :: ts)) with (t ++ 46 :: join 46 (t1 :: ts)) in Hx. apply in_app_iff in Hx.
      destruct Hx as [Hx|[<-|Hx]]; [right; exact (decimal_digit t v x Ht Hx)|left; reflexivity|apply IH; exact Hx]. }
  specialize (C 120). rewrite <- E in C. assert (In 120 [51; 48; 48; 46; 45; 49; 46; 50; 46; 51; 120]) by (cbn; tauto). specialize (C H). lia.
Qed.
Print Assumptions C87_dots_refuted.

Lemma no_colons s : (forall x y, s <> x ++ 58 :: 58 :: y) -> str_colons s = false.
Proof.
  induction s as [|c s IH]; intros H; [reflexivity|]. cbn [str_colons]. rewrite IH; [|intros x y E; apply (H (c :: x) y); cbn [app]; rewrite E; reflexivity].
  destruct (Z.eqb_spec c 58) as [->|]; [|reflexivity]. destruct s as [|d s]; [reflexivity|]. destruct (Z.eqb_spec d 58) as [->|]; [|reflexivity]. destruct (H [] s). reflexivity.
Qed.
Lemma colons_tl s c : (forall x y, c :: s <> x ++ 58 :: 58 :: y) -> forall x y, s <> x ++ 58 :: 58 :: y.
Proof. intros H x y E. apply (H (c :: x) y). cbn [app]. rewrite E. reflexivity. Qed.
Lemma colons_skip s : (forall x y, s <> x ++ 58 :: 58 :: y) -> forall x y, skip_space s <> x ++ 58 :: 58 :: y.
Proof.
  induction s as [|c s IH]; intros H; [exact H|]. cbn [skip_space]. destruct (is_space c); [|exact H]. apply IH. exact (colons_tl s c H).
Qed.
Notation colons s := (count_occ Z.eq_dec s 58).
Lemma colons_cons c s : (colons s <= colons (c :: s))%nat.
Proof. cbn [count_occ]. destruct (Z.eq_dec c 58); lia. Qed.
Lemma colons_space s : (colons (skip_space s) <= colons s)%nat.
Proof. induction s as [|c s IH]; [cbn; lia|]. cbn [skip_space]. destruct (is_space c); [|lia]. pose proof (colons_cons c s). lia. Qed.
Lemma colons_sign s : (colons (snd (take_sign s)) <= colons s)%nat.
Proof.
  destruct s as [|c s]; [cbn; lia|]. destruct (Z.eq_dec c 45) as [->|N1]; [cbn; lia|]. destruct (Z.eq_dec c 43) as [->|N2]; [cbn; lia|]. rewrite take_sign_hd by assumption. cbn [snd]. lia.
Qed.
Lemma colons_prefix base s : (colons (take_prefix base s) <= colons s)%nat.
Proof.
  destruct s as [|a s]; [cbn; lia|]. destruct (Z.eq_dec a 48) as [->|N].
  - destruct s as [|c r]; [cbn; lia|]. cbn [take_prefix]. destruct (_ && _); [|lia]. cbn [count_occ]. repeat match goal with |- context [Z.eq_dec ?x 58] => destruct (Z.eq_dec x 58) end; lia.
  - rewrite take_prefix_no; [lia|]. intros _ c r E. congruence.
Qed.
Lemma colons_base base s : forall d l, take_base base s = (d, l) -> (colons l <= colons s)%nat.
Proof.
  induction s as [|c s IH]; intros d l; cbn [take_base]; [intros [= <- <-]; lia|]. destruct (digit c <? base); [|intros [= <- <-]; lia].
  destruct (take_base base s) as [d0 l0] eqn:E. intros [= <- <-]. specialize (IH d0 l0 eq_refl). pose proof (colons_cons c s). lia.
Qed.
Lemma colons_scan s v l : scan_x s = Some (v, l) -> (colons l <= colons s)%nat.
Proof.
  unfold scan_x, scan_num. destruct (take_sign (skip_space s)) as [neg t] eqn:ES. destruct (take_base 16 (take_prefix 16 t)) as [d r] eqn:ET.
  assert (H : (colons r <= colons s)%nat).
  { apply colons_base in ET. pose proof (colons_prefix 16 t). pose proof (colons_sign (skip_space s)) as H1. rewrite ES in H1. cbn [snd] in H1. pose proof (colons_space s). lia. }
  destruct d; [intros [=]|]. intros E. assert (r = l) by congruence. subst. exact H.
Qed.
Lemma colons_list n : forall s, (length (scan_list scan_x 58 n s) <= S (colons s))%nat.
Proof.
  induction n as [|n IH]; intros s; cbn [scan_list]; [cbn; lia|]. destruct (scan_x s) as [[v l]|] eqn:E; [|cbn; lia]. apply colons_scan in E. cbn [length].
  destruct n as [|n]; [cbn; lia|]. destruct l as [|c l]; [cbn; lia|]. destruct (Z.eqb_spec c 58) as [->|]; [|cbn; lia]. specialize (IH l). cbn [count_occ] in E.
  destruct (Z.eq_dec 58 58); [|contradiction]. lia.
Qed.
(** With a colon in front of any dot, and without "::", every text whatsoever is taken for an IPv6 address.  The groups behind the last that its colons allow are
    not from the text: they are what was on the stack. *)
Theorem C87_colons_refuted stale s : marked 58 s -> (forall x y, s <> x ++ 58 :: 58 :: y) ->
  exists gs zone, length gs = 8%nat /\ ip_parse stale s = Ret (Some (mk_ip (words_bytes gs) zone)) /\
    forall i, (colons s < i < 8)%nat -> nth_error gs i = Some (stale i mod 65536).
Proof.
  intros H N. destruct (marked_first 58 s (or_intror eq_refl) H) as (r & E). unfold ip_parse. rewrite E. change (58 =? 46) with false. cbv iota. clear H E.
  unfold v6_to_num, v6_words. rewrite (no_colons (skip_space s) (colons_skip s N)). cbn [negb bind fst snd]. change (16 =? 16) with true. cbv iota.
  eexists. eexists. split; [|split; [reflexivity|]]; [rewrite map_length, seq_length; reflexivity|].
  pose proof (colons_list 8 (skip_space s)) as HL. pose proof (colons_space s) as HS.
  intros i Hi. rewrite nth_error_map, (nth_error_nth' _ 0%nat) by (rewrite seq_length; lia). rewrite seq_nth by lia. cbn [option_map Nat.add].
  unfold or_stale. rewrite nth_overflow by lia. reflexivity.
Qed.
Print Assumptions C87_colons_refuted.

Lemma HLL n : forall x, (length (scan_list scan_x 58 n x) <= n)%nat.
Proof.
  induction n as [|n IH]; intros x; cbn [scan_list]; [cbn; lia|]. destruct (scan_x x) as [[v l]|]; [|cbn; lia]. cbn [length].
  destruct n as [|n]; [cbn; lia|]. destruct l as [|c l]; [cbn; lia|]. destruct (c =? 58); [|cbn; lia]. specialize (IH l). lia.
Qed.
Lemma skip_space_idem s : skip_space (skip_space s) = skip_space s.
Proof. induction s as [|c s IH]; [reflexivity|]. cbn [skip_space]. destruct (is_space c) eqn:E; [exact IH|]. cbn [skip_space]. rewrite E. reflexivity. Qed.
(** Such a text is read group by group; blanks, signs, "0x" and numbers of any size are accepted, of which the lowest 16 bits count. *)
Theorem C87_groups stale s ts vs r : marked 58 s -> (forall x y, s <> x ++ 58 :: 58 :: y) ->
  s = join 58 ts ++ r -> Forall2 loose_hex ts vs -> (1 <= length ts <= 8)%nat -> no_hexit r ->
  exists gs zone, ip_parse stale s = Ret (Some (mk_ip (words_bytes gs) zone)) /\ firstn (length vs) gs = map (fun v => as_ulong v mod 65536) vs.
Proof.
  intros H N ES F HL HR. destruct (marked_first 58 s (or_intror eq_refl) H) as (r0 & E). unfold ip_parse. rewrite E. change (58 =? 46) with false. cbv iota. clear H E.
  unfold v6_to_num, v6_words. rewrite (no_colons (skip_space s) (colons_skip s N)). cbn [negb bind fst snd]. change (16 =? 16) with true. cbv iota.
  eexists. eexists. split; [reflexivity|].
  assert (K : exists more, map (fun x => x mod 65536) (scan_list scan_x 58 8 (skip_space s)) = map (fun v => as_ulong v mod 65536) vs ++ more).
  { replace (scan_list scan_x 58 8 (skip_space s)) with (scan_list scan_x 58 8 s); [subst s; apply scan_list_loose; assumption|].
    cbn [scan_list]. unfold scan_x, scan_num. rewrite skip_space_idem. reflexivity. }
  destruct K as (more & K). pose proof (HLL 8%nat (skip_space s)) as LV. set (l := scan_list scan_x 58 8 (skip_space s)) in *.
  assert (LK : (length vs <= length l)%nat) by (apply (f_equal (@length Z)) in K; rewrite app_length, !map_length in K; lia).
  assert (HF : (length ts = length vs)%nat) by (clear - F; induction F; cbn; lia).
  apply nth_error_ext. intros i. destruct (Nat.lt_ge_cases i (length vs)) as [Hi|Hi].
  - rewrite nth_error_firstn, (proj2 (Nat.ltb_lt i (length vs)) Hi). rewrite nth_error_map, (nth_error_nth' _ 0%nat) by (rewrite seq_length; lia). rewrite seq_nth by lia. cbn [option_map Nat.add].
    apply (f_equal (fun w => nth_error w i)) in K. rewrite nth_error_app1 in K by (rewrite map_length; lia). rewrite <- K, nth_error_map. unfold or_stale.
    rewrite (nth_error_nth' l (stale i)) by lia. reflexivity.
  - rewrite (proj2 (nth_error_None _ _)) by (rewrite firstn_length; lia). symmetry. apply nth_error_None. rewrite map_length. lia.
Qed.
Print Assumptions C87_groups.

Definition ex_text : list Z := [32; 43; 48; 49; 46; 50; 46; 51; 46; 52; 47].
Example C87_nonvacuous : marked 46 ex_text /\ loose_dotted [1; 2; 3; 4] ex_text /\ (forall a, ~ dotted a ex_text) /\
  Forall2 loose_hex [[48; 120; 49]; [45; 49]; [49; 50; 51; 52; 53]] [1; -1; 74565] /\ marked 58 [120; 58; 121] /\ marked 46 [49; 46; 50] /\ forall a, ~ loose_dotted a [49; 46; 50].
Proof.
  split; [exists [32; 43; 48; 49], [50; 46; 51; 46; 52; 47]; split; [reflexivity|]; split; cbn; lia|].
  split; [apply (v4_accepted (fun _ => 0)); reflexivity|]. split.
  - intros a (ts & L & B & F & E). destruct ts as [|t ts]; [discriminate E|]. inversion F as [|? v ? vs Ht F']; subst. destruct (decimal_facts t v Ht) as (N & HD & _).
    destruct t as [|c t]; [contradiction|]. assert (c = 32) by (destruct ts; cbn in E; injection E as <-; reflexivity). subst c. specialize (HD 32 (or_introl eq_refl)). lia.
  - split.
    { constructor; [apply (loose_hex_plain [] [] [48; 120] [49]); [intros x []|cbn; tauto|cbn; tauto|apply hex_one; apply (hx_num 1); lia]|].
      constructor; [apply (loose_hex_minus [] [] [49] 1); [intros x []|cbn; tauto|apply hex_one; apply (hx_num 1); lia]|].
      constructor; [|constructor]. apply (loose_hex_plain [] [] [] [49; 50; 51; 52; 53]); [intros x []|cbn; tauto|cbn; tauto|].
      apply (hex_more [49; 50; 51; 52] 4660 53 5); [|apply (hx_num 5); lia]. apply (hex_more [49; 50; 51] 291 52 4); [|apply (hx_num 4); lia].
      apply (hex_more [49; 50] 18 51 3); [|apply (hx_num 3); lia]. apply (hex_more [49] 1 50 2); [|apply (hx_num 2); lia]. apply hex_one. apply (hx_num 1). lia. }
    split; [exists [120], [121]; split; [reflexivity|]; split; cbn; lia|]. split; [exists [49], [50]; split; [reflexivity|]; split; cbn; lia|].
    intros a H. apply (v4_accepted (fun _ => 0)) in H. discriminate H.
Qed.
