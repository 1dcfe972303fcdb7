From Verif Require Import Base BaseFacts ListFacts List2Facts Hash_Model Ttl_Model Ttl_Spec Ttl_Proofs Addr_Model Addr_Spec Addr_Proofs Loose_Spec.
Require Import ZifyBool ZifyNat.

Lemma spaces_is b : spaces b <-> forall c, In c b -> is_space c = true.
Proof. unfold spaces, is_space. split; intros H c Hc; specialize (H c Hc); lia. Qed.
Lemma skip_space_app b r : spaces b -> skip_space (b ++ r) = skip_space r.
Proof. intros H0. pose proof (proj1 (spaces_is b) H0) as H. clear H0. induction b as [|c b IH]; cbn [app]; [reflexivity|]. cbn [skip_space]. rewrite (H c (or_introl eq_refl)). apply IH. intros x Hx. apply H. right. exact Hx. Qed.
Lemma skip_space_split s : exists b, spaces b /\ s = b ++ skip_space s.
Proof.
  induction s as [|c s (b & Hb & E)]; [exists []; split; [intros x []|reflexivity]|]. cbn [skip_space]. destruct (is_space c) eqn:Ec.
  - exists (c :: b). split; [|cbn [app]; congruence]. apply spaces_is. intros x [<-|Hx]; [exact Ec|]. exact (proj1 (spaces_is b) Hb x Hx).
  - exists []. split; [intros x []|reflexivity].
Qed.
Lemma digit_dec c : digit c < 10 <-> 48 <= c <= 57.
Proof. unfold digit. repeat match goal with |- context [if ?b then _ else _] => destruct b eqn:? end; lia. Qed.
Lemma take_base_split s : forall ds l, take_base 10 s = (ds, l) -> s = ds ++ l /\ (forall c, In c ds -> 48 <= c <= 57) /\ no_digit l.
Proof.
  induction s as [|c s IH]; intros ds l; cbn [take_base].
  - intros [= <- <-]. split; [reflexivity|]. split; [intros x []|]. intros x r' [=].
  - destruct (Z.ltb_spec (digit c) 10) as [H|H].
    + destruct (take_base 10 s) as [d l0] eqn:E. intros [= <- <-]. destruct (IH d l0 eq_refl) as (-> & H2 & H3). split; [reflexivity|]. split; [|exact H3].
      intros x [<-|Hx]; [apply digit_dec; exact H|auto].
    + intros [= <- <-]. split; [reflexivity|]. split; [intros x []|]. intros x r' [= <- <-]. rewrite <- digit_dec. lia.
Qed.
Lemma digits_decimal ds : ds <> [] -> (forall c, In c ds -> 48 <= c <= 57) -> decimal ds (base_value 10 ds).
Proof.
  induction ds as [|c ds IH] using rev_ind; [contradiction|]. intros _ H. assert (Hc : 48 <= c <= 57) by (apply H, in_or_app; right; left; reflexivity).
  assert (Hd : digit c = c - 48) by (unfold digit; repeat match goal with |- context [if ?b then _ else _] => destruct b eqn:? end; lia).
  unfold base_value. rewrite fold_left_app. cbn [fold_left]. rewrite Hd. replace c with (48 + (c - 48)) at 1 by lia. destruct ds as [|a ds].
  - cbn [fold_left app]. replace (0 * 10 + (c - 48)) with (c - 48) by lia. apply dec_one. lia.
  - fold (base_value 10 (a :: ds)). replace (base_value 10 (a :: ds) * 10 + (c - 48)) with (10 * base_value 10 (a :: ds) + (c - 48)) by lia.
    apply dec_more; [|lia]. apply IH; [discriminate|]. intros x Hx. apply H, in_or_app. left. exact Hx.
Qed.
Lemma take_prefix_10 s : take_prefix 10 s = s.
Proof. apply take_prefix_no. lia. Qed.
Lemma no_digit_stops r : no_digit r <-> stops 10 r.
Proof.
  unfold no_digit, stops. destruct r as [|c r]; [split; [auto|intros _ x r' [=]]|]. pose proof (digit_dec c). split.
  - intros N. specialize (N c r eq_refl). lia.
  - intros N x r' [= <- <-]. lia.
Qed.
Lemma take_dec ds n l : decimal ds n -> no_digit l -> take_base 10 (ds ++ l) = (ds, l) /\ base_value 10 ds = n /\ ds <> [].
Proof.
  intros Hd Hl. destruct (decimal_facts ds n Hd) as (N & HD & _ & _). split; [|split; [apply decimal_base; exact Hd|exact N]].
  apply take_base_app; [|apply no_digit_stops; exact Hl]. intros c Hc. apply digit_dec. auto.
Qed.
Lemma scan_num_iff s v l : scan_num 10 s = Some (v, l) <-> exists t, s = t ++ l /\ loose t v /\ no_digit l.
Proof.
  unfold scan_num. split.
  - destruct (skip_space_split s) as (b & Hb & E). destruct (take_sign (skip_space s)) as [neg t] eqn:ES. rewrite take_prefix_10. destruct (take_base 10 t) as [ds r] eqn:ET.
    destruct (take_base_split t ds r ET) as (-> & HD & HR). destruct ds as [|d ds]; [intros [=]|].
    intros H. assert (Hl : r = l) by congruence. subst l. assert (Hv : (if neg then - base_value 10 (d :: ds) else base_value 10 (d :: ds)) = v) by congruence. clear H.
    pose proof (digits_decimal (d :: ds) ltac:(discriminate) HD) as HN.
    assert (C : (neg = true /\ skip_space s = 45 :: (d :: ds) ++ r) \/ (neg = false /\ skip_space s = 43 :: (d :: ds) ++ r) \/ (neg = false /\ skip_space s = (d :: ds) ++ r)).
    { destruct (skip_space s) as [|c w]; [injection ES as <- E1; discriminate E1|]. destruct (Z.eq_dec c 45) as [->|N1]; [injection ES as <- ->; auto|].
      destruct (Z.eq_dec c 43) as [->|N2]; [injection ES as <- ->; auto|]. rewrite take_sign_hd in ES by assumption. right. right. split; congruence. }
    destruct C as [(-> & C)|[(-> & C)|(-> & C)]]; rewrite C in E; clear C ET HD ES; subst v.
    + exists (b ++ 45 :: d :: ds). split; [etransitivity; [exact E|rewrite <- app_assoc; reflexivity]|]. split; [constructor; assumption|exact HR].
    + exists (b ++ 43 :: d :: ds). split; [etransitivity; [exact E|rewrite <- app_assoc; reflexivity]|]. split; [constructor; assumption|exact HR].
    + exists (b ++ d :: ds). split; [etransitivity; [exact E|rewrite <- app_assoc; reflexivity]|]. split; [constructor; assumption|exact HR].
  - intros (t & -> & Ht & Hl). destruct Ht as [b ds n Hb Hd|b ds n Hb Hd|b ds n Hb Hd]; rewrite <- app_assoc, skip_space_app by exact Hb; destruct (take_dec ds n l Hd Hl) as (E1 & E2 & N).
    + pose proof (decimal_digit ds n) as HD. destruct ds as [|d ds]; [contradiction|]. specialize (HD d Hd (or_introl eq_refl)). cbn [app] in *.
      rewrite skip_space_hd by (unfold is_space; lia). rewrite take_sign_hd by lia. rewrite take_prefix_10, E1, E2. reflexivity.
    + cbn [app]. rewrite skip_space_hd by reflexivity. cbn [take_sign]. rewrite take_prefix_10, E1, E2. destruct ds; [contradiction|reflexivity].
    + cbn [app]. rewrite skip_space_hd by reflexivity. cbn [take_sign]. rewrite take_prefix_10, E1, E2. destruct ds; [contradiction|reflexivity].
Qed.
Lemma clamp v : Z.max (-9223372036854775808) (Z.min 9223372036854775807 v) = as_long v.
Proof. unfold as_long. change (2 ^ 63) with 9223372036854775808. repeat match goal with |- context [if ?b then _ else _] => destruct b eqn:? end; lia. Qed.
Lemma scan_d_iff s v l : scan_d s = Some (v, l) <-> exists t n, s = t ++ l /\ loose t n /\ no_digit l /\ v = as_long n.
Proof.
  unfold scan_d. split.
  - destruct (scan_num 10 s) as [[n r]|] eqn:E; [|intros [=]]. intros H. assert (r = l) by congruence. subst r. assert (Hv : Z.max (-9223372036854775808) (Z.min 9223372036854775807 n) = v) by congruence.
    apply scan_num_iff in E. destruct E as (t & E1 & E2 & E3). exists t, n. rewrite <- clamp. auto.
  - intros (t & n & E1 & E2 & E3 & ->). assert (E : scan_num 10 s = Some (n, l)) by (apply scan_num_iff; eauto). rewrite E, clamp. reflexivity.
Qed.
(** The text in front of a number's end is determined. *)
Lemma scan_list_len s : forall n, (length (scan_list scan_d 46 n s) <= n)%nat.
Proof.
  intros n. revert s. induction n as [|n IH]; intros s; cbn [scan_list]; [cbn; lia|]. destruct (scan_d s) as [[v l]|]; [|cbn; lia]. cbn [length].
  destruct n as [|n]; [cbn; lia|]. destruct l as [|c l]; [cbn; lia|]. destruct (c =? 46); [|cbn; lia]. specialize (IH l). lia.
Qed.
Lemma scan_list_full n : forall s vs, (1 <= n)%nat ->
  (scan_list scan_d 46 n s = vs /\ length vs = n) <->
  exists ts ns r, length ts = n /\ Forall2 loose ts ns /\ no_digit r /\ s = join 46 ts ++ r /\ vs = map as_long ns.
Proof.
  induction n as [|n IH]; [lia|]. intros s vs _. cbn [scan_list]. split.
  - intros (E & Hl). destruct (scan_d s) as [[v l]|] eqn:ED; [|subst vs; discriminate Hl]. apply scan_d_iff in ED. destruct ED as (t & n0 & -> & Ht & Hn & ->).
    destruct n as [|n].
    + exists [t], [n0], l. subst vs. cbn [join map]. auto.
    + destruct l as [|c l]; [subst vs; discriminate Hl|]. destruct (Z.eqb_spec c 46) as [->|]; [|subst vs; discriminate Hl].
      subst vs. cbn [length] in Hl. assert (IA : scan_list scan_d 46 (S n) l = scan_list scan_d 46 (S n) l /\ length (scan_list scan_d 46 (S n) l) = S n) by (split; [reflexivity|lia]).
      apply IH in IA; [|lia]. destruct IA as (ts & ns & r & L & F & R & EL & EV). exists (t :: ts), (n0 :: ns), r.
      split; [cbn; lia|]. split; [constructor; assumption|]. split; [exact R|]. split; [|cbn [map]; rewrite EV; reflexivity].
      destruct ts as [|t1 ts]; [discriminate L|]. change (join 46 (t :: t1 :: ts)) with (t ++ 46 :: join 46 (t1 :: ts)). rewrite EL, <- app_assoc. reflexivity.
  - intros (ts & ns & r & L & F & R & -> & ->). destruct ts as [|t ts]; [discriminate L|]. inversion F as [|? n0 ? ns' Ht F']; subst. destruct n as [|n].
    + destruct ts; [|discriminate L]. inversion F'; subst. cbn [join]. assert (ED : scan_d (t ++ r) = Some (as_long n0, r)) by (apply scan_d_iff; exists t, n0; auto).
      rewrite ED. cbn. auto.
    + destruct ts as [|t1 ts]; [discriminate L|]. change (join 46 (t :: t1 :: ts)) with (t ++ 46 :: join 46 (t1 :: ts)). rewrite <- app_assoc.
      assert (ED : scan_d (t ++ (46 :: join 46 (t1 :: ts)) ++ r) = Some (as_long n0, (46 :: join 46 (t1 :: ts)) ++ r)).
      { apply scan_d_iff. exists t, n0. split; [reflexivity|]. split; [exact Ht|]. split; [|reflexivity]. intros c r' [= <- _]. lia. }
      rewrite ED. cbn [app map]. change (46 =? 46) with true. cbv iota.
      assert (IA : scan_list scan_d 46 (S n) (join 46 (t1 :: ts) ++ r) = map as_long ns' /\ length (map as_long ns') = S n).
      { apply IH; [lia|]. exists (t1 :: ts), ns', r. split; [cbn in L |- *; lia|]. auto. }
      destruct IA as (-> & Hl). split; [reflexivity|cbn [length]; lia].
Qed.
Lemma v4_accepted stale t a : v4_to_num stale t = (4, a) <-> loose_dotted a t.
Proof.
  unfold v4_to_num, loose_dotted. set (vs := scan_list scan_d 46 4 t). split.
  - intros E. assert (Hl : length vs = 4%nat) by (apply Nat2Z.inj; change (Z.of_nat 4) with 4; congruence). assert (Ha : map (fun i => or_stale stale vs i mod 256) [0; 1; 2; 3]%nat = a) by congruence. clear E.
    destruct (proj1 (scan_list_full 4 t vs ltac:(lia)) (conj eq_refl Hl)) as (ts & ns & r & L & F & R & E & EV). exists ts, ns, r.
    split; [exact L|]. split; [exact F|]. split; [exact R|]. split; [exact E|]. rewrite <- Ha. rewrite EV in Hl |- *. rewrite map_length in Hl.
    destruct (list4 ns Hl) as (a1 & b1 & c1 & d1 & ->). reflexivity.
  - intros (ts & ns & r & L & F & R & E & ->). assert (H : vs = map as_long ns /\ length (map as_long ns) = 4%nat).
    { unfold vs. apply (proj2 (scan_list_full 4 t (map as_long ns) ltac:(lia))). exists ts, ns, r. auto. }
    destruct H as (-> & Hl). rewrite Hl. rewrite map_length in Hl. destruct (list4 ns Hl) as (a1 & b1 & c1 & d1 & ->). reflexivity.
Qed.
Lemma v4_count stale t : 0 <= fst (v4_to_num stale t) <= 4.
Proof. unfold v4_to_num. cbn [fst]. pose proof (scan_list_len t 4). lia. Qed.

Lemma digit_hex c : digit c < 16 <-> exists d, hexit c d.
Proof.
  split.
  - unfold digit. destruct ((48 <=? c) && (c <=? 57)) eqn:E1; [intros _; exists (c - 48); replace c with (48 + (c - 48)) at 1 by lia; constructor; lia|].
    destruct ((65 <=? c) && (c <=? 70)) eqn:E2; [intros _; exists (c - 55); replace c with (55 + (c - 55)) at 1 by lia; apply hx_upper; lia|].
    destruct ((97 <=? c) && (c <=? 102)) eqn:E3; [intros _; exists (c - 87); replace c with (87 + (c - 87)) at 1 by lia; apply hx_lower; lia|]. lia.
  - intros (d & H). destruct (hexit_digit c d H) as (-> & ? & _). lia.
Qed.
Lemma no_hexit_stops r : no_hexit r -> stops 16 r.
Proof.
  destruct r as [|c r]; [intros _; exact I|]. intros H. destruct (H c r eq_refl) as (N & _). cbn [stops]. destruct (Z_lt_ge_dec (digit c) 16) as [L|]; [|lia].
  apply digit_hex in L. destruct L as (d & L). destruct (N d L).
Qed.
Lemma hex_take ds n p r : hexadecimal ds n -> In p [[]; [48; 120]; [48; 88]] -> no_hexit r ->
  exists e, take_base 16 (take_prefix 16 (p ++ ds ++ r)) = (e, r) /\ e <> [] /\ base_value 16 e = n.
Proof.
  intros Hd Hp Hr. destruct (hexadecimal_facts ds n Hd) as (N & HD & HV & _). assert (HL : forall c, In c ds -> digit c < 16) by (intros c Hc; apply digit_hex; auto).
  assert (Q : forall c, (c = 120 \/ c = 88) -> exists e, take_base 16 (take_prefix 16 (48 :: c :: ds ++ r)) = (e, r) /\ e <> [] /\ base_value 16 e = n).
  { intros c Hc. exists (48 :: ds). assert (E : take_prefix 16 (48 :: c :: ds ++ r) = (48 :: ds) ++ r) by (destruct Hc as [->| ->]; reflexivity). rewrite E.
    split; [apply take_base_app; [|apply no_hexit_stops; exact Hr]|split; [discriminate|]].
    - intros x [<-|Hx]; [vm_compute; reflexivity|auto].
    - unfold base_value in *. cbn [fold_left]. exact HV. }
  destruct Hp as [<-|[<-|[<-|[]]]]; cbn [app]; [|apply Q; auto|apply Q; auto]. exists ds. split; [|split; [exact N|exact HV]].
  rewrite take_prefix_no; [apply take_base_app; [exact HL|apply no_hexit_stops; exact Hr]|]. intros _ c w E. destruct ds as [|d0 ds]; [contradiction|]. injection E as -> E.
  destruct ds as [|d1 ds]; cbn [app] in E.
  - subst r. destruct (Hr c w eq_refl) as (_ & H1 & H2). auto.
  - injection E as -> _. destruct (HD c (or_intror (or_introl eq_refl))) as (x & Hx). inversion Hx; lia.
Qed.
Lemma take_hd_hex p ds n r : hexadecimal ds n -> In p [[]; [48; 120]; [48; 88]] -> exists c w, p ++ ds ++ r = c :: w /\ is_space c = false /\ c <> 45 /\ c <> 43.
Proof.
  intros Hd Hp. destruct (hexadecimal_facts ds n Hd) as (N & HD & _). destruct Hp as [<-|[<-|[<-|[]]]]; cbn [app].
  - destruct ds as [|c ds]; [contradiction|]. destruct (HD c (or_introl eq_refl)) as (d & H). destruct (hexit_digit c d H) as (_ & _ & ? & _ & E). exists c, (ds ++ r). split; [reflexivity|]. split; [exact E|lia].
  - eexists. eexists. split; [reflexivity|]. split; [reflexivity|lia].
  - eexists. eexists. split; [reflexivity|]. split; [reflexivity|lia].
Qed.
Lemma scan_hex_loose t v r : loose_hex t v -> no_hexit r -> scan_num 16 (t ++ r) = Some (v, r).
Proof.
  intros Ht Hr. unfold scan_num. destruct Ht as [b sg p ds n Hb Hs Hp Hd|b p ds n Hb Hp Hd]; rewrite <- !app_assoc, skip_space_app by exact Hb;
    destruct (hex_take ds n p r Hd Hp Hr) as (e & E1 & E2 & E3); destruct (take_hd_hex p ds n r Hd Hp) as (c & w & EC & S1 & S2 & S3).
  - destruct Hs as [<-|[<-|[]]]; cbn [app].
    + rewrite EC in *. rewrite skip_space_hd by exact S1. rewrite take_sign_hd by assumption. rewrite E1. destruct e; [contradiction|]. rewrite E3. reflexivity.
    + rewrite skip_space_hd by reflexivity. cbn [take_sign]. rewrite E1. destruct e; [contradiction|]. rewrite E3. reflexivity.
  - cbn [app]. rewrite skip_space_hd by reflexivity. cbn [take_sign]. rewrite E1. destruct e; [contradiction|]. rewrite E3. reflexivity.
Qed.
Lemma scan_x_loose t v r : loose_hex t v -> no_hexit r -> exists x, scan_x (t ++ r) = Some (x, r) /\ x mod 65536 = as_ulong v mod 65536.
Proof.
  intros Ht Hr. unfold scan_x. rewrite (scan_hex_loose t v r Ht Hr). eexists. split; [reflexivity|]. unfold as_ulong. change (2 ^ 64) with 18446744073709551616. change (- (18446744073709551616)) with (-18446744073709551616).
  destruct ((18446744073709551615 <? v) || (v <? -18446744073709551615)) eqn:E1; destruct ((18446744073709551616 <=? v) || (v <=? -18446744073709551616)) eqn:E2; lia.
Qed.
Lemma no_hexit_colon w : no_hexit (58 :: w).
Proof. intros c r' E. assert (c = 58) by congruence. subst c. split; [|split; discriminate]. intros d H. destruct (hexit_digit 58 d H) as (_ & _ & _ & N & _). exact (N eq_refl). Qed.
Lemma scan_list_loose ts : forall vs r n, Forall2 loose_hex ts vs -> (1 <= length ts <= n)%nat -> no_hexit r ->
  exists more, map (fun x => x mod 65536) (scan_list scan_x 58 n (join 58 ts ++ r)) = map (fun v => as_ulong v mod 65536) vs ++ more.
Proof.
  induction ts as [|t ts IH]; intros vs r n F Hn Hr; [cbn in Hn; lia|]. inversion F as [|? v ? vs' Ht F']; subst. cbn [length] in Hn. destruct n as [|n]; [lia|]. cbn [scan_list].
  destruct ts as [|t1 ts].
  - inversion F'; subst. cbn [join]. destruct (scan_x_loose t v r Ht Hr) as (x & E & Ex). rewrite E. cbn [map app]. rewrite Ex. eexists. reflexivity.
  - change (join 58 (t :: t1 :: ts)) with (t ++ 58 :: join 58 (t1 :: ts)). rewrite <- app_assoc.
    destruct (scan_x_loose t v ((58 :: join 58 (t1 :: ts)) ++ r) Ht (no_hexit_colon _)) as (x & E & Ex). rewrite E. cbn [app map]. rewrite Ex.
    destruct n as [|n]; [cbn in Hn; lia|]. change (58 =? 58) with true. cbv iota. destruct (IH vs' r (S n) F' ltac:(cbn in Hn |- *; lia) Hr) as (more & EM).
    exists more. rewrite EM. reflexivity.
Qed.
