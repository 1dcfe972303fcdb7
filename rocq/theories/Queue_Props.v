From Verif Require Import Base BaseFacts List2Facts Arr_Model Queue_Model.
From Coq Require Import Permutation Sorting.Sorted Znumtheory.
Require Import ZifyBool ZifyNat.

(** * C35: the priority queue *)
(** A comparison function as qsort wants it: a total preorder by its sign. *)
Definition preorder {A} (cmp : A -> A -> Z) : Prop :=
  (forall a b, cmp a b <= 0 \/ cmp b a <= 0) /\ (forall a b c, cmp a b <= 0 -> cmp b c <= 0 -> cmp a c <= 0).
Definition leq {A} (cmp : A -> A -> Z) (a b : A) : Prop := cmp a b <= 0.
Inductive qop (A : Type) := Add (x : A) | Get.
Arguments Add {A} x.
Arguments Get {A}.
(** The queue after the operations and what the removals returned. *)
Fixpoint q_run {A} (cmp : A -> A -> Z) (q : list A) (ops : list (qop A)) : list (option A) * list A :=
  match ops with
  | [] => ([], q)
  | Add x :: ops' => q_run cmp (q_add cmp x q) ops'
  | Get :: ops' => let (r, q1) := q_get q in let (rs, q2) := q_run cmp q1 ops' in (r :: rs, q2)
  end.
Fixpoint somes {A} (l : list (option A)) : list A := match l with [] => [] | Some x :: l' => x :: somes l' | None :: l' => somes l' end.
Fixpoint added {A} (ops : list (qop A)) : list A := match ops with [] => [] | Add x :: ops' => x :: added ops' | Get :: ops' => added ops' end.

Lemma q_add_insert {A} (cmp : A -> A -> Z) x q : q_add cmp x q = q_insert cmp x q.
Proof. destruct q as [|y q]; [reflexivity|]. cbn [q_add q_insert]. destruct (Z.leb_spec (cmp x y) 0), (Z.ltb_spec 0 (cmp x y)); try lia; reflexivity. Qed.
(** Where an item goes: behind all items that are less, before the first one that is not. *)
Theorem C35_place {A} (cmp : A -> A -> Z) x q : exists l1 l2, q = l1 ++ l2 /\ q_add cmp x q = l1 ++ x :: l2 /\ (forall y, In y l1 -> cmp x y > 0) /\ (forall y l3, l2 = y :: l3 -> cmp x y <= 0).
Proof.
  rewrite q_add_insert. induction q as [|y q IH]; cbn [q_insert]; [exists [], []; repeat split; [contradiction|discriminate]|]. destruct (Z.ltb_spec 0 (cmp x y)).
  - destruct IH as (l1 & l2 & -> & E & H1 & H2). exists (y :: l1), l2. rewrite E. split; [reflexivity|]. split; [reflexivity|]. split; [|exact H2]. intros z [<-|Hz]; [lia|apply H1, Hz].
  - exists [], (y :: q). split; [reflexivity|]. split; [reflexivity|]. split; [contradiction|]. intros z l3 E. injection E as <- _. assumption.
Qed.
Print Assumptions C35_place.
Lemma q_add_perm {A} (cmp : A -> A -> Z) x q : Permutation (q_add cmp x q) (x :: q).
Proof. destruct (C35_place cmp x q) as (l1 & l2 & -> & -> & _). symmetry. apply Permutation_middle. Qed.
Lemma q_add_sorted {A} (cmp : A -> A -> Z) x q : preorder cmp -> StronglySorted (leq cmp) q -> StronglySorted (leq cmp) (q_add cmp x q).
Proof.
  intros (Ht & Htr). rewrite q_add_insert. induction 1 as [|y q HS IH HF]; cbn [q_insert]; [repeat constructor|]. destruct (Z.ltb_spec 0 (cmp x y)).
  - constructor; [exact IH|]. apply Forall_forall. intros z Hz. rewrite <- q_add_insert in Hz. apply (Permutation_in _ (q_add_perm cmp x q)) in Hz. destruct Hz as [<-|Hz]; [|apply (proj1 (Forall_forall _ _) HF z Hz)]. destruct (Ht y x); [assumption|unfold leq in *; lia].
  - constructor; [constructor; assumption|]. constructor; [unfold leq; assumption|]. eapply Forall_impl; [|exact HF]. intros z Hz. unfold leq in *. eapply Htr; eassumption.
Qed.
(** After all sequences of operations: nothing is lost or invented, and the queue is in order. *)
Theorem C35_holds {A} (cmp : A -> A -> Z) q ops rs q' : preorder cmp -> StronglySorted (leq cmp) q -> q_run cmp q ops = (rs, q') -> StronglySorted (leq cmp) q' /\ Permutation (somes rs ++ q') (q ++ added ops).
Proof.
  intros HP. revert q rs q'. induction ops as [|o ops IH]; intros q rs q' HS E; cbn [q_run added] in *.
  - injection E as <- <-. cbn [somes]. rewrite app_nil_r. auto.
  - destruct o as [x|].
    + destruct (IH _ _ _ (q_add_sorted cmp x q HP HS) E) as (H1 & H2). split; [exact H1|]. cbn [added]. rewrite H2. rewrite q_add_perm. cbn [app]. apply Permutation_middle.
    + destruct q as [|x q]; cbn [q_get] in E.
      * destruct (q_run cmp [] ops) as (rs2, q2) eqn:E2. injection E as <- <-. destruct (IH _ _ _ HS E2) as (H1 & H2). split; [exact H1|]. cbn [somes added]. exact H2.
      * destruct (q_run cmp q ops) as (rs2, q2) eqn:E2. injection E as <- <-. inversion HS; subst. destruct (IH _ _ _ ltac:(eassumption) E2) as (H1' & H2'). split; [exact H1'|]. cbn [somes added app]. constructor. exact H2'.
Qed.
Print Assumptions C35_holds.
(** A removal returns a minimum, and nothing only if the queue is empty. *)
Theorem C35_minimum {A} (cmp : A -> A -> Z) ops rs q r q' : preorder cmp -> q_run cmp [] ops = (rs, q) -> q_get q = (r, q') ->
  match r with None => Permutation (somes rs) (added ops) | Some x => Permutation (x :: q') q /\ forall y, In y q -> cmp x y <= 0 end.
Proof.
  intros HP E Eg. destruct (C35_holds cmp [] ops rs q HP ltac:(constructor) E) as (HS & HPm). destruct q as [|x q]; injection Eg as <- <-; [rewrite app_nil_r in HPm; exact HPm|]. split; [reflexivity|]. inversion HS as [|? ? HS' HF]; subst. intros y [<-|Hy]; [destruct HP as (Ht & _); destruct (Ht x x); assumption|]. apply (proj1 (Forall_forall _ _) HF y Hy).
Qed.
Print Assumptions C35_minimum.
Example C35_nonvacuous : preorder Z.sub /\ q_run Z.sub [] [Add 5; Add 3; Get; Add 4; Add 3; Get; Get; Get; Get] = ([Some 3; Some 3; Some 4; Some 5; None], []).
Proof. split; [split; lia|reflexivity]. Qed.

(** * C42: rotation through the servers *)
Definition advance_n {A} (a : addrlist A) (k : nat) : addrlist A := Nat.iter k al_advance a.
Lemma advance_n_ok {A} (a : addrlist A) k : 0 <= al_counter a < 4294967296 -> advance_n a k = mk_al (al_list a) ((al_counter a + Z.of_nat k) mod 4294967296).
Proof.
  intros H. induction k as [|k IH]; [change (Z.of_nat 0) with 0; rewrite Z.add_0_r, Z.mod_small by assumption; destruct a; reflexivity|].
  change (advance_n a (S k)) with (al_advance (advance_n a k)). rewrite IH. unfold al_advance. cbn [al_list al_counter]. f_equal. rewrite Zplus_mod_idemp_l. f_equal. lia.
Qed.
Lemma al_get_ok {A} (l : list A) c : l <> [] -> exists x, al_get (mk_al l c) = Ret (Some x) /\ nth_error l (Z.to_nat (c mod Z.of_nat (length l))) = Some x.
Proof.
  intros Hl. unfold al_get. cbn [al_list al_counter]. assert (HL : (0 < length l)%nat) by (destruct l; [contradiction|cbn [length]; lia]). destruct (Nat.eqb_spec (length l) 0); [lia|]. pose proof (Z.mod_pos_bound c (Z.of_nat (length l)) ltac:(lia)) as HB.
  destruct (nth_error l (Z.to_nat (c mod Z.of_nat (length l)))) as [x|] eqn:E; [|apply nth_error_None in E; lia]. exists x. split; [|reflexivity].
  destruct (Z.leb_spec 0 (c mod Z.of_nat (length l))), (Z.ltb_spec (c mod Z.of_nat (length l)) (Z.of_nat (length l))); try lia. cbn [andb]. reflexivity.
Qed.
(** For every number of advances there is a selected server, and the list stays the same: no index is out of range. *)
Theorem C42_in_range {A} (a : addrlist A) k : 0 <= al_counter a < 4294967296 -> al_list a <> [] -> exists x, al_get (advance_n a k) = Ret (Some x) /\ In x (al_list a) /\ al_list (advance_n a k) = al_list a.
Proof. intros H Hl. rewrite advance_n_ok by assumption. destruct (al_get_ok (al_list a) ((al_counter a + Z.of_nat k) mod 4294967296) Hl) as (x & E & Hx). exists x. split; [exact E|]. split; [eapply nth_error_In; exact Hx|reflexivity]. Qed.
Print Assumptions C42_in_range.
(** Full statement: k advances from a fresh list select server k mod n for all k.  Proved for all k if n divides 2^32 and for
    k below 2^32 else; missing: the other k, for which it is false (C42_rotation_refuted). *)
Theorem C42_rotation_partial {A} (l : list A) k : l <> [] -> Z.of_nat k < 4294967296 \/ (Z.of_nat (length l) | 4294967296) ->
  exists x, al_get (advance_n (mk_al l 0) k) = Ret (Some x) /\ nth_error l (k mod length l) = Some x.
Proof.
  intros Hl HK. rewrite advance_n_ok by (cbn [al_counter]; lia). cbn [al_list al_counter]. assert (HL : (0 < length l)%nat) by (destruct l; [contradiction|cbn [length]; lia]).
  destruct (al_get_ok l ((0 + Z.of_nat k) mod 4294967296) Hl) as (x & E & Hx). exists x. split; [exact E|]. rewrite <- Hx. f_equal. rewrite Z.add_0_l. apply Nat2Z.inj. rewrite Nat2Z.inj_mod. rewrite Z2Nat.id by (apply Z.mod_pos_bound; lia).
  destruct HK as [HK|HD]; [rewrite (Z.mod_small (Z.of_nat k) 4294967296) by lia; reflexivity|]. apply (Zmod_div_mod (Z.of_nat (length l)) 4294967296 (Z.of_nat k)); [lia|lia|exact HD].
Qed.
Print Assumptions C42_rotation_partial.
(** Among n consecutive advances every server is selected, unless the counter wraps in between. *)
Theorem C42_every_server_partial {A} (l : list A) c i x : l <> [] -> 0 <= c -> c + Z.of_nat (length l) <= 4294967296 \/ (0 <= c < 4294967296 /\ (Z.of_nat (length l) | 4294967296)) -> nth_error l i = Some x ->
  exists k, (k < length l)%nat /\ al_get (advance_n (mk_al l c) k) = Ret (Some x).
Proof.
  intros Hl Hc HW Hi. assert (HL : (0 < length l)%nat) by (destruct l; [contradiction|cbn [length]; lia]). assert (Hil : (i < length l)%nat) by (apply nth_error_Some; congruence). set (n := Z.of_nat (length l)) in *.
  assert (Hc2 : 0 <= c < 4294967296) by lia. exists (Z.to_nat ((Z.of_nat i - c) mod n)). pose proof (Z.mod_pos_bound (Z.of_nat i - c) n ltac:(lia)) as HB. split; [lia|].
  rewrite advance_n_ok by exact Hc2. cbn [al_list al_counter]. rewrite Z2Nat.id by lia. destruct (al_get_ok l ((c + (Z.of_nat i - c) mod n) mod 4294967296) Hl) as (y & E & Hy). rewrite E. do 2 f_equal.
  fold n in Hy. replace (((c + (Z.of_nat i - c) mod n) mod 4294967296) mod n) with (Z.of_nat i) in Hy; [rewrite Nat2Z.id in Hy; congruence|].
  assert (E2 : ((c + (Z.of_nat i - c) mod n) mod 4294967296) mod n = (c + (Z.of_nat i - c) mod n) mod n). { destruct HW as [HW|(_ & HD)]; [rewrite (Z.mod_small _ 4294967296) by lia; reflexivity|symmetry; apply (Zmod_div_mod n 4294967296); [lia|lia|exact HD]]. }
  rewrite E2, Zplus_mod_idemp_r. replace (c + (Z.of_nat i - c)) with (Z.of_nat i) by lia. rewrite Z.mod_small by lia. reflexivity.
Qed.
Print Assumptions C42_every_server_partial.
(** With three servers the rotation breaks when the counter wraps: advance 2^32 selects server 0 in place of 1, and in the three
    selections around it server 2 does not occur. *)
Theorem C42_rotation_refuted : exists k, let l := [10; 20; 30] in
  al_get (advance_n (mk_al l 0) k) = Ret (Some 10) /\ (k mod 3 = 1)%nat /\
  (forall j, (j < 3)%nat -> al_get (advance_n (mk_al l 0) (k - 1 + j)) <> Ret (Some 30)).
Proof.
  exists (Z.to_nat 4294967296). cbn zeta. split; [|split].
  - rewrite advance_n_ok by (cbn [al_counter]; lia). rewrite Z2Nat.id by lia. vm_compute. reflexivity.
  - apply Nat2Z.inj. rewrite Nat2Z.inj_mod, Z2Nat.id by lia. reflexivity.
  - intros j Hj. rewrite advance_n_ok by (cbn [al_counter]; lia). cbn [al_list al_counter]. replace (0 + Z.of_nat (Z.to_nat 4294967296 - 1 + j)) with (4294967295 + Z.of_nat j) by (pose proof (Z2Nat.id 4294967296 ltac:(lia)); lia).
    destruct j as [|[|[|j]]]; [vm_compute; discriminate..|lia].
Qed.
Print Assumptions C42_rotation_refuted.
Example C42_nonvacuous : map (fun k => al_get (advance_n (al_add (al_add (al_add al_init 7) 8) 9) k)) (seq 0 5) = map (fun x => Ret (Some x)) [7; 8; 9; 7; 8].
Proof. reflexivity. Qed.

(** * C43: primes *)
Lemma is_prime_loop_ok n fuel : 3 <= n -> n mod 2 = 1 -> forall i, 3 <= i -> i mod 2 = 1 -> n - i < 2 * Z.of_nat fuel -> (0 < fuel)%nat -> (forall d, 3 <= d < i -> ~ (d | n)) ->
  exists b, is_prime_loop fuel n i = Ret b /\ (b = true <-> prime n).
Proof.
  intros Hn Ho. induction fuel as [|fuel IH]; intros i Hi Hio Hf Hf0 HD; [lia|]. cbn [is_prime_loop].
  destruct (Z.ltb_spec ((i - 1) * (i - 1)) n) as [Hlt|Hge].
  - destruct (Z.eqb_spec (n mod i) 0) as [E|E].
    + exists false. split; [reflexivity|]. split; [discriminate|]. intros Hp. exfalso. apply prime_alt in Hp. destruct Hp as (_ & Hp). apply (Hp i); [nia|]. apply Zmod_divide; [lia|exact E].
    + apply IH; [lia| |nia|nia|].
      * rewrite Z.add_mod, Hio by lia. reflexivity.
      * intros d Hd Hdn. destruct (Z.eq_dec d i) as [->|]; [apply E; apply Zdivide_mod, Hdn|]. destruct (Z.eq_dec d (i + 1)) as [->|]; [|apply (HD d); [lia|exact Hdn]].
        destruct Hdn as (q & Hq). rewrite Hq in Ho. rewrite Z.mul_mod in Ho by lia. rewrite (Z.add_mod i 1), Hio in Ho by lia. change ((1 + 1 mod 2) mod 2) with 0 in Ho. rewrite Z.mul_0_r in Ho. discriminate.
  - exists true. split; [reflexivity|]. split; [intros _|reflexivity]. apply prime_alt. split; [lia|]. intros d Hd Hdn.
    assert (HS : forall e f, n = e * f -> 1 < e -> 1 < f -> e <= f -> False).
    { intros e f E He Hf2 Hef. apply (HD e); [|exists f; lia]. split; [|nia]. assert (e <> 2); [|lia]. intros ->. rewrite E, Z.mul_comm in Ho. rewrite Z.mod_mul in Ho by lia. discriminate. }
    destruct Hdn as (q & Hq). assert (1 < q) by nia. destruct (Z.le_ge_cases d q); [apply (HS d q); lia|apply (HS q d); lia].
Qed.
Lemma is_prime_ok n fuel : n < 2 * Z.of_nat fuel -> exists b, is_prime fuel n = Ret b /\ (b = true <-> prime n).
Proof.
  intros Hf. unfold is_prime. destruct (Z.ltb_spec n 2). { exists false. split; [reflexivity|]. split; [discriminate|]. intros Hp. apply prime_ge_2 in Hp. lia. }
  destruct (Z.eqb_spec n 2) as [->|]. { exists true. split; [reflexivity|]. split; [intros _; exact prime_2|reflexivity]. }
  destruct (Z.eqb_spec (n mod 2) 0) as [E|E]. { exists false. split; [reflexivity|]. split; [discriminate|]. intros Hp. apply prime_alt in Hp. destruct Hp as (_ & Hp). exfalso. apply (Hp 2); [lia|]. apply Zmod_divide; [lia|exact E]. }
  apply is_prime_loop_ok; [lia| |lia|reflexivity|lia|lia|intros; lia]. pose proof (Z.mod_pos_bound n 2). lia.
Qed.
(** The test says yes exactly for primes, for every number. *)
Theorem C43_test n : exists f0, forall fuel, (f0 <= fuel)%nat -> exists b, is_prime fuel n = Ret b /\ (b = true <-> prime n).
Proof. exists (Z.to_nat (Z.abs n + 1)). intros fuel Hf. apply is_prime_ok. lia. Qed.
Print Assumptions C43_test.
Lemma prime_from_loop f n : 3 <= n -> n mod 2 = 1 -> is_prime_loop f n 3 = Ret true -> prime n.
Proof.
  intros Hn Ho E. assert (HM : forall f1 f2 n i b, is_prime_loop f1 n i = Ret b -> (f1 <= f2)%nat -> is_prime_loop f2 n i = Ret b).
  { induction f1 as [|f1 IH]; intros f2 m i c E1 Hle; [discriminate|]. destruct f2 as [|f2]; [lia|]. cbn [is_prime_loop] in *. destruct (_ <? m); [|exact E1]. destruct (m mod i =? 0); [exact E1|]. apply IH; [exact E1|lia]. }
  destruct (is_prime_loop_ok n (f + Z.to_nat n) Hn Ho 3) as (b & Eb & Hb); [lia|reflexivity|lia|lia|intros; lia|]. rewrite (HM f (f + Z.to_nat n)%nat _ _ _ E) in Eb by lia. apply Hb. congruence.
Qed.
Lemma prime_max : prime 2147483647.
Proof. apply (prime_from_loop (Z.to_nat 23200)); [lia|reflexivity|]. vm_compute. reflexivity. Qed.
Lemma next_prime_loop_ok m : prime m -> forall k c fuel, 2 <= c -> c mod 2 = 1 -> m mod 2 = 1 -> m - c = 2 * Z.of_nat k -> (k < fuel)%nat -> m < 2 * Z.of_nat (fuel - k) ->
  exists p, next_prime_loop fuel c = Ret p /\ prime p /\ c <= p <= m /\ forall q, c <= q < p -> ~ prime q.
Proof.
  intros Hm. induction k as [|k IH]; intros c fuel Hc Hco Hmo Hk Hf Hf2; (destruct fuel as [|fuel]; [lia|]); cbn [next_prime_loop]; (destruct (is_prime_ok c (S fuel) ltac:(lia)) as (b & -> & Hb)); cbn [bind]; (destruct b; [exists c; split; [reflexivity|]; split; [apply Hb; reflexivity|]; split; [lia|intros; lia]|]).
  - exfalso. assert (c = m) by lia. subst c. destruct Hb as (_ & Hb). specialize (Hb Hm). discriminate.
  - destruct (IH (c + 2) fuel) as (p & E & Hp & Hr & Hq); [lia| |lia|lia|lia|lia|].
    { rewrite Z.add_mod, Hco by lia. reflexivity. }
    exists p. split; [exact E|]. split; [exact Hp|]. split; [lia|]. intros q Hqr Hpq. destruct (Z.eq_dec q c) as [->|]; [destruct Hb as (_ & Hb); specialize (Hb Hpq); discriminate|]. destruct (Z.eq_dec q (c + 1)) as [->|]; [|apply (Hq q); [lia|exact Hpq]].
    apply prime_alt in Hpq. destruct Hpq as (_ & Hpq). apply (Hpq 2); [lia|]. apply Zmod_divide; [lia|]. rewrite Z.add_mod, Hco by lia. reflexivity.
Qed.
(** Full statement: for every non-negative int the search returns the smallest prime not below it.  Proved for all of them but 0
    and 1, for which it is false (C43_next_refuted); no number looked at exceeds the range of int. *)
Theorem C43_next_partial n : 2 <= n <= 2147483647 -> exists f0, forall fuel, (f0 <= fuel)%nat -> exists p, next_prime fuel n = Ret p /\ prime p /\ n <= p <= 2147483647 /\ forall q, n <= q < p -> ~ prime q.
Proof.
  intros Hn. exists (Z.to_nat 4294967296). intros fuel Hf. assert (HF : 4294967296 <= Z.of_nat fuel) by (pose proof (Z2Nat.id 4294967296 ltac:(lia)); lia). clear Hf.
  unfold next_prime. destruct (is_prime_ok n fuel ltac:(lia)) as (b & -> & Hb). cbn [bind]. destruct b; [exists n; split; [reflexivity|]; split; [apply Hb; reflexivity|]; split; [lia|intros; lia]|].
  assert (Hnp : ~ prime n) by (intros X; destruct Hb as (_ & Hb); specialize (Hb X); discriminate). assert (Hnm : n <> 2147483647) by (intros ->; exact (Hnp prime_max)). assert (Hn2 : n <> 2) by (intros ->; exact (Hnp prime_2)).
  set (c := (n + 1) / 2 * 2 + 1). assert (Hc : n < c <= 2147483647 /\ c mod 2 = 1 /\ c <= n + 2 /\ (c = n + 1 \/ n mod 2 = 1)).
  { unfold c. pose proof (Z.div_mod n 2 ltac:(lia)) as D1. pose proof (Z.mod_pos_bound n 2 ltac:(lia)) as B1. pose proof (Z.div_mod (n + 1) 2 ltac:(lia)) as D. pose proof (Z.mod_pos_bound (n + 1) 2 ltac:(lia)) as B. rewrite Z.add_comm, Z.mod_add by lia. change (1 mod 2) with 1. lia. }
  destruct Hc as (Hc1 & Hc2 & Hc3 & Hc4). clearbody c.
  assert (Hev : exists k, 2147483647 - c = 2 * Z.of_nat k). { exists (Z.to_nat ((2147483647 - c) / 2)). pose proof (Z.div_mod c 2 ltac:(lia)) as D. rewrite Hc2 in D. replace (2147483647 - c) with ((1073741823 - c / 2) * 2) by lia. rewrite Z.div_mul by lia. lia. }
  destruct Hev as (k & Hk). destruct (next_prime_loop_ok 2147483647 prime_max k c fuel) as (p & E & Hp & Hr & Hq); [lia|exact Hc2|reflexivity|exact Hk|lia|lia|]. exists p. split; [exact E|]. split; [exact Hp|]. split; [lia|].
  intros q Hq1 Hq2. destruct (Z.lt_ge_cases q c) as [Hl|]; [|apply (Hq q); [lia|exact Hq2]]. destruct (Z.eq_dec q n) as [->|]; [exact (Hnp Hq2)|]. destruct Hc4 as [|Hodd]; [lia|]. assert (q = n + 1) by lia. subst q.
  apply prime_alt in Hq2. destruct Hq2 as (_ & Hq2). apply (Hq2 2); [lia|]. apply Zmod_divide; [lia|]. rewrite Z.add_mod, Hodd by lia. reflexivity.
Qed.
Print Assumptions C43_next_partial.
(** For 0 and 1 the search returns 3 and skips the prime 2. *)
Theorem C43_next_refuted : exists n p, 0 <= n /\ (forall fuel, (10 <= fuel)%nat -> next_prime fuel n = Ret p) /\ exists q, n <= q < p /\ prime q.
Proof.
  exists 0, 3. split; [lia|]. split; [|exists 2; split; [lia|exact prime_2]]. intros fuel Hf. do 10 (destruct fuel as [|fuel]; [lia|]). reflexivity.
Qed.
Print Assumptions C43_next_refuted.
Example C43_nonvacuous : map (next_prime 50) [2; 14; 24; 90; 121] = map Ret [2; 17; 29; 97; 127].
Proof. reflexivity. Qed.
