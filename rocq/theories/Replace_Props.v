From Verif Require Import Base BaseFacts List2Facts Slist_Model.
Require Import ZifyBool ZifyNat.

(** * C44: replacing substrings *)
(** Text [y] is text [x] with its [c] occurrences of [p], taken from the left and not overlapping, replaced by [r]. *)
Inductive replaced (p r : list Z) : nat -> list Z -> list Z -> Prop :=
| replaced_none x : (forall a b, x <> a ++ p ++ b) -> replaced p r 0 x x
| replaced_one a b c y : (forall a' b', a ++ p ++ b = a' ++ p ++ b' -> (length a <= length a')%nat) -> replaced p r c b y -> replaced p r (S c) (a ++ p ++ b) (a ++ r ++ y).

Lemma prefixb_ok p x : prefixb p x = true <-> exists b, x = p ++ b.
Proof.
  revert x. induction p as [|a p IH]; intros x; cbn [prefixb app]; [split; [intros _; exists x; reflexivity|reflexivity]|]. destruct x as [|c x]; [split; [discriminate|intros (b & H); discriminate]|].
  rewrite andb_true_iff, IH, Z.eqb_eq. split; [intros (-> & b & ->); exists b; reflexivity|intros (b & H); injection H as -> ->; split; [reflexivity|exists b; reflexivity]].
Qed.
Lemma find_str_ok p x : match find_str p x with
  | Some i => exists a b, x = a ++ p ++ b /\ length a = i /\ forall a' b', x = a' ++ p ++ b' -> (i <= length a')%nat
  | None => forall a b, x <> a ++ p ++ b end.
Proof.
  induction x as [|c x IH]; cbn [find_str].
  - destruct (prefixb p []) eqn:E; [apply prefixb_ok in E; destruct E as (b & E); exists [], b; repeat split; [exact E|intros; lia]|]. intros a b X. destruct a; [|discriminate]. assert (prefixb p [] = true) by (apply prefixb_ok; exists b; exact X). congruence.
  - destruct (prefixb p (c :: x)) eqn:E; [apply prefixb_ok in E; destruct E as (b & E); exists [], b; repeat split; [exact E|intros; lia]|].
    assert (HN : forall b, c :: x <> p ++ b) by (intros b X; assert (prefixb p (c :: x) = true) by (apply prefixb_ok; exists b; exact X); congruence).
    destruct (find_str p x) as [i|]; cbn [option_map].
    + destruct IH as (a & b & -> & <- & Hm). exists (c :: a), b. split; [reflexivity|]. split; [reflexivity|]. intros [|c' a'] b' X; [exfalso; apply (HN b' X)|]. injection X as _ X. specialize (Hm a' b' X). cbn [length]. lia.
    + intros [|c' a'] b' X; [apply (HN b' X)|]. injection X as _ X. apply (IH a' b' X).
Qed.
Lemma replaced_exists p r x : p <> [] -> exists c y, replaced p r c x y.
Proof.
  intros Hp. remember (length x) as n eqn:En. revert x En. induction n as [n IH] using lt_wf_ind. intros x ->. pose proof (find_str_ok p x) as H. destruct (find_str p x) as [i|]; [|exists 0%nat, x; constructor; exact H].
  destruct H as (a & b & -> & <- & Hm). assert (0 < length p)%nat by (destruct p; [contradiction|cbn [length]; lia]). destruct (IH (length b) ltac:(rewrite !app_length; lia) b eq_refl) as (c & y & Hy). exists (S c), (a ++ r ++ y). constructor; assumption.
Qed.
Lemma app_eq_l {A} (a a' b b' : list A) : a ++ b = a' ++ b' -> length a = length a' -> a = a' /\ b = b'.
Proof. revert a'. induction a as [|x a IH]; intros [|x' a'] E L; cbn [length app] in *; try lia; [auto|]. injection E as -> E. destruct (IH a' E ltac:(lia)) as (-> & ->). auto. Qed.
Lemma replaced_fun p r c x y c' y' : replaced p r c x y -> replaced p r c' x y' -> c = c' /\ y = y'.
Proof.
  intros H. revert c' y'. induction H as [x Hn|a b c y Hm H IH]; intros c' y' H'.
  - inversion H' as [? _|a b c2 y2 _ _ E1 E2]; subst; [auto|]. exfalso. apply (Hn a b). reflexivity.
  - inversion H' as [? Hn|a2 b2 c2 y2 Hm2 H2 E1 E2]; subst; [exfalso; apply (Hn a b); reflexivity|].
    assert (L : length a = length a2) by (pose proof (Hm a2 b2 (eq_sym E2)); pose proof (Hm2 a b E2); lia). destruct (app_eq_l _ _ _ _ E2 (eq_sym L)) as (-> & E). apply app_inv_head in E. subst b2. destruct (IH _ _ H2) as (-> & ->). auto.
Qed.
Lemma replaced_length p r c x y : replaced p r c x y -> Z.of_nat (length y) = Z.of_nat (length x) + (Z.of_nat (length r) - Z.of_nat (length p)) * Z.of_nat c.
Proof. induction 1 as [x Hn|a b c y Hm H IH]; [lia|]. rewrite !app_length. lia. Qed.
Lemma replaced_le p r c x y : (length p <= length r)%nat -> replaced p r c x y -> (length x <= length y)%nat.
Proof. intros L. induction 1 as [x Hn|a b c y Hm H IH]; [lia|]. rewrite !app_length. lia. Qed.
Lemma skipn_app_l {A} (a b : list A) : skipn (length a) (a ++ b) = b.
Proof. rewrite skipn_app, Nat.sub_diag, skipn_all. reflexivity. Qed.
Lemma count_sub_ok p r : p <> [] -> forall c x y, replaced p r c x y -> forall fuel, (c < fuel)%nat -> count_sub fuel x p = Ret c.
Proof.
  intros Hp c x y H. induction H as [x Hn|a b c y Hm H IH]; intros fuel Hf; (destruct fuel as [|fuel]; [lia|]); cbn [count_sub].
  - pose proof (find_str_ok p x) as F. destruct (find_str p x) as [i|]; [|reflexivity]. destruct F as (a & b & E & _). exfalso. apply (Hn a b E).
  - pose proof (find_str_ok p (a ++ p ++ b)) as F. destruct (find_str p (a ++ p ++ b)) as [i|]; [|exfalso; apply (F a b); reflexivity]. destruct F as (a2 & b2 & E & L & Hm2). pose proof (Hm a2 b2 E). pose proof (Hm2 a b eq_refl).
    assert (i = length a) by lia. clear L. subst i. replace (skipn (length a + length p) (a ++ p ++ b)) with b by (rewrite (app_assoc a p b), <- (app_length a p), skipn_app_l; reflexivity). rewrite IH by lia. reflexivity.
Qed.
Lemma zlen_ok x rest : ~ In 0 x -> zlen (x ++ 0 :: rest) = Some (length x).
Proof. induction x as [|c x IH]; intros H; cbn [app zlen]; [reflexivity|]. destruct (Z.eqb_spec c 0) as [->|]; [exfalso; apply H; left; reflexivity|]. rewrite IH by (intros X; apply H; right; exact X). reflexivity. Qed.
Lemma firstn_app_l {A} (a b : list A) : firstn (length a) (a ++ b) = a.
Proof. rewrite firstn_app, Nat.sub_diag, firstn_O, app_nil_r. apply firstn_all. Qed.
Lemma replace_loop_ok p r : p <> [] -> ~ In 0 r -> forall c x y, replaced p r c x y -> ~ In 0 x -> forall (pre rest : list Z) fuel, (c < fuel)%nat -> (length pre + length y + 1 <= length (pre ++ x ++ 0%Z :: rest))%nat ->
  exists rest', replace_loop fuel (pre ++ x ++ 0 :: rest) (length pre) p r = Ret (pre ++ y ++ 0 :: rest') /\ length (pre ++ y ++ 0 :: rest') = length (pre ++ x ++ 0 :: rest).
Proof.
  intros Hp Hr c x y H. induction H as [x Hn|a b c y Hm H IH]; intros Hx pre rest fuel Hf HL; (destruct fuel as [|fuel]; [lia|]); cbn [replace_loop]; rewrite skipn_app_l, zlen_ok by exact Hx; rewrite firstn_app_l.
  - pose proof (find_str_ok p x) as F. destruct (find_str p x) as [i|]; [destruct F as (a & b & E & _); exfalso; apply (Hn a b E)|]. exists rest. auto.
  - pose proof (find_str_ok p (a ++ p ++ b)) as F. destruct (find_str p (a ++ p ++ b)) as [i|]; [|exfalso; apply (F a b); reflexivity]. destruct F as (a2 & b2 & E & L & Hm2). pose proof (Hm a2 b2 E). pose proof (Hm2 a b eq_refl). assert (i = length a) by lia. clear L. subst i. clear E Hm2 a2 b2 H0 H1 Hm.
    set (m := pre ++ (a ++ p ++ b) ++ 0 :: rest) in *. assert (Em : m = (pre ++ a) ++ p ++ b ++ 0 :: rest) by (unfold m; rewrite <- !app_assoc; reflexivity). assert (Lm : length m = (length pre + length a + length p + length b + 1 + length rest)%nat) by (unfold m; rewrite !app_length; cbn [length]; lia).
    assert (Hsk : skipn (length pre + length a + length p) m = b ++ 0 :: rest). { rewrite Em. rewrite app_assoc. replace (length pre + length a + length p)%nat with (length ((pre ++ a) ++ p)) by (rewrite !app_length; lia). apply skipn_app_l. }
    rewrite Hsk. replace (length (a ++ p ++ b) - length a - length p + 1)%nat with (length (b ++ [0])) by (rewrite !app_length; cbn [length]; lia). replace (b ++ 0 :: rest) with ((b ++ [0]) ++ rest) by (rewrite <- app_assoc; reflexivity). rewrite firstn_app_l.
    rewrite !app_length in HL. assert (Hfit : (length pre + length a + length r + length b + 1 <= length m)%nat). { destruct (Nat.le_ge_cases (length p) (length r)) as [Hpr|]; [|lia]. pose proof (replaced_le p r c b y Hpr H). lia. }
    destruct (write_ok m (length pre + length a + length r) (b ++ [0])) as (m1 & E1); [rewrite app_length; cbn [length]; lia|]. rewrite E1. pose proof (write_length _ _ _ _ E1) as L1.
    destruct (write_ok m1 (length pre + length a) r) as (m2 & E2); [lia|]. rewrite E2. pose proof (write_length _ _ _ _ E2) as L2.
    assert (Hm2 : exists rest2, m2 = (pre ++ a ++ r) ++ b ++ 0 :: rest2).
    { unfold write in E1, E2. destruct (Nat.leb _ (length m)); [|discriminate]. destruct (Nat.leb _ (length m1)); [|discriminate]. injection E1 as E1. injection E2 as E2. set (k := (length pre + length a)%nat) in *.
      assert (F1 : firstn k m1 = pre ++ a). { rewrite <- E1. rewrite firstn_app, firstn_firstn, firstn_length. replace (Nat.min k (k + length r)) with k by lia. replace (k - Nat.min (k + length r) (length m))%nat with 0%nat by lia. rewrite firstn_O, app_nil_r, Em. unfold k. rewrite <- app_length. apply firstn_app_l. }
      assert (F2 : skipn (k + length r) m1 = (b ++ [0]) ++ skipn (k + length r + length (b ++ [0])) m). { rewrite <- E1. set (u := firstn (k + length r) m). assert (Lu : (k + length r)%nat = length u) by (unfold u; rewrite firstn_length; lia). rewrite Lu at 1. apply skipn_app_l. }
      rewrite F1, F2 in E2. eexists. rewrite <- E2. rewrite <- !app_assoc. reflexivity. }
    destruct Hm2 as (rest2 & Hm2). rewrite Hm2. replace (length pre + length a + length r)%nat with (length (pre ++ a ++ r)) by (rewrite !app_length; lia).
    destruct (IH ltac:(intros X; apply Hx, in_app_iff; right; apply in_app_iff; right; exact X) (pre ++ a ++ r) rest2 fuel ltac:(lia)) as (rest' & -> & Hl).
    { rewrite <- Hm2, L2, L1. rewrite !app_length. lia. }
    exists rest'. rewrite <- !app_assoc in *. split; [reflexivity|]. rewrite Hl. rewrite Hm2 in L2. rewrite L2, L1. reflexivity.
Qed.
(** Full statement: for every text, pattern, replacement and buffer size the replacement is exact or refused.  Proved if the pattern is
    not empty, the size given is that of the buffer, and the result would have less than 2^31 bytes; an empty pattern
    makes the program hang (C44_replace_refuted). *)
Theorem C44_replace_partial x rest p r : p <> [] -> ~ In 0 x -> ~ In 0 r -> exists c y, replaced p r c x y /\
  (Z.of_nat (length y) + 1 < 2147483648 -> exists f0, forall fuel, (f0 <= fuel)%nat ->
   let m := x ++ 0 :: rest in
   if Nat.leb (length y + 1) (length m) then exists rest', replace_checked fuel m p r (Z.of_nat (length m)) = Ret (Some (y ++ 0 :: rest')) /\ length (y ++ 0 :: rest') = length m
   else replace_checked fuel m p r (Z.of_nat (length m)) = Ret None).
Proof.
  intros Hp Hx Hr. destruct (replaced_exists p r x Hp) as (c & y & H). exists c, y. split; [exact H|]. intros Hs. exists (S c). intros fuel Hf m. unfold replace_checked. unfold m. rewrite zlen_ok by exact Hx. rewrite firstn_app_l. fold m.
  rewrite (count_sub_ok p r Hp c x y H fuel ltac:(lia)). cbn [bind]. replace (Z.of_nat (length x) + 1 + (Z.of_nat (length r) - Z.of_nat (length p)) * Z.of_nat c) with (Z.of_nat (length y) + 1) by (rewrite (replaced_length p r c x y H); lia).
  rewrite (Z.mod_small _ 18446744073709551616) by lia. rewrite (Z.mod_small _ 4294967296) by lia. destruct (Z.ltb_spec (Z.of_nat (length y) + 1) 2147483648); [|lia].
  destruct (Nat.leb_spec (length y + 1) (length m)) as [HL|HL].
  - rewrite Z.gtb_ltb. destruct (Z.ltb_spec (Z.of_nat (length m)) (Z.of_nat (length y) + 1)); [lia|]. destruct (replace_loop_ok p r Hp Hr c x y H Hx [] rest fuel ltac:(lia)) as (rest' & E & Hl); [exact HL|]. cbn [app length] in *. unfold m. rewrite E. exists rest'. split; [reflexivity|exact Hl].
  - rewrite Z.gtb_ltb. destruct (Z.ltb_spec (Z.of_nat (length m)) (Z.of_nat (length y) + 1)); [reflexivity|lia].
Qed.
Print Assumptions C44_replace_partial.
(** The outcome is unique, so the theorem above says all about it. *)
Theorem C44_unique p r x c y c' y' : replaced p r c x y -> replaced p r c' x y' -> c = c' /\ y = y'.
Proof. apply replaced_fun. Qed.
Print Assumptions C44_unique.
(** An empty pattern: the count never ends. *)
Theorem C44_replace_refuted : exists m r size, forall fuel, replace_checked fuel m [] r size = Fuel.
Proof.
  exists [97; 0], [98], 2. intros fuel. unfold replace_checked. cbn [zlen Z.eqb option_map firstn]. assert (H : count_sub fuel [97] [] = Fuel); [|rewrite H; reflexivity]. induction fuel as [|fuel IH]; [reflexivity|]. cbn [count_sub find_str prefixb skipn Nat.add length]. rewrite IH. reflexivity.
Qed.
Print Assumptions C44_replace_refuted.
(** "%v%v." with "%v" replaced by "abc" fits into 8 bytes and not into 7. *)
Example C44_nonvacuous : replace_checked 9 [37;118;37;118;46;0;9;9] [37;118] [97;98;99] 8 = Ret (Some [97;98;99;97;98;99;46;0]) /\ replace_checked 9 [37;118;37;118;46;0;9] [37;118] [97;98;99] 7 = Ret None.
Proof. split; reflexivity. Qed.
