From Verif Require Import Base BaseFacts Arr_Model.
Require Import ZifyBool ZifyNat.

(** * C49: arrays *)
(** Appending items one after the other: for each whether memory can be had, the arbitrary contents of new memory, the item. *)
Definition push_op : Type := bool * (nat -> Z) * option (list Z).
Fixpoint push_all (a : array) (ops : list push_op) : outcome (list Z * array) :=
  match ops with
  | [] => Ret ([], a)
  | (ok, junk, d) :: ops' => let! r := array_push ok junk a d in let! q := push_all (snd r) ops' in Ret (fst r :: fst q, snd q)
  end.
(** What the results say: an addition is refused (-1) only if there is no memory; otherwise it gives the number of items
    before it.  [kept] are the items that were not refused. *)
Inductive accepted : nat -> list push_op -> list Z -> list (option (list Z)) -> Prop :=
| acc_nil n : accepted n [] [] []
| acc_fail n junk d ops rs kept : accepted n ops rs kept -> accepted n ((false, junk, d) :: ops) (-1 :: rs) kept
| acc_ok n ok junk d ops rs kept : accepted (S n) ops rs kept -> accepted n ((ok, junk, d) :: ops) (Z.of_nat n :: rs) (d :: kept).

Record ainv (a : array) (els : list (option (list Z))) : Prop := {
  ai_mem : length (a_data a) = (a_len a * a_alloc a)%nat;
  ai_used : a_used a = length els;
  ai_room : (a_used a <= a_alloc a)%nat;
  ai_els : forall i d, nth_error els i = Some (Some d) -> slice (a_data a) (a_len a * i) (a_len a) = Some d }.
Lemma ainv_init len count ok a : array_init len count ok = Some a -> ainv a [] /\ a_len a = len.
Proof.
  unfold array_init. destruct (Nat.ltb_spec 0 count); [destruct ok; [|discriminate]|]; intros E; injection E as <-; (split; [|reflexivity]); constructor; cbn [a_data a_len a_used a_alloc length]; try lia; try (intros [|i] d X; discriminate).
  apply repeat_length.
Qed.
Lemma regrow_length d n junk : (length d <= n)%nat -> length (regrow d n junk) = n.
Proof. intros H. unfold regrow. rewrite app_length, firstn_length, map_length, seq_length. lia. Qed.
Lemma regrow_slice d n junk i k x : (length d <= n)%nat -> slice d i k = Some x -> slice (regrow d n junk) i k = Some x.
Proof.
  intros H E. rewrite <- E. assert (Hb : (i + k <= length d)%nat). { unfold slice in E. destruct (Nat.leb_spec (i + k) (length d)); [assumption|discriminate]. }
  unfold slice. rewrite regrow_length by exact H. destruct (Nat.leb_spec (i + k) n); [|lia]. destruct (Nat.leb_spec (i + k) (length d)); [|lia]. f_equal.
  unfold regrow. rewrite (firstn_all2 d H). rewrite skipn_app. replace (i - length d)%nat with 0%nat by lia. cbn [skipn]. rewrite firstn_app, skipn_length. replace (k - (length d - i))%nat with 0%nat by lia. cbn [firstn]. rewrite app_nil_r. reflexivity.
Qed.
Lemma slice_full {A} (d : list A) n : length d = n -> slice d 0 n = Some d.
Proof. intros <-. unfold slice. cbn [Nat.add skipn]. destruct (Nat.leb_spec (length d) (length d)); [|lia]. rewrite firstn_all. reflexivity. Qed.
Lemma push_ok a els ok junk d : ainv a els -> (forall x, d = Some x -> length x = a_len a) ->
  (ok = false /\ array_push ok junk a d = Ret (-1, a)) \/ exists a', array_push ok junk a d = Ret (Z.of_nat (length els), a') /\ ainv a' (els ++ [d]) /\ a_len a' = a_len a.
Proof.
  intros [Hm Hu Hr He] Hd. unfold array_push.
  set (grown := if Nat.eqb (a_used a) (a_alloc a) then _ else Some a).
  assert (HG : (ok = false /\ grown = None) \/ exists a1, grown = Some a1 /\ ainv a1 els /\ (a_used a1 < a_alloc a1)%nat /\ a_len a1 = a_len a).
  { unfold grown. destruct (Nat.eqb_spec (a_used a) (a_alloc a)) as [E|N].
    - destruct ok; [|left; auto]. right. set (n := if Nat.ltb (a_alloc a) 2 then _ else _). assert (Hn : (a_alloc a < n)%nat).
      { unfold n. destruct (Nat.ltb_spec (a_alloc a) 2); [assumption|]. pose proof (Nat.div_str_pos (a_alloc a) 2 ltac:(lia)). lia. }
      clearbody n. eexists. split; [reflexivity|]. assert (HL : (length (a_data a) <= n * a_len a)%nat) by nia. split; [|cbn [a_used a_alloc a_len]; split; [lia|reflexivity]].
      constructor; cbn [a_data a_len a_used a_alloc]; [rewrite regrow_length by exact HL; lia|exact Hu|lia|]. intros i x Hx. apply regrow_slice; [exact HL|apply He, Hx].
    - right. exists a. split; [reflexivity|]. split; [constructor; auto|]. split; [lia|reflexivity]. }
  clearbody grown. destruct HG as [(E & ->)|(a1 & -> & HI & Hlt & El)]; [left; auto|right]. rewrite <- El in Hd. rewrite <- El. clear - Hd HI Hlt. destruct HI as [Hm Hu Hr He]. rewrite <- Hu.
  destruct d as [x|].
  - rewrite (slice_full x _ (Hd x eq_refl)). destruct (write_ok (a_data a1) (a_len a1 * a_used a1) x) as (m' & E); [rewrite (Hd x eq_refl), Hm; nia|]. rewrite E. cbn [bind].
    eexists. split; [reflexivity|]. split; [|reflexivity]. constructor; cbn [a_data a_len a_used a_alloc].
    + rewrite (write_length _ _ _ _ E). exact Hm.
    + rewrite app_length. cbn [length]. lia.
    + lia.
    + intros i y Hy. destruct (Nat.lt_ge_cases i (length els)) as [Hi|Hi].
      * rewrite nth_error_app1 in Hy by exact Hi. rewrite (slice_write_out _ _ _ _ _ _ E); [apply He, Hy|]. left. nia.
      * rewrite nth_error_app2 in Hy by exact Hi. destruct (i - length els)%nat eqn:Ei; [|destruct n; discriminate]. injection Hy as <-. replace i with (a_used a1) by lia. pose proof (slice_write_same _ _ _ _ E) as X. rewrite (Hd x eq_refl) in X. exact X.
  - cbn [bind]. eexists. split; [reflexivity|]. split; [|reflexivity]. constructor; cbn [a_data a_len a_used a_alloc]; auto.
    + rewrite app_length. cbn [length]. lia.
    + intros i y Hy. destruct (Nat.lt_ge_cases i (length els)) as [Hi|Hi]; [rewrite nth_error_app1 in Hy by exact Hi; apply He, Hy|].
      rewrite nth_error_app2 in Hy by exact Hi. destruct (i - length els)%nat; [discriminate|destruct n; discriminate].
Qed.
Lemma push_all_ok len ops : Forall (fun o : push_op => forall x, snd o = Some x -> length x = len) ops -> forall a els, ainv a els -> a_len a = len ->
  exists rs a' kept, push_all a ops = Ret (rs, a') /\ accepted (length els) ops rs kept /\ ainv a' (els ++ kept) /\ a_len a' = len.
Proof.
  induction 1 as [|((ok, junk), d) ops Ho HF IH]; intros a els HI El; cbn [push_all].
  - exists [], a, []. rewrite app_nil_r. split; [reflexivity|]. split; [constructor|]. auto.
  - cbn [snd] in Ho. rewrite <- El in Ho. destruct (push_ok a els ok junk d HI Ho) as [(-> & E)|(a1 & E & HI1 & El1)]; rewrite E; cbn [bind fst snd].
    + destruct (IH a els HI El) as (rs & a' & kept & -> & HA & HI' & El'). cbn [bind fst snd]. exists (-1 :: rs), a', kept. split; [reflexivity|]. split; [constructor; exact HA|auto].
    + destruct (IH a1 (els ++ [d]) HI1 ltac:(lia)) as (rs & a' & kept & -> & HA & HI' & El'). cbn [bind fst snd]. exists (Z.of_nat (length els) :: rs), a', (d :: kept). split; [reflexivity|].
      rewrite app_length in HA. cbn [length] in HA. rewrite Nat.add_1_r in HA. split; [constructor; exact HA|]. rewrite <- app_assoc in HI'. auto.
Qed.
(** For all sequences of appended items, whatever memory can be had: the array holds the items that were not refused, in order;
    reading by number gives them, any other number gives nothing. *)
Theorem C49_up len count ok0 a0 ops : array_init len count ok0 = Some a0 -> Forall (fun o : push_op => forall x, snd o = Some x -> length x = len) ops ->
  exists rs a kept, push_all a0 ops = Ret (rs, a) /\ accepted 0 ops rs kept /\
  (forall i, (0 <= i < Z.of_nat (length kept) -> exists p, array_get a i = Some p /\ forall d, nth_error kept (Z.to_nat i) = Some (Some d) -> slice (a_data a) p len = Some d) /\
             (~ 0 <= i < Z.of_nat (length kept) -> array_get a i = None)).
Proof.
  intros Hi HF. destruct (ainv_init _ _ _ _ Hi) as (HI & El). destruct (push_all_ok len ops HF a0 [] HI El) as (rs & a & kept & E & HA & HI' & El'). cbn [app length] in *. exists rs, a, kept. split; [exact E|]. split; [exact HA|].
  destruct HI' as [Hm Hu Hr He]. intros i. unfold array_get. rewrite Hu. split; intros Hb.
  - destruct ((0 <=? i) && (i <? Z.of_nat (length kept))) eqn:Eb; [|lia]. eexists. split; [reflexivity|]. intros d Hd. rewrite <- El' in *. apply He, Hd.
  - destruct ((0 <=? i) && (i <? Z.of_nat (length kept))) eqn:Eb; [lia|reflexivity].
Qed.
Print Assumptions C49_up.
(** Walking from the start visits the positions of the items in order and ends. *)
Theorem C49_walk a els : ainv a els -> (0 < a_len a)%nat ->
  array_next a None = array_get a 0 /\ forall i p, array_get a (Z.of_nat i) = Some p -> array_next a (Some p) = array_get a (Z.of_nat (S i)).
Proof.
  intros [Hm Hu Hr He] Hl. unfold array_next, array_get. split.
  - change (0 <=? 0) with true. cbn [andb]. destruct (Nat.leb_spec (a_used a) 0), (Z.ltb_spec 0 (Z.of_nat (a_used a))); try lia; [reflexivity|]. f_equal. change (Z.to_nat 0) with 0%nat. lia.
  - intros i p H. destruct ((0 <=? Z.of_nat i) && (Z.of_nat i <? Z.of_nat (a_used a))) eqn:Eb; [|discriminate]. injection H as <-. rewrite Nat2Z.id. replace (a_len a * i / a_len a)%nat with i by (rewrite Nat.mul_comm, Nat.div_mul; lia).
    destruct (Nat.leb_spec (a_used a) (S i)), ((0 <=? Z.of_nat (S i)) && (Z.of_nat (S i) <? Z.of_nat (a_used a))) eqn:Eb2; try lia; [reflexivity|]. f_equal. lia.
Qed.
Print Assumptions C49_walk.
(** Setting an item changes this item only, whatever its number; numbers in between become items without contents. *)
Theorem C49_set a els ok junk i d : ainv a els -> length d = a_len a ->
  (ok = false /\ array_set ok junk a i d = Ret (None, a)) \/
  exists a', array_set ok junk a i d = Ret (Some (a_len a * i)%nat, a') /\ ainv a' (firstn i (els ++ repeat None (i - length els)) ++ Some d :: skipn (S i) els) /\ array_get a' (Z.of_nat i) = Some (a_len a * i)%nat.
Proof.
  intros [Hm Hu Hr He] Hd. unfold array_set. set (grown := if Nat.leb (a_alloc a) i then _ else _).
  assert (HG : (ok = false /\ grown = None) \/ exists a1, grown = Some a1 /\ ainv a1 els /\ (i < a_alloc a1)%nat /\ a_len a1 = a_len a).
  { unfold grown. destruct (Nat.leb_spec (a_alloc a) i) as [E|N].
    - destruct ok; [|left; auto]. right. eexists. split; [reflexivity|]. assert (HL : (length (a_data a) <= S i * a_len a)%nat) by nia. split; [|cbn [a_used a_alloc a_len]; split; [lia|reflexivity]].
      constructor; cbn [a_data a_len a_used a_alloc]; [rewrite regrow_length by exact HL; lia|exact Hu|lia|]. intros j x Hx. apply regrow_slice; [exact HL|apply He, Hx].
    - right. exists a. split; [reflexivity|]. split; [constructor; auto|]. split; [lia|reflexivity]. }
  clearbody grown. destruct HG as [(E & ->)|(a1 & -> & HI & Hlt & El)]; [left; auto|right]. rewrite <- El in Hd. rewrite <- El. clear - Hd HI Hlt. destruct HI as [Hm Hu Hr He].
  rewrite (slice_full d _ Hd). destruct (write_ok (a_data a1) (a_len a1 * i) d) as (m' & E); [rewrite Hd, Hm; nia|]. rewrite E. eexists. split; [reflexivity|]. split.
  - assert (HL : length (firstn i (els ++ repeat None (i - length els))) = i) by (rewrite firstn_length, app_length, repeat_length; lia).
    constructor; cbn [a_data a_len a_used a_alloc].
    + rewrite (write_length _ _ _ _ E). exact Hm.
    + rewrite app_length, HL. cbn [length]. rewrite skipn_length. lia.
    + lia.
    + intros j x Hx. destruct (Nat.lt_trichotomy j i) as [Hj|[->|Hj]].
      * rewrite nth_error_app1 in Hx by lia. rewrite nth_error_firstn in Hx. destruct (Nat.ltb j i); [|discriminate]. rewrite (slice_write_out _ _ _ _ _ _ E) by (left; nia). apply He.
        destruct (Nat.lt_ge_cases j (length els)); [rewrite nth_error_app1 in Hx by assumption; exact Hx|]. rewrite nth_error_app2 in Hx by assumption. apply nth_error_In, repeat_spec in Hx. discriminate.
      * rewrite nth_error_app2, HL, Nat.sub_diag in Hx by lia. injection Hx as <-. pose proof (slice_write_same _ _ _ _ E) as X. rewrite Hd in X. exact X.
      * rewrite nth_error_app2, HL in Hx by lia. replace (j - i)%nat with (S (j - S i)) in Hx by lia. cbn [nth_error] in Hx. rewrite nth_error_skipn in Hx. replace (S i + (j - S i))%nat with j in Hx by lia.
        rewrite (slice_write_out _ _ _ _ _ _ E) by (right; rewrite Hd; nia). apply He, Hx.
  - unfold array_get. cbn [a_used a_len]. destruct ((0 <=? Z.of_nat i) && (Z.of_nat i <? Z.of_nat (Nat.max (a_used a1) (S i)))) eqn:Eb; [|lia]. rewrite Nat2Z.id. reflexivity.
Qed.
Print Assumptions C49_set.

(** Arrays growing down. *)
Fixpoint dpush_all (m : list Z) (a : darray) (ops : list (list Z * Z)) : outcome (list Z * darray * list Z) :=
  match ops with
  | [] => Ret ([], a, m)
  | (d, b) :: ops' => let! r := darray_push m a (Some d) (Some b) in
                      let '(z, a', m') := r in
                      let! q := dpush_all m' a' ops' in let '(zs, a2, m2) := q in Ret (z :: zs, a2, m2)
  end.
Definition place (first : Z) (len n : nat) : Z := first - Z.of_nat len * Z.of_nat n.
(** An item is refused exactly if its place would be below the boundary. *)
Inductive daccepted (first : Z) (len : nat) : nat -> list (list Z * Z) -> list Z -> list (list Z) -> Prop :=
| dacc_nil n : daccepted first len n [] [] []
| dacc_fail n d b ops rs kept : place first len n < b -> daccepted first len n ops rs kept -> daccepted first len n ((d, b) :: ops) (-1 :: rs) kept
| dacc_ok n d b ops rs kept : b <= place first len n -> daccepted first len (S n) ops rs kept -> daccepted first len n ((d, b) :: ops) (Z.of_nat n :: rs) (d :: kept).
(** For all sequences of items and boundaries inside of the memory [m]: the items not refused are in their places below the
    first address, nothing at or above the end of the first place and nothing below the lowest boundary is changed. *)
Lemma down_ok first len low (m0 : list Z) ops : 0 <= low -> (0 < len)%nat -> Z.of_nat (length m0) >= first + Z.of_nat len -> Forall (fun o : list Z * Z => length (fst o) = len /\ low <= snd o) ops ->
  forall m a (els : list (list Z)), length m = length m0 -> d_first a = first -> d_len a = len -> d_used a = length els ->
  (forall i d, nth_error els i = Some d -> 0 <= place first len i /\ slice m (Z.to_nat (place first len i)) len = Some d) ->
  exists rs a' m' kept, dpush_all m a ops = Ret (rs, a', m') /\ daccepted first len (length els) ops rs kept /\ length m' = length m0 /\ d_first a' = first /\ d_len a' = len /\ d_used a' = length (els ++ kept) /\
    (forall i d, nth_error (els ++ kept) i = Some d -> 0 <= place first len i /\ slice m' (Z.to_nat (place first len i)) len = Some d) /\
    (forall k, Z.of_nat k < low \/ first + Z.of_nat len <= Z.of_nat k -> nth_error m' k = nth_error m k).
Proof.
  intros Hlow Hlen Hmem HF. induction HF as [|(d, b) ops (Hd & Hb) HF IH]; intros m a els Lm Ef El Eu He; cbn [dpush_all].
  - exists [], a, m, []. rewrite app_nil_r. split; [reflexivity|]. split; [constructor|]. auto 10.
  - cbn [fst snd] in *. unfold darray_push. assert (EA : d_addr a (d_used a) = place first len (length els)) by (unfold d_addr, place; rewrite Ef, El, Eu; lia). rewrite EA.
    destruct (Z.ltb_spec (place first len (length els)) b) as [Hlt|Hge].
    + cbn [bind]. destruct (IH m a els Lm Ef El Eu He) as (rs & a' & m' & kept & -> & H1 & H2). cbn [bind]. exists (-1 :: rs), a', m', kept. split; [reflexivity|]. split; [constructor; assumption|exact H2].
    + rewrite El, (slice_full d len Hd). destruct (Z.ltb_spec (place first len (length els)) 0); [lia|].
      destruct (write_ok m (Z.to_nat (place first len (length els))) d) as (m1 & E1); [unfold place in *; nia|]. rewrite E1. cbn [bind].
      assert (Lm1 : length m1 = length m0) by (rewrite (write_length _ _ _ _ E1); exact Lm).
      destruct (IH m1 (mk_darr (d_first a) (d_len a) (S (d_used a))) (els ++ [d]) Lm1 Ef El) as (rs & a' & m' & kept & E2 & H1 & H2 & H3 & H4 & H5 & H6 & H7).
      * cbn [d_used]. rewrite app_length. cbn [length]. lia.
      * intros i x Hx. destruct (Nat.lt_ge_cases i (length els)) as [Hi|Hi].
        -- rewrite nth_error_app1 in Hx by exact Hi. destruct (He i x Hx) as (P0 & P1). split; [exact P0|]. rewrite (slice_write_out _ _ _ _ _ _ E1); [exact P1|]. right. rewrite Hd. unfold place in *. nia.
        -- rewrite nth_error_app2 in Hx by exact Hi. destruct (i - length els)%nat eqn:Ei; [|destruct n; discriminate]. injection Hx as <-. replace i with (length els) by lia. split; [assumption|]. pose proof (slice_write_same _ _ _ _ E1) as X. rewrite Hd in X. exact X.
      * rewrite El in E2. rewrite E2. cbn [bind]. rewrite Eu. exists (Z.of_nat (length els) :: rs), a', m', (d :: kept). rewrite app_length in H1. cbn [length] in H1. rewrite Nat.add_1_r in H1. rewrite <- app_assoc in H5, H6. cbn [app] in H5, H6.
        split; [reflexivity|]. split; [constructor; [lia|exact H1]|]. split; [exact H2|]. split; [exact H3|]. split; [exact H4|]. split; [exact H5|]. split; [exact H6|].
        intros k Hk. rewrite H7 by exact Hk. apply (nth_error_write_out _ _ _ _ _ E1). rewrite Hd. unfold place in *. destruct Hk; [left|right]; nia.
Qed.
Theorem C49_down first len low (m : list Z) ops : 0 <= low -> (0 < len)%nat -> Z.of_nat (length m) >= first + Z.of_nat len -> Forall (fun o : list Z * Z => length (fst o) = len /\ low <= snd o) ops ->
  exists rs a' m' kept, dpush_all m (darray_init len first) ops = Ret (rs, a', m') /\ daccepted first len 0 ops rs kept /\
    (forall i d, nth_error kept i = Some d -> exists p, darray_get a' (Z.of_nat i) = Some p /\ low <= p /\ slice m' (Z.to_nat p) len = Some d) /\
    (forall i, (length kept <= i)%nat -> darray_get a' (Z.of_nat i) = None) /\
    (forall k, Z.of_nat k < low \/ first + Z.of_nat len <= Z.of_nat k -> nth_error m' k = nth_error m k).
Proof.
  intros Hlow Hlen Hmem HF. destruct (down_ok first len low m ops Hlow Hlen Hmem HF m (darray_init len first) [] eq_refl eq_refl eq_refl eq_refl) as (rs & a' & m' & kept & E & HA & L & Ef & El & Eu & He & HO); [intros [|i] d X; discriminate|].
  cbn [app length] in *. exists rs, a', m', kept. split; [exact E|]. split; [exact HA|]. split; [|split; [|exact HO]].
  - intros i d Hd. destruct (He i d Hd) as (P0 & P1). assert (Hi : (i < length kept)%nat) by (apply nth_error_Some; congruence). unfold darray_get. rewrite Eu, Ef, El. destruct ((0 <=? Z.of_nat i) && (Z.of_nat i <? Z.of_nat (length kept))) eqn:Eb; [|lia].
    exists (place first len i). split; [f_equal; unfold place; lia|]. split; [|exact P1].
    clear - HA HF Hd Hi. assert (G : forall n i d, nth_error kept i = Some d -> daccepted first len n ops rs kept -> low <= place first len (n + i)).
    { clear - HF. intros n i d Hd HA. revert i d Hd HF. induction HA as [n|n x b ops rs kept Hp HA IH|n x b ops rs kept Hp HA IH]; intros i d Hd HF; [destruct i; discriminate| |].
      - inversion HF; subst. eauto.
      - inversion HF as [|? ? (H1 & H2) HF']; subst. cbn [fst snd] in *. destruct i as [|i]; [rewrite Nat.add_0_r; lia|]. replace (n + S i)%nat with (S n + i)%nat by lia. eapply IH; eauto. }
    apply (G 0%nat i d Hd HA).
  - intros i Hi. unfold darray_get. rewrite Eu. destruct ((0 <=? Z.of_nat i) && (Z.of_nat i <? Z.of_nat (length kept))) eqn:Eb; [lia|reflexivity].
Qed.
Print Assumptions C49_down.
Example C49_nonvacuous :
  (exists a, array_init 1 0 true = Some a /\ option_map (fun x => x) (match push_all a [(true, fun _ => 9, Some [1]); (true, fun _ => 9, Some [2]); (false, fun _ => 9, Some [3]); (true, fun _ => 8, Some [4])] with Ret (rs, b) => Some (rs, a_data b) | _ => None end) = Some ([0; 1; -1; 2], [1; 2; 4])) /\
  dpush_all [0;0;0;0;0;0] (darray_init 2 4) [([1;2], 1); ([3;4], 1); ([5;6], 1)] = Ret ([0; 1; -1], mk_darr 4 2 2, [0;0;3;4;1;2]).
Proof. split; [eexists; split; reflexivity|reflexivity]. Qed.
