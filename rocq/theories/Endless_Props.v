(** C04, exactly: when reading a name, and copying one, does not end. *)
From Verif Require Import Base BaseFacts ListFacts Name_Model Name_Proofs Name_Props.
Require Import ZifyBool ZifyNat Relation_Operators.

(** ** Specification *)
Section Spec.
Context (m : list Z).
(** At [p] there is a pointer to [q]. *)
Definition points (p q : nat) : Prop :=
  exists hi lo, nth_error m p = Some hi /\ nth_error m (S p) = Some lo /\ 192 <= hi /\ q = Z.to_nat ((hi - 192) * 256 + lo).
(** A pointer within the packet, which has [dlen] bytes. *)
Definition follows (dlen : nat) (p q : nat) : Prop := points p q /\ (q <= dlen)%nat.
(** From one place and number of bytes used of the buffer, which has [room] bytes, reading a name goes on to another: by a pointer, or over a label that lies within the packet
    and has room in the buffer with the dot behind it. *)
Inductive read_on (dlen room : nat) : nat * nat -> nat * nat -> Prop :=
| read_pointer p q u : follows dlen p q -> read_on dlen room (p, u) (q, u)
| read_label p u c : nth_error m p = Some c -> 0 < c < 192 -> (p + Z.to_nat c <= dlen)%nat -> (p + Z.to_nat c < length m)%nat -> (u + Z.to_nat c + 1 <= room)%nat ->
    read_on dlen room (p, u) ((p + (1 + Z.to_nat c))%nat, (u + Z.to_nat c + 1)%nat).
(** Copying goes from a byte to the next one, and from a pointer to its goal. *)
Definition copy_on (p q : nat) : Prop := points p q \/ exists c, nth_error m p = Some c /\ 0 < c < 192 /\ q = S p.
End Spec.
(** [leads r a b]: by [r], any number of times, from [a] to [b].  [circular r a]: by [r], at least once, from [a] back to [a]. *)
Definition leads {A} (r : A -> A -> Prop) : A -> A -> Prop := clos_refl_trans_1n A r.
Definition circular {A} (r : A -> A -> Prop) (a : A) : Prop := clos_trans_1n A r a a.

(** ** Circles in a finite set *)
Section Circle.
Context {A : Type} (dec : forall a b : A, {a = b} + {a <> b}) (r : A -> A -> Prop).
Fixpoint linked (p : A) (l : list A) : Prop := match l with [] => True | q :: l' => r p q /\ linked q l' end.
Lemma linked_to l1 a t : forall p l, linked p l -> p :: l = l1 ++ a :: t -> leads r p a /\ linked a t.
Proof.
  induction l1 as [|x l1 IH]; intros p l H E; cbn [app] in E; injection E as <- ->.
  - split; [apply rt1n_refl|exact H].
  - destruct l1 as [|y l1]; cbn [app linked] in *.
    + destruct H as (H & H'). split; [econstructor; [exact H|apply rt1n_refl]|exact H'].
    + destruct H as (H & H'). destruct (IH y (l1 ++ a :: t) H' eq_refl) as (X & Y). split; [econstructor; [exact H|exact X]|exact Y].
Qed.
Lemma linked_trans a l3 l2 : forall p, linked p (l2 ++ a :: l3) -> clos_trans_1n A r p a.
Proof. induction l2 as [|x l2 IH]; intros p H; cbn [app linked] in H; destruct H as (H & H'); [apply t1n_step; exact H|eapply t1n_trans; [exact H|apply IH; exact H']]. Qed.
Lemma not_nodup (l : list A) : ~ NoDup l -> exists a l1 l2 l3, l = l1 ++ a :: l2 ++ a :: l3.
Proof.
  induction l as [|x l IH]; intros H; [exfalso; apply H; constructor|]. destruct (in_dec dec x l) as [Hi|Hn].
  - apply in_split in Hi. destruct Hi as (l2 & l3 & ->). exists x, [], l2, l3. reflexivity.
  - destruct IH as (a & l1 & l2 & l3 & ->); [intros X; apply H; constructor; assumption|]. exists a, (x :: l1), l2, l3. reflexivity.
Qed.
Lemma finite_circle U p l : linked p l -> incl (p :: l) U -> (length U <= length l)%nat -> exists q, leads r p q /\ circular r q.
Proof.
  intros HL HI HU. assert (ND : ~ NoDup (p :: l)) by (intros X; pose proof (NoDup_incl_length X HI) as Y; cbn [length] in Y; lia).
  destruct (not_nodup _ ND) as (a & l1 & l2 & l3 & E). destruct (linked_to _ _ _ _ _ HL E) as (X & Y). exists a. split; [exact X|]. exact (linked_trans _ _ _ _ Y).
Qed.
Lemma circular_next a : circular r a -> exists b, r a b /\ circular r b.
Proof.
  intros H.
  assert (T : forall x y z, clos_trans_1n A r x y -> r y z -> clos_trans_1n A r x z).
  { intros x y z Hxy Hz. induction Hxy as [x y Hs|x w y Hs Ht IH]; [eapply t1n_trans; [exact Hs|apply t1n_step; exact Hz]|eapply t1n_trans; [exact Hs|apply IH; exact Hz]]. }
  unfold circular in H. inversion H as [b Hs|b c Hs Ht]; subst.
  - exists a. split; [exact Hs|apply t1n_step; exact Hs].
  - exists b. split; [exact Hs|exact (T _ _ _ Ht Hs)].
Qed.
End Circle.

Section Name.
Context (m : list Z) (HF : Forall is_byte m).
Lemma points_ptr p q : points m p q -> exists c, nth_error m p = Some c /\ c =? 0 = false /\ is_ptr c = true /\ label_ptr m p = Ret q.
Proof.
  intros (hi & lo & H1 & H2 & H3 & ->). exists hi. split; [exact H1|]. split; [lia|]. split; [unfold is_ptr; lia|]. unfold label_ptr. rewrite (rd8_some _ _ _ H1), (rd8_some _ _ _ H2). cbn [bind]. do 2 f_equal. lia.
Qed.
Lemma ptr_points p q c : nth_error m p = Some c -> is_ptr c = true -> label_ptr m p = Ret q -> points m p q.
Proof.
  intros H1 H2 H3. unfold label_ptr in H3. rewrite (rd8_some _ _ _ H1) in H3. cbn [bind] in H3. destruct (rd8 m (S p)) as [lo| | |] eqn:E; try discriminate. cbn [bind] in H3. injection H3 as <-.
  apply rd8_inv in E. exists c, lo. split; [exact H1|]. split; [exact E|]. split; [unfold is_ptr in H2; lia|]. f_equal. lia.
Qed.
Lemma nth_pos p c : nth_error m p = Some c -> (p < length m)%nat /\ 0 <= c < 256.
Proof. intros H. split; [apply nth_error_Some; congruence|]. rewrite Forall_forall in HF. exact (HF c (nth_error_In _ _ H)). Qed.

(** *** Reading *)
Section Read.
Context (dlen room : nat).
Definition endless (s : nat * nat) : Prop := forall fuel b ll redir, length b = room -> name_loop fuel true dlen m (fst s) (Some b) (snd s) ll redir = Fuel.
Lemma circle_endless p u : circular (follows m dlen) p -> endless (p, u).
Proof.
  intros H fuel. revert p H. induction fuel as [|fuel IH]; intros p H b ll redir Hb; [reflexivity|]. destruct (circular_next _ _ H) as (q & (HP & Hq) & HC).
  destruct (points_ptr _ _ HP) as (c & H1 & H2 & H3 & H4). cbn [name_loop fst snd]. rewrite (rd8_some _ _ _ H1). cbn [bind]. rewrite H2, H3, H4. cbn [bind]. destruct (Nat.ltb_spec dlen q); [lia|]. exact (IH q HC b _ true Hb).
Qed.
Lemma slice_in i n : (i + n <= length m)%nat -> exists l, slice m i n = Some l /\ length l = n.
Proof. intros H. exists (firstn n (skipn i m)). assert (E : slice m i n = Some (firstn n (skipn i m))) by (apply slice_some; split; [exact H|reflexivity]). split; [exact E|exact (slice_length _ _ _ _ E)]. Qed.
Lemma endless_back s s' : read_on m dlen room s s' -> endless s' -> endless s.
Proof.
  intros H HE. destruct H as [p q u (HP & Hq)|p u c H1 H2 H3 H4 H5]; intros fuel b ll redir Hb; (destruct fuel as [|fuel]; [reflexivity|]); cbn [name_loop fst snd].
  - destruct (points_ptr _ _ HP) as (c & H1 & H2 & H3 & H4). rewrite (rd8_some _ _ _ H1). cbn [bind]. rewrite H2, H3, H4. cbn [bind]. destruct (Nat.ltb_spec dlen q); [lia|]. exact (HE fuel b _ true Hb).
  - rewrite (rd8_some _ _ _ H1). cbn [bind]. assert (c =? 0 = false) as -> by lia. assert (is_ptr c = false) as -> by (unfold is_ptr; lia). cbn [andb]. destruct (Nat.ltb_spec dlen (p + Z.to_nat c)); [lia|].
    destruct (slice_in (S p) (Z.to_nat c) ltac:(lia)) as (l & El & Ll). rewrite (name_copy_fits _ _ _ _ _ _ El) by lia. cbn [bind]. apply (HE fuel). rewrite !app_length, firstn_length, skipn_length. cbn [length]. lia.
Qed.
Lemma endless_leads s s' : leads (read_on m dlen room) s s' -> endless s' -> endless s.
Proof. intros H. induction H as [|s s1 s2 H H' IH]; [auto|]. intros HE. exact (endless_back _ _ H (IH HE)). Qed.

Lemma long_run : forall n p b u ll redir, name_loop (S n) true dlen m p (Some b) u ll redir = Fuel -> length b = room -> (u <= room)%nat ->
  exists l, length l = n /\ linked (read_on m dlen room) (p, u) l /\ Forall (fun s => (fst s < length m)%nat /\ (snd s <= room)%nat) ((p, u) :: l).
Proof.
  induction n as [|n IH]; intros p b u ll redir E Hb Hu.
  - cbn [name_loop] in E. destruct (rd8 m p) as [c| | |] eqn:Ec; [|discriminate| |]; [|unfold rd8 in Ec; destruct nth_error; discriminate..]. exists []. split; [reflexivity|]. split; [exact I|]. apply rd8_inv in Ec.
    constructor; [|constructor]. cbn [fst snd]. split; [exact (proj1 (nth_pos _ _ Ec))|exact Hu].
  - remember (S n) as k eqn:Ek. cbn [name_loop] in E. destruct (rd8 m p) as [c| | |] eqn:Ec; [|discriminate| |]; [|unfold rd8 in Ec; destruct nth_error; discriminate..]. apply rd8_inv in Ec. cbn [bind] in E.
    destruct (nth_pos _ _ Ec) as (Hp & Hc). destruct (c =? 0) eqn:E0; [destruct (name_end_cases b u ll redir ltac:(lia)) as [[_ X]|[_ X]]; rewrite X in E; discriminate|]. destruct (is_ptr c) eqn:E1.
    + destruct (label_ptr m p) as [q| | |] eqn:Eq; cbn [bind] in E; [|discriminate| |]; [|unfold label_ptr in Eq; rewrite (rd8_some _ _ _ Ec) in Eq; cbn [bind] in Eq; unfold rd8 in Eq; destruct (nth_error m (S p)); discriminate..].
      destruct (Nat.ltb_spec dlen q); [discriminate|]. subst k. destruct (IH _ _ _ _ _ E Hb Hu) as (l & L1 & L2 & L3). exists ((q, u) :: l). split; [cbn [length]; lia|]. split; [|constructor; [cbn [fst snd]; auto|exact L3]].
      cbn [linked]. split; [|exact L2]. apply read_pointer. split; [exact (ptr_points _ _ _ Ec E1 Eq)|lia].
    + cbn [andb] in E. destruct (Nat.ltb_spec dlen (p + Z.to_nat c)); [discriminate|]. destruct (name_copy_cases m p (Z.to_nat c) b u ltac:(lia)) as [(s & C1 & C2 & C3)|[(_ & _ & C3)|C3]].
      * rewrite C3 in E. cbn [bind] in E. subst k. apply slice_some in C1. destruct C1 as (C1 & C1').
        destruct (IH _ _ _ _ _ E) as (l & L1 & L2 & L3); [rewrite !app_length, firstn_length, skipn_length, C1', firstn_length, skipn_length; cbn [length]; lia|lia|].
        exists ((p + (1 + Z.to_nat c), u + Z.to_nat c + 1)%nat :: l). split; [cbn [length]; lia|]. split; [|constructor; [cbn [fst snd]; auto|exact L3]]. cbn [linked]. split; [|exact L2].
        apply read_label; [exact Ec|unfold is_ptr in E1; lia|lia|lia|lia].
      * rewrite C3 in E. discriminate.
      * destruct C3 as (_ & b' & _ & C3 & _). rewrite C3 in E. discriminate.
Qed.
Lemma back_circle s s' : clos_trans_1n _ (read_on m dlen room) s s' -> (snd s <= snd s')%nat /\ (snd s = snd s' -> clos_trans_1n _ (follows m dlen) (fst s) (fst s')).
Proof.
  intros H. induction H as [s s' H|s s1 s' H H' (IH1 & IH2)].
  - destruct H as [p q u HP|p u c H1 H2 H3 H4 H5]; cbn [fst snd]; [split; [lia|intros _; apply t1n_step; exact HP]|split; lia].
  - destruct H as [p q u HP|p u c H1 H2 H3 H4 H5]; cbn [fst snd] in *; [split; [lia|intros E; eapply t1n_trans; [exact HP|exact (IH2 E)]]|split; lia].
Qed.
End Read.

(** Reading a name does not end iff it comes, over labels for which there is room, to a pointer that leads to itself by pointers only. *)
Theorem C04_read_endless dlen start buf : (forall fuel, get_host_name fuel dlen m start buf = Fuel) <->
  exists p u, leads (read_on m dlen (length buf)) (start, 0%nat) (p, u) /\ circular (follows m dlen) p.
Proof.
  split.
  - intros H. set (U := list_prod (seq 0 (length m)) (seq 0 (S (length buf)))). specialize (H (S (length U))). unfold get_host_name in H.
    destruct (long_run dlen (length buf) _ _ _ _ _ _ H eq_refl ltac:(lia)) as (l & L1 & L2 & L3).
    assert (dec : forall a b : nat * nat, {a = b} + {a <> b}) by (repeat decide equality).
    destruct (finite_circle dec _ U _ _ L2) as ((p, u) & X & Y).
    { intros (a, b) Hi. rewrite Forall_forall in L3. destruct (L3 _ Hi) as (A & B). cbn [fst snd] in A, B. apply in_prod; apply in_seq; lia. }
    { lia. }
    exists p, u. split; [exact X|]. exact (proj2 (back_circle _ _ _ _ Y) eq_refl).
  - intros (p & u & X & Y) fuel. exact (endless_leads _ _ _ _ X (circle_endless _ _ _ _ Y) fuel buf 0%nat false eq_refl).
Qed.

(** It ends within a number of turns known beforehand, or never. *)
Theorem C04_read_bound dlen start buf : get_host_name (S (length m * S (length buf))) dlen m start buf = Fuel -> forall fuel, get_host_name fuel dlen m start buf = Fuel.
Proof.
  intros H. set (U := list_prod (seq 0 (length m)) (seq 0 (S (length buf)))). assert (LU : length U = (length m * S (length buf))%nat) by (unfold U; rewrite prod_length, !seq_length; reflexivity).
  unfold get_host_name in H. destruct (long_run dlen (length buf) _ _ _ _ _ _ H eq_refl ltac:(lia)) as (l & L1 & L2 & L3).
  assert (dec : forall a b : nat * nat, {a = b} + {a <> b}) by (repeat decide equality).
  destruct (finite_circle dec _ U _ _ L2) as ((p, u) & X & Y).
  { intros (a, b) Hi. rewrite Forall_forall in L3. destruct (L3 _ Hi) as (A & B). cbn [fst snd] in A, B. apply in_prod; apply in_seq; lia. }
  { lia. }
  apply C04_read_endless. exists p, u. split; [exact X|]. exact (proj2 (back_circle _ _ _ _ Y) eq_refl).
Qed.

(** *** Copying *)
Lemma copy_back p q : copy_on m p q -> (forall fuel, copy_label fuel m q = Fuel) -> forall fuel, copy_label fuel m p = Fuel.
Proof.
  intros H HE [|fuel]; [reflexivity|]. cbn [copy_label]. destruct H as [HP|(c & H1 & H2 & ->)].
  - destruct (points_ptr _ _ HP) as (c & H1 & _ & H3 & H4). rewrite (rd8_some _ _ _ H1). cbn [bind]. rewrite H3, H4. cbn [bind]. apply HE.
  - rewrite (rd8_some _ _ _ H1). cbn [bind]. assert (is_ptr c = false) as -> by (unfold is_ptr; lia). assert (c =? 0 = false) as -> by lia. rewrite HE. reflexivity.
Qed.
Lemma copy_circle fuel : forall p, circular (copy_on m) p -> copy_label fuel m p = Fuel.
Proof.
  induction fuel as [|fuel IH]; intros p H; [reflexivity|]. destruct (circular_next _ _ H) as (q & HP & HC). specialize (IH q HC). cbn [copy_label]. destruct HP as [HP|(c & H1 & H2 & ->)].
  - destruct (points_ptr _ _ HP) as (c & H1 & _ & H3 & H4). rewrite (rd8_some _ _ _ H1). cbn [bind]. rewrite H3, H4. cbn [bind]. exact IH.
  - rewrite (rd8_some _ _ _ H1). cbn [bind]. assert (is_ptr c = false) as -> by (unfold is_ptr; lia). assert (c =? 0 = false) as -> by lia. rewrite IH. reflexivity.
Qed.
Lemma copy_run : forall n p, copy_label (S n) m p = Fuel -> exists l, length l = n /\ linked (copy_on m) p l /\ Forall (fun q => (q < length m)%nat) (p :: l).
Proof.
  induction n as [|n IH]; intros p E.
  - cbn [copy_label] in E. destruct (rd8 m p) as [c| | |] eqn:Ec; [|discriminate| |]; [|unfold rd8 in Ec; destruct nth_error; discriminate..]. exists []. split; [reflexivity|]. split; [exact I|]. apply rd8_inv in Ec.
    constructor; [exact (proj1 (nth_pos _ _ Ec))|constructor].
  - remember (S n) as k eqn:Ek. cbn [copy_label] in E. destruct (rd8 m p) as [c| | |] eqn:Ec; [|discriminate| |]; [|unfold rd8 in Ec; destruct nth_error; discriminate..]. apply rd8_inv in Ec. cbn [bind] in E.
    destruct (nth_pos _ _ Ec) as (Hp & Hc). destruct (is_ptr c) eqn:E1.
    + destruct (label_ptr m p) as [q| | |] eqn:Eq; cbn [bind] in E; [|discriminate| |]; [|unfold label_ptr in Eq; rewrite (rd8_some _ _ _ Ec) in Eq; cbn [bind] in Eq; unfold rd8 in Eq; destruct (nth_error m (S p)); discriminate..].
      subst k. destruct (IH _ E) as (l & L1 & L2 & L3). exists (q :: l). split; [cbn [length]; lia|]. split; [|constructor; [exact Hp|exact L3]]. cbn [linked]. split; [left; exact (ptr_points _ _ _ Ec E1 Eq)|exact L2].
    + destruct (c =? 0) eqn:E0; [discriminate|]. destruct (copy_label k m (S p)) eqn:Ek'; cbn [bind] in E; try discriminate. subst k. destruct (IH _ Ek') as (l & L1 & L2 & L3).
      exists (S p :: l). split; [cbn [length]; lia|]. split; [|constructor; [exact Hp|exact L3]]. cbn [linked]. split; [|exact L2]. right. exists c. split; [exact Ec|]. split; [unfold is_ptr in E1; lia|reflexivity].
Qed.
(** Copying a name does not end iff it comes to a place that leads to itself; unlike reading, also over labels, as nothing limits what is copied. *)
Theorem C04_copy_endless src : (forall fuel, copy_label fuel m src = Fuel) <-> exists p, leads (copy_on m) src p /\ circular (copy_on m) p.
Proof.
  split.
  - intros H. specialize (H (S (length m))). destruct (copy_run _ _ H) as (l & L1 & L2 & L3).
    apply (finite_circle Nat.eq_dec _ (seq 0 (length m)) _ _ L2); [|rewrite seq_length; lia]. intros a Hi. rewrite Forall_forall in L3. apply in_seq. specialize (L3 _ Hi). lia.
  - intros (p & X & Y). induction X as [x|x y z H H' IH]; [intros fuel; apply copy_circle; exact Y|exact (copy_back _ _ H (IH Y))].
Qed.
End Name.
Print Assumptions C04_read_endless.
Print Assumptions C04_read_bound.
Print Assumptions C04_copy_endless.

(** A name whose label is followed by a pointer to a pointer back: reading comes to the circle.  A name whose pointer goes back to its label: reading ends when the buffer is full,
    copying does not. *)
Example C04_endless_nonvacuous : let m := repeat 0 12 ++ [1; 97; 192; 16; 192; 14] in let m' := repeat 0 12 ++ [1; 97; 192; 12] in
  Forall is_byte m /\ leads (read_on m 18 253) (12%nat, 0%nat) (14%nat, 2%nat) /\ circular (follows m 18) 14%nat /\
  Forall is_byte m' /\ circular (copy_on m') 12%nat /\ get_host_name 30 16 m' 12 (repeat 7 6) = Ret (None, Some [97; 46; 97; 46; 97; 0]).
Proof.
  intros m m'. split; [repeat (constructor; [unfold is_byte; lia|]); constructor|].
  split; [eapply rt1n_trans; [apply (read_label m 18 253 12 0 1); cbn; try reflexivity; lia|apply rt1n_refl]|].
  split; [eapply t1n_trans with (y := 16%nat); [|apply t1n_step]; (split; [exists 192; eexists; repeat split; lia|lia])|].
  split; [repeat (constructor; [unfold is_byte; lia|]); constructor|].
  split; [|vm_compute; reflexivity].
  eapply t1n_trans with (y := 13%nat); [right; exists 1; repeat split; lia|]. eapply t1n_trans with (y := 14%nat); [right; exists 97; repeat split; lia|].
  apply t1n_step. left. exists 192, 12. repeat split; lia.
Qed.
