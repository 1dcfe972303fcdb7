(** C20: the ordered set behaves like a multiset. *)
From Verif Require Import Base BaseFacts ListFacts Bst_Model Bst_Spec Bst_Proofs Bst2_Proofs.
Require Import Permutation ZifyBool ZifyNat.

(** Additions and deletions always succeed; an addition returns an address not in use, a deletion removes exactly the
    element given, and every element present is stored unchanged at the address returned by its addition.
    No assumption about the comparison. *)
Theorem C20_contents : forall D (cmp : D -> D -> Z) P b live, history cmp P b live ->
  NoDup (map fst live) /\
  (forall a d, In (a, d) live -> exists n, b_heap b a = Some n /\ n_data n = d) /\
  (forall d, exists a b', bst_add cmp b d = Ret (a, b') /\ ~ In a (map fst live)) /\
  (forall a d, In (a, d) live -> exists b', bst_delete b a = Ret b').
Proof.
  intros D cmp P b live HH. destruct (history_inv cmp P b live HH) as (t & fl & HB & HP & _ & _).
  assert (HPm : Permutation (addrs t) (map fst live)) by (apply Permutation_map; exact HP).
  split; [eapply Permutation_NoDup; [exact HPm|eapply binv_nodup; eauto]|]. split; [|split].
  - intros a d HI. eapply binv_deref; [exact HB|]. eapply Permutation_in; [symmetry; exact HP|exact HI].
  - intros d. destruct (bst_add_ok cmp b t fl d HB) as (a & b' & fl' & HE & Ha & _). exists a, b'. split; [exact HE|].
    intros HI. apply Ha. eapply Permutation_in; [symmetry; exact HPm|exact HI].
  - intros a d HI. destruct (bst_delete_ok b t fl a d HB) as (b' & t' & HE & _); [eapply Permutation_in; [symmetry; exact HP|exact HI]|]. eauto.
Qed.
Print Assumptions C20_contents.

(** Enumeration calls back exactly once for each element present (until the callback asks to stop). *)
Theorem C20_enumeration : forall D (cmp : D -> D -> Z) P b (live : list (nat * D)) (S : Type) (cb : S -> nat -> D -> S * bool) s, history cmp P b live ->
  exists l, Permutation l live /\
    bst_enum b cb s = Ret (fst (fold_left (fun (st : S * bool) (x : nat * D) => if snd st then st else cb (fst st) (fst x) (snd x)) l (s, false))).
Proof.
  intros D cmp P b live S cb s HH. destruct (history_inv cmp P b live HH) as (t & fl & HB & HP & _ & _).
  exists (preorder t). split; [rewrite preorder_perm; exact HP|]. rewrite (bst_enum_ok cb b t fl s HB). f_equal. f_equal.
  generalize (s, false). induction (preorder t) as [|[a d] l IH]; intros [s' f]; cbn [visit fold_left fst snd]; [reflexivity|].
  destruct f; [|apply IH]. clear. induction l as [|x l IH]; cbn [fold_left snd]; auto.
Qed.
Print Assumptions C20_enumeration.

(** Searching: what is found is present and equal; if the comparison orders the elements and the key, an
    equal element is found whenever there is one. *)
Theorem C20_search : forall D (cmp : D -> D -> Z) P b live k, history cmp P b live ->
  exists r, bst_search cmp b k None = Ret r /\
    (forall a, r = Some a -> exists d, In (a, d) live /\ cmp k d = 0) /\
    (orders cmp P -> P k -> r = None -> forall a d, In (a, d) live -> cmp k d <> 0).
Proof.
  intros D cmp P b live k HH. destruct (history_inv cmp P b live HH) as (t & fl & HB & HP & HPP & HO).
  exists (srch cmp k t). split; [eapply bst_search_ok; eauto|]. split.
  - intros a Ha. destruct (srch_sound cmp k t a Ha) as (d & H1 & H2). exists d. split; [eapply Permutation_in; eauto|exact H2].
  - intros Ho Hk HN a d HI. apply (srch_none cmp P k t Ho Hk) with (x := (a, d)); auto.
    + intros x Hx. apply HPP. eapply Permutation_in; eauto.
    + eapply Permutation_in; [symmetry; exact HP|exact HI].
Qed.
Print Assumptions C20_search.

(** Minimum and Successor go through all elements in increasing order. *)
Theorem C20_in_order : forall D (cmp : D -> D -> Z) P b live, history cmp P b live -> orders cmp P ->
  exists m l, bst_minimum b None = Ret m /\ successors (S (length live)) b m = Ret (map fst l) /\ Permutation l live /\
    forall l1 x l2 y l3, l = l1 ++ x :: l2 ++ y :: l3 -> cmp (snd x) (snd y) <= 0.
Proof.
  intros D cmp P b live HH Ho. destruct (history_inv cmp P b live HH) as (t & fl & HB & HP & HPP & HO).
  eexists _, (elems t). split; [eapply bst_minimum_ok; eauto|]. split; [|split; [exact HP|]].
  - rewrite <- (successors_ok b t fl HB (elems t) [] (S (length live)) eq_refl); [reflexivity|]. rewrite (Permutation_length HP). lia.
  - intros l1 x l2 y l3 E. eapply (ord_sorted cmp P t Ho); eauto. intros z Hz. apply HPP. eapply Permutation_in; eauto.
Qed.
Print Assumptions C20_in_order.

(** Repeated searching finds all equal elements as long as nothing was deleted. *)
Theorem C20_repeated_search_partial : forall D (cmp : D -> D -> Z) P b live k, additions cmp P b live -> orders cmp P -> P k ->
  exists l, search_all cmp (S (length live)) b k None = Ret l /\ NoDup l /\
    forall a, In a l <-> exists d, In (a, d) live /\ cmp k d = 0.
Proof.
  intros D cmp P b live k HH Ho Hk. destruct (additions_inv cmp P b live HH) as (t & fl & HB & HP & HPP & HO).
  destruct (search_all_ok cmp P k Ho Hk (length live) t t b fl (S (length live)) None) as (l & HE & ND & HA); auto.
  - rewrite (Permutation_length HP). lia.
  - intros x Hx. apply HPP. eapply Permutation_in; eauto.
  - eapply bst_search_ok; eauto.
  - exists []. reflexivity.
  - exists l. split; [exact HE|]. split; [exact ND|]. intros a. rewrite HA. split; intros (d & Hd & H0); exists d; (split; [|exact H0]);
      (eapply Permutation_in; [|exact Hd]); [exact HP|symmetry; exact HP].
Qed.
Print Assumptions C20_repeated_search_partial.

(** After a deletion an equal element may have moved to where repeated searching does not look. *)
Definition ex_cmp (x y : Z * Z) : Z := fst x - fst y.
Theorem C20_repeated_search_refuted : exists b live, history ex_cmp (fun _ => True) b live /\ orders ex_cmp (fun _ => True) /\
  exists l a d, search_all ex_cmp 9 b (5, 0) None = Ret l /\ In (a, d) live /\ ex_cmp (5, 0) d = 0 /\ ~ In a l.
Proof.
  destruct (bst_add ex_cmp bst_init (1, 0)) as [[a1 b1]| | |] eqn:E1; try discriminate.
  destruct (bst_add ex_cmp b1 (0, 0)) as [[a2 b2]| | |] eqn:E2; try (revert E1; vm_compute; intros E1; inversion E1; subst; discriminate).
  destruct (bst_add ex_cmp b2 (5, 1)) as [[a3 b3]| | |] eqn:E3; [|exfalso|exfalso|exfalso].
  2,3,4: injection E1 as <- <-; vm_compute in E2; injection E2 as <- <-; vm_compute in E3; discriminate.
  destruct (bst_add ex_cmp b3 (5, 2)) as [[a4 b4]| | |] eqn:E4; [|exfalso|exfalso|exfalso].
  2,3,4: injection E1 as <- <-; vm_compute in E2; injection E2 as <- <-; vm_compute in E3; injection E3 as <- <-; vm_compute in E4; discriminate.
  destruct (bst_delete b4 a1) as [b5| | |] eqn:E5; [|exfalso|exfalso|exfalso].
  2,3,4: injection E1 as <- <-; vm_compute in E2; injection E2 as <- <-; vm_compute in E3; injection E3 as <- <-; vm_compute in E4; injection E4 as <- <-; vm_compute in E5; discriminate.
  exists b5, (drop a1 [(a4, (5, 2)); (a3, (5, 1)); (a2, (0, 0)); (a1, (1, 0))]). split.
  - eapply H_delete; [|cbn; eauto|exact E5]. repeat (eapply H_add; [|exact I|eassumption]). constructor.
  - split; [unfold orders, ex_cmp; repeat split; intros; lia|].
    injection E1 as <- <-; vm_compute in E2; injection E2 as <- <-; vm_compute in E3; injection E3 as <- <-; vm_compute in E4; injection E4 as <- <-; vm_compute in E5; injection E5 as <-.
    eexists _, 2%nat, (5, 1). split; [vm_compute; reflexivity|]. split; [cbn; auto|]. split; [reflexivity|]. cbn. intros [H|[]]. discriminate.
Qed.
Print Assumptions C20_repeated_search_refuted.

(** A history with all kinds of deletions (leaf, one child, two children with a near and a far successor) and reuse of a node. *)
Fixpoint ex_run (ops : list (Z * Z + nat)) (b : bst (Z * Z)) (live : list (nat * (Z * Z))) : option (bst (Z * Z) * list (nat * (Z * Z))) :=
  match ops with
  | [] => Some (b, live)
  | inl d :: ops' => match bst_add ex_cmp b d with Ret (a, b') => ex_run ops' b' ((a, d) :: live) | _ => None end
  | inr a :: ops' => match bst_delete b a with Ret b' => ex_run ops' b' (drop a live) | _ => None end
  end.
Example C20_nonvacuous :
  let ops := [inl (5,0); inl (3,0); inl (8,0); inl (7,0); inl (6,0); inl (9,0); inl (3,1); inr 0%nat; inr 2%nat; inl (8,5); inr 6%nat; inl (1,1)] in
  match ex_run ops bst_init [] with
  | Some (b, live) => map snd live = [(1,1); (8,5); (9,0); (6,0); (7,0); (3,0)] /\ b_next b = 7%nat /\
      (let! m := bst_minimum b None in successors 9 b m) = Ret [6; 1; 4; 3; 2; 5]%nat
  | None => False
  end.
Proof. vm_compute. repeat split. Qed.
