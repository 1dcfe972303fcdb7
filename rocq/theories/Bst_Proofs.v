(** Refinement of the pointer code of bst.c to trees of (address, element) pairs. *)
From Verif Require Import Base BaseFacts ListFacts Bst_Model.
Require Import Permutation ZifyBool ZifyNat.

Set Default Proof Using "Type".
Section BstProofs.
Context {D : Type} (cmp : D -> D -> Z).

Inductive tree := Leaf | T (l : tree) (a : nat) (d : D) (r : tree).

(** Elements from left to right. *)
Fixpoint elems (t : tree) : list (nat * D) :=
  match t with Leaf => [] | T l a d r => elems l ++ (a, d) :: elems r end.
Definition addrs (t : tree) : list nat := map fst (elems t).
Lemma addrs_T l a d r : addrs (T l a d r) = addrs l ++ a :: addrs r.
Proof. unfold addrs. cbn [elems]. rewrite map_app. reflexivity. Qed.

Definition heap := nat -> option (node D).

Fixpoint rep (h : heap) (p o : option nat) (t : tree) : Prop :=
  match t with
  | Leaf => o = None
  | T l a d r => o = Some a /\ exists n, h a = Some n /\ n_par n = p /\ n_data n = d /\
                 rep h (Some a) (n_left n) l /\ rep h (Some a) (n_right n) r
  end.

Lemma rep_ext t : forall (h h' : heap) p o, (forall x, In x (addrs t) -> h' x = h x) -> rep h p o t -> rep h' p o t.
Proof.
  induction t as [|l IHl a d r IHr]; cbn [rep]; intros h h' p o HE H; [exact H|].
  destruct H as (-> & n & Hn & Hp & Hd & Hl & Hr). split; [reflexivity|]. rewrite addrs_T in HE.
  exists n. split; [rewrite HE by (rewrite in_app_iff; cbn; auto); exact Hn|]. repeat split; auto.
  - eapply IHl; [|exact Hl]. intros. apply HE. rewrite in_app_iff. auto.
  - eapply IHr; [|exact Hr]. intros. apply HE. rewrite in_app_iff. cbn. auto.
Qed.

(** Changing the parent of the root of a subtree. *)
Lemma rep_par t : forall (h : heap) p p' a l d r n, t = T l a d r -> rep h p (Some a) t -> h a = Some n -> NoDup (addrs t) ->
  rep (fun x => if Nat.eqb x a then Some (mk_node p' (n_left n) (n_right n) (n_data n)) else h x) p' (Some a) t.
Proof.
  intros h p p' a l d r n -> H Hn ND. cbn [rep] in *. destruct H as (_ & n' & Hn' & Hp & Hd & Hl & Hr).
  rewrite Hn in Hn'. injection Hn' as <-. split; [reflexivity|]. rewrite Nat.eqb_refl. eexists. split; [reflexivity|].
  cbn [n_par n_data n_left n_right]. repeat split; auto; rewrite addrs_T in ND.
  - eapply rep_ext; [|exact Hl]. cbn beta. intros x Hx. destruct (Nat.eqb_spec x a); [|reflexivity]. subst.
    apply NoDup_remove_2 in ND. elim ND. rewrite in_app_iff. auto.
  - eapply rep_ext; [|exact Hr]. cbn beta. intros x Hx. destruct (Nat.eqb_spec x a); [|reflexivity]. subst.
    apply NoDup_remove_2 in ND. elim ND. rewrite in_app_iff. auto.
Qed.

Inductive frame := FL (a : nat) (d : D) (r : tree) | FR (l : tree) (a : nat) (d : D).
Fixpoint plug (fs : list frame) (t : tree) : tree :=
  match fs with
  | [] => t
  | FL a d r :: fs' => plug fs' (T t a d r)
  | FR l a d :: fs' => plug fs' (T l a d t)
  end.
Fixpoint before (fs : list frame) : list (nat * D) :=
  match fs with [] => [] | FL _ _ _ :: fs' => before fs' | FR l a d :: fs' => before fs' ++ elems l ++ [(a, d)] end.
Fixpoint after (fs : list frame) : list (nat * D) :=
  match fs with [] => [] | FL a d r :: fs' => (a, d) :: elems r ++ after fs' | FR _ _ _ :: fs' => after fs' end.
Lemma elems_plug fs : forall t, elems (plug fs t) = before fs ++ elems t ++ after fs.
Proof.
  induction fs as [|[a d r|l a d] fs IH]; intros t; cbn [plug before after].
  - now rewrite app_nil_r.
  - rewrite IH. cbn [elems]. rewrite <- !app_assoc. cbn [app]. reflexivity.
  - rewrite IH. cbn [elems]. rewrite <- !app_assoc. cbn [app]. reflexivity.
Qed.
Lemma plug_app fs gs t : plug (fs ++ gs) t = plug gs (plug fs t).
Proof. revert t. induction fs as [|[a d r|l a d] fs IH]; intros t; cbn [app plug]; auto. Qed.

Definition faddrs (fs : list frame) : list nat := map fst (before fs) ++ map fst (after fs).

Fixpoint zip (h : heap) (root : option nat) (fs : list frame) (p o : option nat) : Prop :=
  match fs with
  | [] => p = None /\ o = root
  | FL a d r :: fs' => p = Some a /\ exists n, h a = Some n /\ n_data n = d /\ n_left n = o /\ rep h (Some a) (n_right n) r /\
                       zip h root fs' (n_par n) (Some a)
  | FR l a d :: fs' => p = Some a /\ exists n, h a = Some n /\ n_data n = d /\ n_right n = o /\ rep h (Some a) (n_left n) l /\
                       zip h root fs' (n_par n) (Some a)
  end.

Lemma rep_plug h root fs : forall t, rep h None root (plug fs t) <-> exists p o, zip h root fs p o /\ rep h p o t.
Proof.
  induction fs as [|[a d r|l a d] fs IH]; intros t; cbn [plug zip].
  - split; [intros H; exists None, root; auto|intros (p & o & [-> ->] & H); exact H].
  - rewrite IH. cbn [rep]. split.
    + intros (p & o & HZ & -> & n & Hn & Hp & Hd & Hl & Hr). exists (Some a), (n_left n). split; [|exact Hl].
      split; [reflexivity|]. exists n. rewrite Hp. repeat split; auto.
    + intros (p & o & (-> & n & Hn & Hd & Hl & Hr & HZ) & HR). exists (n_par n), (Some a). split; [exact HZ|].
      split; [reflexivity|]. exists n. rewrite Hl. repeat split; auto.
  - rewrite IH. cbn [rep]. split.
    + intros (p & o & HZ & -> & n & Hn & Hp & Hd & Hl & Hr). exists (Some a), (n_right n). split; [|exact Hr].
      split; [reflexivity|]. exists n. rewrite Hp. repeat split; auto.
    + intros (p & o & (-> & n & Hn & Hd & Hl & Hr & HZ) & HR). exists (n_par n), (Some a). split; [exact HZ|].
      split; [reflexivity|]. exists n. rewrite Hl. repeat split; auto.
Qed.

Lemma in_faddrs_FL x a d r fs : In x (faddrs (FL a d r :: fs)) <-> x = a \/ In x (addrs r) \/ In x (faddrs fs).
Proof. unfold faddrs, addrs. cbn [before after]. cbn [map fst]. rewrite map_app, !in_app_iff. cbn [In]. rewrite in_app_iff. clear cmp; intuition congruence. Qed.
Lemma in_faddrs_FR x a d l fs : In x (faddrs (FR l a d :: fs)) <-> x = a \/ In x (addrs l) \/ In x (faddrs fs).
Proof. unfold faddrs, addrs. cbn [before after]. rewrite !map_app, !in_app_iff. cbn. clear cmp; intuition congruence. Qed.

Lemma zip_ext fs : forall (h h' : heap) root p o, (forall x, In x (faddrs fs) -> h' x = h x) -> zip h root fs p o -> zip h' root fs p o.
Proof.
  induction fs as [|[a d r|l a d] fs IH]; intros h h' root p o HE H; cbn [zip] in *; [exact H| |].
  - destruct H as (-> & n & Hn & Hd & Hl & Hr & HZ). split; [reflexivity|]. exists n.
    split; [rewrite HE by (apply in_faddrs_FL; auto); exact Hn|]. repeat split; auto.
    + eapply rep_ext; [|exact Hr]. intros; apply HE, in_faddrs_FL; auto.
    + eapply IH; [|exact HZ]. intros; apply HE, in_faddrs_FL; auto.
  - destruct H as (-> & n & Hn & Hd & Hl & Hr & HZ). split; [reflexivity|]. exists n.
    split; [rewrite HE by (apply in_faddrs_FR; auto); exact Hn|]. repeat split; auto.
    + eapply rep_ext; [|exact Hr]. intros; apply HE, in_faddrs_FR; auto.
    + eapply IH; [|exact HZ]. intros; apply HE, in_faddrs_FR; auto.
Qed.

Lemma nodup_plug fs t : NoDup (addrs (plug fs t)) -> NoDup (addrs t) /\ NoDup (faddrs fs) /\
  (forall x, In x (addrs t) -> In x (faddrs fs) -> False).
Proof.
  unfold addrs, faddrs. rewrite elems_plug, !map_app.
  set (A := map fst (before fs)). set (B := map fst (elems t)). set (C := map fst (after fs)). intros H.
  assert (HP : Permutation (A ++ B ++ C) (B ++ A ++ C)) by (rewrite !app_assoc; apply Permutation_app_tail, Permutation_app_comm).
  eapply Permutation_NoDup in H; [|exact HP].
  clear HP. revert H. generalize (A ++ C) as E. clear. intros E H. induction B as [|b B IH]; cbn [app] in H.
  - split; [constructor|]. split; [exact H|]. intros x [].
  - inversion H as [|? ? Hn H']; subst. destruct (IH H') as (I1 & I2 & I3). repeat split; auto.
    + constructor; auto. intros HI. apply Hn, in_app_iff. auto.
    + intros x [->|Hx] Hy; [|eauto]. apply Hn, in_app_iff. auto.
Qed.
Lemma faddrs_perm_FL a d r fs : Permutation (faddrs (FL a d r :: fs)) (a :: addrs r ++ faddrs fs).
Proof.
  unfold faddrs, addrs. cbn [before after map fst]. rewrite map_app. rewrite <- Permutation_middle. constructor.
  rewrite !app_assoc. apply Permutation_app_tail, Permutation_app_comm.
Qed.
Lemma faddrs_perm_FR a d l fs : Permutation (faddrs (FR l a d :: fs)) (a :: addrs l ++ faddrs fs).
Proof.
  unfold faddrs, addrs. cbn [before after]. rewrite !map_app. cbn [map fst].
  replace ((map fst (before fs) ++ map fst (elems l) ++ [a]) ++ map fst (after fs))
    with ((map fst (before fs) ++ map fst (elems l)) ++ a :: map fst (after fs)) by (rewrite <- !app_assoc; reflexivity).
  rewrite <- Permutation_middle. constructor. rewrite !app_assoc. apply Permutation_app_tail, Permutation_app_comm.
Qed.
Lemma nodup_FL a d r fs : NoDup (faddrs (FL a d r :: fs)) ->
  ~ In a (addrs r) /\ ~ In a (faddrs fs) /\ NoDup (addrs r) /\ NoDup (faddrs fs) /\ (forall x, In x (addrs r) -> In x (faddrs fs) -> False).
Proof.
  intros H. eapply Permutation_NoDup in H; [|apply faddrs_perm_FL]. inversion H as [|? ? Hn H']; subst.
  rewrite in_app_iff in Hn. repeat split; auto.
  - eapply NoDup_app_remove_r; eauto. - eapply NoDup_app_remove_l; eauto.
  - intros x H1 H2. clear - H' H1 H2. induction (addrs r) as [|y l IH]; [destruct H1|]. cbn [app] in H'. inversion H'; subst.
    destruct H1 as [->|H1]; [|auto]. apply H3, in_app_iff; auto.
Qed.
Lemma nodup_FR a d l fs : NoDup (faddrs (FR l a d :: fs)) ->
  ~ In a (addrs l) /\ ~ In a (faddrs fs) /\ NoDup (addrs l) /\ NoDup (faddrs fs) /\ (forall x, In x (addrs l) -> In x (faddrs fs) -> False).
Proof.
  intros H. eapply Permutation_NoDup in H; [|apply faddrs_perm_FR].
  eapply Permutation_NoDup in H; [|apply Permutation_sym, (faddrs_perm_FL a d)]. apply (nodup_FL a d) in H. exact H.
Qed.

(** Two states differ at most in the links of the given nodes, and in the root. *)
Definition same_rest (P : nat -> Prop) (b b' : bst D) : Prop :=
  b_next b' = b_next b /\ b_free b' = b_free b /\ (forall x, ~ P x -> b_heap b' x = b_heap b x).

Lemma ptr_eqb_eq o a : ptr_eqb o (Some a) = true <-> o = Some a.
Proof. destruct o as [x|]; cbn; [|split; discriminate]. rewrite Nat.eqb_eq. split; congruence. Qed.

Lemma set_child_ok (b : bst D) fs p a new :
  zip (b_heap b) (b_root b) fs p (Some a) -> NoDup (faddrs fs) -> ~ In a (faddrs fs) ->
  exists b', set_child b p a new = Ret b' /\ zip (b_heap b') (b_root b') fs p new /\
    same_rest (fun x => In x (faddrs fs)) b b'.
Proof.
  intros HZ ND Ha. destruct fs as [|[x d r|l x d] fs]; cbn [zip] in HZ.
  - destruct HZ as [-> HR]. cbn [set_child]. eexists. split; [reflexivity|]. cbn [set_root b_root b_heap zip].
    repeat split; auto.
  - destruct HZ as (-> & n & Hn & Hd & Hl & Hr & HZ). cbn [set_child]. unfold deref. rewrite Hn. cbn [bind].
    rewrite Hl. assert (E : ptr_eqb (Some a) (Some a) = true) by now apply ptr_eqb_eq. rewrite E.
    unfold set_left, deref. rewrite Hn. cbn [bind]. eexists. split; [reflexivity|].
    destruct (nodup_FL _ _ _ _ ND) as (N1 & N2 & N3 & N4 & N5).
    cbn [store b_root b_heap zip]. split; [|split; [reflexivity|split; [reflexivity|]]].
    + split; [reflexivity|]. rewrite Nat.eqb_refl. eexists. split; [reflexivity|]. cbn [n_data n_left n_right n_par].
      repeat split; auto.
      * eapply rep_ext; [|exact Hr]. cbn beta. intros y Hy. destruct (Nat.eqb_spec y x); [subst; tauto|reflexivity].
      * eapply zip_ext; [|exact HZ]. cbn beta. intros y Hy. destruct (Nat.eqb_spec y x); [subst; tauto|reflexivity].
    + cbn [store b_heap]. intros y Hy. destruct (Nat.eqb_spec y x); [|reflexivity]. subst. elim Hy. apply in_faddrs_FL. auto.
  - destruct HZ as (-> & n & Hn & Hd & Hl & Hr & HZ). cbn [set_child]. unfold deref. rewrite Hn. cbn [bind].
    assert (E : ptr_eqb (n_left n) (Some a) = false).
    { destruct (ptr_eqb (n_left n) (Some a)) eqn:E; [|reflexivity]. exfalso. apply ptr_eqb_eq in E.
      apply Ha, in_faddrs_FR. right. left. rewrite E in Hr. destruct l as [|ll la ld lr]; cbn [rep] in Hr; [discriminate|].
      destruct Hr as [Hr _]. injection Hr as ->. rewrite addrs_T, in_app_iff. cbn. auto. }
    rewrite E. unfold set_right, deref. rewrite Hn. cbn [bind]. eexists. split; [reflexivity|].
    destruct (nodup_FR _ _ _ _ ND) as (N1 & N2 & N3 & N4 & N5).
    cbn [store b_root b_heap zip]. split; [|split; [reflexivity|split; [reflexivity|]]].
    + split; [reflexivity|]. rewrite Nat.eqb_refl. eexists. split; [reflexivity|]. cbn [n_data n_left n_right n_par].
      repeat split; auto.
      * eapply rep_ext; [|exact Hr]. cbn beta. intros y Hy. destruct (Nat.eqb_spec y x); [subst; tauto|reflexivity].
      * eapply zip_ext; [|exact HZ]. cbn beta. intros y Hy. destruct (Nat.eqb_spec y x); [subst; tauto|reflexivity].
    + cbn [store b_heap]. intros y Hy. destruct (Nat.eqb_spec y x); [|reflexivity]. subst. elim Hy. apply in_faddrs_FR. auto.
Qed.

(** ** The invariant *)
Fixpoint flist (h : heap) (o : option nat) (l : list nat) : Prop :=
  match l with
  | [] => o = None
  | a :: l' => o = Some a /\ exists n, h a = Some n /\ flist h (n_right n) l'
  end.
Lemma flist_ext l : forall (h h' : heap) o, (forall x, In x l -> h' x = h x) -> flist h o l -> flist h' o l.
Proof.
  induction l as [|a l IH]; intros h h' o HE H; cbn [flist] in *; [exact H|]. destruct H as (-> & n & Hn & Hl).
  split; [reflexivity|]. exists n. split; [rewrite HE by (cbn; auto); exact Hn|]. eapply IH; [|exact Hl]. intros; apply HE; cbn; auto.
Qed.

Record binv (b : bst D) (t : tree) (fl : list nat) : Prop := {
  bi_rep : rep (b_heap b) None (b_root b) t;
  bi_free : flist (b_heap b) (b_free b) fl;
  bi_nd : NoDup (addrs t ++ fl);
  bi_all : forall a, In a (addrs t ++ fl) <-> (a < b_next b)%nat }.

Lemma binv_init : binv bst_init Leaf [].
Proof. constructor; cbn; auto; [constructor|]. intros a. split; [tauto|lia]. Qed.

Lemma binv_size b t fl : binv b t fl -> (length (elems t) <= b_next b)%nat.
Proof.
  intros [_ _ ND HA]. replace (length (elems t)) with (length (addrs t)) by (unfold addrs; now rewrite map_length).
  apply nodup_lt_length; [eapply NoDup_app_remove_r; eauto|]. intros x Hx. apply HA, in_app_iff. auto.
Qed.
Lemma binv_nodup b t fl : binv b t fl -> NoDup (addrs t).
Proof. intros [_ _ ND _]. eapply NoDup_app_remove_r; eauto. Qed.
(** ** Insertion *)
Fixpoint ins (d : D) (a : nat) (t : tree) : tree :=
  match t with
  | Leaf => T Leaf a d Leaf
  | T l x e r => if cmp d e <=? 0 then T (ins d a l) x e r else T l x e (ins d a r)
  end.
Lemma ins_elems d a t : Permutation (elems (ins d a t)) ((a, d) :: elems t).
Proof.
  induction t as [|l IHl x e r IHr]; cbn [ins elems]; [reflexivity|]. destruct (cmp d e <=? 0); cbn [elems].
  - rewrite IHl. reflexivity.
  - rewrite IHr. symmetry. rewrite perm_swap. apply Permutation_middle.
Qed.

Lemma get_unused_ok b t fl : binv b t fl -> exists a b1 fl', get_unused b = Ret (a, b1) /\
  ~ In a (addrs t) /\ (forall x, b_heap b1 x = b_heap b x) /\ b_root b1 = b_root b /\
  flist (b_heap b) (b_free b1) fl' /\ NoDup (a :: addrs t ++ fl') /\
  (forall x, In x (a :: addrs t ++ fl') <-> (x < b_next b1)%nat).
Proof.
  intros [HR HF ND HA]. unfold get_unused. destruct fl as [|f fl]; cbn [flist] in HF.
  - rewrite HF. eexists _, _, []. split; [reflexivity|]. rewrite app_nil_r in *.
    assert (Hn : ~ In (b_next b) (addrs t)) by (intros H; apply HA in H; lia).
    cbn [b_heap b_root b_free b_next]. repeat split; auto.
    + constructor; auto.
    + intros [<-|H]; [lia|]. apply HA in H. lia.
    + intros H. cbn [In]. destruct (Nat.eq_dec (b_next b) x); [auto|]. right. apply HA. lia.
  - destruct HF as (HF & n & Hn & HF'). rewrite HF. unfold deref. rewrite Hn. cbn [bind].
    eexists _, _, fl. split; [reflexivity|]. cbn [set_free b_heap b_root b_free b_next].
    assert (Hf : ~ In f (addrs t)). { intros H. eapply nodup_app_disj; [exact ND|exact H|cbn; auto]. }
    assert (HP : Permutation (addrs t ++ f :: fl) (f :: addrs t ++ fl)) by (symmetry; apply Permutation_middle).
    repeat split; auto.
    + eapply Permutation_NoDup; eauto.
    + intros H. apply HA. eapply Permutation_in; [symmetry; exact HP|exact H].
    + intros H. apply HA in H. eapply Permutation_in; [exact HP|exact H].
Qed.

(** InsertNode at a NULL child. *)
Lemma insert_node_ok b fs p c d fl : binv b (plug fs Leaf) fl -> zip (b_heap b) (b_root b) fs p None ->
  match fs with [] => True | FL _ _ _ :: _ => c <= 0 | FR _ _ _ :: _ => 0 < c end ->
  exists a b' fl', insert_node b p c d = Ret (a, b') /\ ~ In a (addrs (plug fs Leaf)) /\
    binv b' (plug fs (T Leaf a d Leaf)) fl'.
Proof. clear cmp.
  intros HB HZ Hc. destruct (get_unused_ok b _ fl HB) as (a & b1 & fl' & HE & Ha & Hh & Hr & Hfl & ND & HA).
  set (t := plug fs Leaf) in *.
  assert (HNt : NoDup (addrs t)) by (eapply binv_nodup; eauto).
  destruct (nodup_plug fs Leaf HNt) as (_ & NF & _).
  assert (Hat : forall x, In x (addrs t) <-> In x (faddrs fs)).
  { intros x. unfold t, addrs, faddrs. rewrite elems_plug. cbn [elems app]. rewrite map_app. reflexivity. }
  assert (Haf : ~ In a (faddrs fs)) by (rewrite <- Hat; exact Ha).
  assert (Hperm : Permutation (addrs (plug fs (T Leaf a d Leaf)) ++ fl') (a :: addrs t ++ fl')).
  { unfold t, addrs. rewrite !elems_plug. cbn [elems app]. rewrite !map_app. cbn [map fst]. rewrite <- !app_assoc. cbn [app].
    symmetry. apply Permutation_middle. }
  assert (HZ1 : zip (b_heap b1) (b_root b1) fs p None).
  { rewrite Hr. eapply zip_ext; [|exact HZ]. intros; apply Hh. }
  unfold insert_node. rewrite HE. cbn [bind].
  (* the parent's link *)
  assert (HS : exists b2, match p with None => Ret (set_root b1 (Some a))
      | Some q => if c <=? 0 then set_left b1 q (Some a) else set_right b1 q (Some a) end = Ret b2 /\
      zip (b_heap b2) (b_root b2) fs p (Some a) /\ same_rest (fun x => In x (faddrs fs)) b1 b2).
  { destruct fs as [|[x e r|l x e] fs]; cbn [zip] in HZ1.
    - destruct HZ1 as [-> HZ1]. eexists. split; [reflexivity|]. cbn [zip set_root b_root b_heap]. repeat split; auto.
    - destruct HZ1 as (-> & n & Hn & Hd & Hl & Hrr & HZ1). destruct (c <=? 0) eqn:E; [|lia].
      unfold set_left, deref. rewrite Hn. cbn [bind]. eexists. split; [reflexivity|].
      destruct (nodup_FL _ _ _ _ NF) as (N1 & N2 & N3 & N4 & N5).
      cbn [store b_root b_heap zip]. split; [|split; [reflexivity|split; [reflexivity|]]].
      + split; [reflexivity|]. rewrite Nat.eqb_refl. eexists. split; [reflexivity|]. cbn [n_data n_left n_right n_par].
        repeat split; auto.
        * eapply rep_ext; [|exact Hrr]. cbn beta. intros y Hy. destruct (Nat.eqb_spec y x); [subst; tauto|reflexivity].
        * eapply zip_ext; [|exact HZ1]. cbn beta. intros y Hy. destruct (Nat.eqb_spec y x); [subst; tauto|reflexivity].
      + cbn [store b_heap]. intros y Hy. destruct (Nat.eqb_spec y x); [|reflexivity]. subst. elim Hy. apply in_faddrs_FL. auto.
    - destruct HZ1 as (-> & n & Hn & Hd & Hl & Hrr & HZ1). destruct (c <=? 0) eqn:E; [lia|].
      unfold set_right, deref. rewrite Hn. cbn [bind]. eexists. split; [reflexivity|].
      destruct (nodup_FR _ _ _ _ NF) as (N1 & N2 & N3 & N4 & N5).
      cbn [store b_root b_heap zip]. split; [|split; [reflexivity|split; [reflexivity|]]].
      + split; [reflexivity|]. rewrite Nat.eqb_refl. eexists. split; [reflexivity|]. cbn [n_data n_left n_right n_par].
        repeat split; auto.
        * eapply rep_ext; [|exact Hrr]. cbn beta. intros y Hy. destruct (Nat.eqb_spec y x); [subst; tauto|reflexivity].
        * eapply zip_ext; [|exact HZ1]. cbn beta. intros y Hy. destruct (Nat.eqb_spec y x); [subst; tauto|reflexivity].
      + cbn [store b_heap]. intros y Hy. destruct (Nat.eqb_spec y x); [|reflexivity]. subst. elim Hy. apply in_faddrs_FR. auto. }
  destruct HS as (b2 & HS & HZ2 & Hn2 & Hf2 & Hh2). rewrite HS. cbn [bind].
  eexists _, _, fl'. split; [reflexivity|]. split; [exact Ha|]. constructor; cbn [store b_heap b_root b_free b_next].
  - apply rep_plug. exists p, (Some a). split.
    + eapply zip_ext; [|exact HZ2]. cbn beta. intros x Hx. destruct (Nat.eqb_spec x a); [subst; tauto|reflexivity].
    + cbn [rep]. split; [reflexivity|]. rewrite Nat.eqb_refl. eexists. split; [reflexivity|]. cbn. auto.
  - rewrite Hf2. eapply flist_ext; [|exact Hfl]. cbn beta. intros x Hx. inversion ND as [|? ? Hna ND']; subst.
    destruct (Nat.eqb_spec x a); [subst; elim Hna; apply in_app_iff; auto|].
    rewrite Hh2; [apply Hh|]. rewrite <- Hat. intros Hy. eapply nodup_app_disj; eauto.
  - eapply Permutation_NoDup; [symmetry; exact Hperm|exact ND].
  - intros x. rewrite Hn2, <- HA. split; intros H; (eapply Permutation_in; [|exact H]); [exact Hperm|symmetry; exact Hperm].
Qed.

Lemma add_loop_ok t : forall fuel b fs a d fl p, binv b (plug fs t) fl -> t <> Leaf ->
  zip (b_heap b) (b_root b) fs p (Some a) -> rep (b_heap b) p (Some a) t -> (length (elems t) <= fuel)%nat ->
  exists x b' fl', add_loop cmp fuel b a d = Ret (x, b') /\ ~ In x (addrs (plug fs t)) /\ binv b' (plug fs (ins d x t)) fl'.
Proof.
  induction t as [|l IHl y e r IHr]; intros fuel b fs a d fl p HB Ht HZ HR Hf; [congruence|].
  cbn [rep] in HR. destruct HR as (Hy & n & Hn & Hp & Hd & Hl & Hr). injection Hy as ->.
  cbn [elems] in Hf. rewrite app_length in Hf. cbn [length] in Hf. destruct fuel as [|fuel]; [lia|].
  cbn [add_loop]. unfold deref. rewrite Hn. cbn [bind ins]. rewrite Hd. destruct (cmp d e <=? 0) eqn:E.
  - assert (HZ' : zip (b_heap b) (b_root b) (FL y e r :: fs) (Some y) (n_left n)).
    { cbn [zip]. split; [reflexivity|]. exists n. rewrite Hp. repeat split; auto. }
    destruct l as [|ll la ld lr].
    + cbn [rep] in Hl. rewrite Hl in *. destruct (insert_node_ok b (FL y e r :: fs) (Some y) (cmp d e) d fl HB HZ' ltac:(cbn; lia))
        as (x & b' & fl' & H1 & H2 & H3). exists x, b', fl'. auto.
    + pose proof Hl as Hl'. cbn [rep] in Hl'. destruct Hl' as [Hla _]. rewrite Hla in *.
      destruct (IHl fuel b (FL y e r :: fs) la d fl (Some y) HB ltac:(discriminate) HZ' Hl ltac:(lia)) as (x & b' & fl' & H1 & H2 & H3).
      exists x, b', fl'. auto.
  - assert (HZ' : zip (b_heap b) (b_root b) (FR l y e :: fs) (Some y) (n_right n)).
    { cbn [zip]. split; [reflexivity|]. exists n. rewrite Hp. repeat split; auto. }
    destruct r as [|ll la ld lr].
    + cbn [rep] in Hr. rewrite Hr in *. destruct (insert_node_ok b (FR l y e :: fs) (Some y) (cmp d e) d fl HB HZ' ltac:(cbn; lia))
        as (x & b' & fl' & H1 & H2 & H3). exists x, b', fl'. auto.
    + pose proof Hr as Hr'. cbn [rep] in Hr'. destruct Hr' as [Hra _]. rewrite Hra in *.
      destruct (IHr fuel b (FR l y e :: fs) la d fl (Some y) HB ltac:(discriminate) HZ' Hr ltac:(lia)) as (x & b' & fl' & H1 & H2 & H3).
      exists x, b', fl'. auto.
Qed.

Lemma bst_add_ok b t fl d : binv b t fl ->
  exists a b' fl', bst_add cmp b d = Ret (a, b') /\ ~ In a (addrs t) /\ binv b' (ins d a t) fl'.
Proof.
  intros HB. pose proof (bi_rep _ _ _ HB) as HR. unfold bst_add. destruct t as [|l x e r].
  - cbn [rep] in HR. rewrite HR. destruct (insert_node_ok b [] None 0 d fl HB) as (a & b' & fl' & H1 & H2 & H3);
      [cbn; auto|exact I|]. exists a, b', fl'. auto.
  - pose proof HR as HR'. cbn [rep] in HR'. destruct HR' as [Hx _]. rewrite Hx in *.
    destruct (add_loop_ok (T l x e r) (S (b_next b)) b [] x d fl None HB) as (a & b' & fl' & H1 & H2 & H3); try discriminate.
    + cbn [zip]. auto.
    + exact HR.
    + pose proof (binv_size _ _ _ HB). lia.
    + exists a, b', fl'. auto.
Qed.

(** ** Search *)
Fixpoint srch (k : D) (t : tree) : option nat :=
  match t with
  | Leaf => None
  | T l a d r => if cmp k d =? 0 then Some a else if cmp k d <? 0 then srch k l else srch k r
  end.
Lemma search_loop_ok t : forall fuel b p o k, rep (b_heap b) p o t -> (length (elems t) < fuel)%nat ->
  search_loop cmp fuel b o k = Ret (srch k t).
Proof.
  induction t as [|l IHl a d r IHr]; intros fuel b p o k HR Hf; (destruct fuel as [|fuel]; [lia|]); cbn [rep] in HR; cbn [search_loop srch].
  - rewrite HR. reflexivity.
  - destruct HR as (-> & n & Hn & Hp & Hd & Hl & Hr). unfold deref. rewrite Hn. cbn [bind]. rewrite Hd.
    cbn [elems] in Hf. rewrite app_length in Hf. cbn [length] in Hf.
    destruct (cmp k d =? 0); [reflexivity|]. destruct (cmp k d <? 0); [eapply IHl|eapply IHr]; eauto; lia.
Qed.
Lemma bst_search_ok b t fl k : binv b t fl -> bst_search cmp b k None = Ret (srch k t).
Proof.
  intros HB. unfold bst_search. cbn [bind]. eapply search_loop_ok; [apply (bi_rep _ _ _ HB)|]. pose proof (binv_size _ _ _ HB). lia.
Qed.
Lemma bst_search_last b t fl k fs l a d r : binv b t fl -> t = plug fs (T l a d r) -> bst_search cmp b k (Some a) = Ret (srch k l).
Proof.
  intros HB E. pose proof (bi_rep _ _ _ HB) as HR. rewrite E in HR. apply rep_plug in HR. destruct HR as (p & o & _ & HR).
  cbn [rep] in HR. destruct HR as (-> & n & Hn & Hp & Hd & Hl & Hr).
  unfold bst_search, deref. rewrite Hn. cbn [bind]. eapply search_loop_ok; [exact Hl|]. pose proof (binv_size _ _ _ HB).
  rewrite E, elems_plug in H. cbn [elems] in H. rewrite !app_length in H. lia.
Qed.
Lemma srch_sound k t a : srch k t = Some a -> exists d, In (a, d) (elems t) /\ cmp k d = 0.
Proof.
  induction t as [|l IHl x d r IHr]; cbn [srch elems]; [discriminate|]. destruct (cmp k d =? 0) eqn:E0.
  - intros H. injection H as <-. exists d. split; [apply in_app_iff; cbn; auto|lia].
  - destruct (cmp k d <? 0); intros H; [destruct (IHl H) as (e & H1 & H2)|destruct (IHr H) as (e & H1 & H2)];
      exists e; (split; [|exact H2]); apply in_app_iff; cbn; auto.
Qed.

(** Every element is where a search for it looks. *)
Fixpoint ord (t : tree) : Prop :=
  match t with
  | Leaf => True
  | T l a d r => (forall x, In x (elems l) -> cmp (snd x) d <= 0) /\ (forall x, In x (elems r) -> 0 <= cmp (snd x) d) /\ ord l /\ ord r
  end.
Lemma ord_ins d a t : ord t -> ord (ins d a t).
Proof.
  induction t as [|l IHl x e r IHr]; cbn [ord ins]; intros H; [cbn; repeat split; auto; intros ? []|].
  destruct H as (H1 & H2 & H3 & H4). destruct (cmp d e <=? 0) eqn:E; cbn [ord]; repeat split; auto.
  - intros y Hy. apply (Permutation_in _ (ins_elems d a l)) in Hy. destruct Hy as [<-|Hy]; [cbn; lia|auto].
  - intros y Hy. apply (Permutation_in _ (ins_elems d a r)) in Hy. destruct Hy as [<-|Hy]; [cbn; lia|auto].
Qed.
(** A key that compares to every element as some present element does is found. *)
Lemma srch_complete k t x : ord t -> In x (elems t) ->
  (forall y, In y (elems t) -> Z.sgn (cmp k (snd y)) = Z.sgn (cmp (snd x) (snd y))) -> cmp (snd x) (snd x) = 0 ->
  exists a, srch k t = Some a.
Proof.
  induction t as [|l IHl a d r IHr]; cbn [ord elems srch]; intros HO HI HK H0; [destruct HI|].
  destruct HO as (H1 & H2 & H3 & H4).
  assert (HKd := HK (a, d)). cbn [snd] in HKd. specialize (HKd ltac:(apply in_app_iff; cbn; auto)).
  destruct (cmp k d =? 0) eqn:E0; [eauto|].
  assert (Hx : x <> (a, d)). { intros ->. cbn [snd] in *. rewrite H0 in HKd. cbn in HKd. lia. }
  apply in_app_iff in HI. cbn [In] in HI. destruct (cmp k d <? 0) eqn:E1.
  - apply IHl; auto.
    + destruct HI as [HI|[HI|HI]]; [exact HI|congruence|]. specialize (H2 _ HI). lia.
    + intros y Hy. apply HK, in_app_iff. auto.
  - apply IHr; auto.
    + destruct HI as [HI|[HI|HI]]; [|congruence|exact HI]. specialize (H1 _ HI). lia.
    + intros y Hy. apply HK, in_app_iff. cbn. auto.
Qed.

(** ** Enumeration *)
Fixpoint preorder (t : tree) : list (nat * D) :=
  match t with Leaf => [] | T l a d r => (a, d) :: preorder l ++ preorder r end.
Lemma preorder_perm t : Permutation (preorder t) (elems t).
Proof.
  induction t as [|l IHl a d r IHr]; cbn [preorder elems]; [reflexivity|]. rewrite IHl, IHr. apply Permutation_middle.
Qed.
(** Callbacks up to the first one that asks to stop. *)
Fixpoint visit {S : Type} (cb : S -> nat -> D -> S * bool) (l : list (nat * D)) (st : S * bool) : S * bool :=
  match l with
  | [] => st
  | (a, d) :: l' => if snd st then st else visit cb l' (cb (fst st) a d)
  end.
Lemma visit_stop {S : Type} (cb : S -> nat -> D -> S * bool) l s : visit cb l (s, true) = (s, true).
Proof. destruct l as [|[a d] l]; reflexivity. Qed.
Lemma visit_app {S : Type} (cb : S -> nat -> D -> S * bool) l m : forall st, visit cb (l ++ m) st = visit cb m (visit cb l st).
Proof.
  induction l as [|[a d] l IH]; intros [s st]; cbn [app visit fst snd]; [reflexivity|]. destruct st; [now rewrite visit_stop|apply IH].
Qed.
Lemma enum_inner_ok {S : Type} (cb : S -> nat -> D -> S * bool) t : forall fuel b p o st,
  rep (b_heap b) p o t -> (length (elems t) < fuel)%nat -> enum_inner fuel b cb o st = Ret (visit cb (preorder t) st).
Proof. clear cmp.
  induction t as [|l IHl a d r IHr]; intros fuel b p o [s st] HR Hf; (destruct fuel as [|fuel]; [lia|]); cbn [rep] in HR; cbn [enum_inner preorder visit].
  - rewrite HR. reflexivity.
  - destruct HR as (-> & n & Hn & Hp & Hd & Hl & Hr). cbn [fst snd]. destruct st; [reflexivity|].
    cbn [elems] in Hf. rewrite app_length in Hf. cbn [length] in Hf.
    unfold deref. rewrite Hn. cbn [bind]. rewrite Hd. rewrite (IHl fuel b _ _ _ Hl ltac:(lia)). cbn [bind].
    rewrite (IHr fuel b _ _ _ Hr ltac:(lia)). rewrite visit_app. reflexivity.
Qed.
Lemma bst_enum_ok {S : Type} (cb : S -> nat -> D -> S * bool) b t fl s : binv b t fl ->
  bst_enum b cb s = Ret (fst (visit cb (preorder t) (s, false))).
Proof.
  intros HB. unfold bst_enum. rewrite (enum_inner_ok cb t _ b None _ _ (bi_rep _ _ _ HB)); [reflexivity|].
  pose proof (binv_size _ _ _ HB). lia.
Qed.

(** ** Minimum and successor *)
Lemma min_loop_ok t : forall fuel b p o a, rep (b_heap b) p (Some a) t -> o = Some a -> (length (elems t) <= fuel)%nat ->
  exists m d rest, min_loop fuel b a = Ret m /\ elems t = (m, d) :: rest.
Proof. clear cmp.
  induction t as [|l IHl x e r IHr]; intros fuel b p o a HR Ho Hf; cbn [rep] in HR; [discriminate|].
  destruct HR as (Hx & n & Hn & Hp & Hd & Hl & Hr). injection Hx as ->.
  cbn [elems] in Hf. rewrite app_length in Hf. cbn [length] in Hf. destruct fuel as [|fuel]; [lia|].
  cbn [min_loop elems]. unfold deref. rewrite Hn. cbn [bind]. destruct l as [|ll la ld lr].
  - cbn [rep] in Hl. rewrite Hl. exists x, e, (elems r). auto.
  - pose proof Hl as Hl'. cbn [rep] in Hl'. destruct Hl' as [Hla _]. rewrite Hla in *.
    destruct (IHl fuel b _ _ la Hl eq_refl ltac:(lia)) as (m & d & rest & H1 & H2). exists m, d, (rest ++ (x, e) :: elems r).
    split; [exact H1|]. rewrite H2. reflexivity.
Qed.
Lemma bst_minimum_ok b t fl : binv b t fl -> bst_minimum b None = Ret (match elems t with [] => None | x :: _ => Some (fst x) end).
Proof. clear cmp.
  intros HB. pose proof (bi_rep _ _ _ HB) as HR. unfold bst_minimum. destruct t as [|l a d r].
  - cbn [rep] in HR. rewrite HR. reflexivity.
  - pose proof HR as HR'. cbn [rep] in HR'. destruct HR' as [Hr _]. rewrite Hr in *.
    destruct (min_loop_ok (T l a d r) (S (b_next b)) b None (Some a) a HR eq_refl) as (m & e & rest & H1 & H2).
    + pose proof (binv_size _ _ _ HB). lia.
    + rewrite H1. cbn [bind]. rewrite H2. reflexivity.
Qed.
Lemma up_loop_ok fs : forall fuel b a p, zip (b_heap b) (b_root b) fs p (Some a) -> NoDup (faddrs fs) -> ~ In a (faddrs fs) ->
  (length fs < fuel)%nat ->
  up_loop fuel b a p = Ret (match after fs with [] => None | x :: _ => Some (fst x) end).
Proof. clear cmp.
  induction fs as [|[x d r|l x d] fs IH]; intros fuel b a p HZ ND Ha Hf; (destruct fuel as [|fuel]; [cbn in Hf; lia|]); cbn [zip length] in *; cbn [up_loop after].
  - destruct HZ as [-> _]. reflexivity.
  - destruct HZ as (-> & n & Hn & Hd & Hl & Hr & HZ). unfold deref. rewrite Hn. cbn [bind]. rewrite Hl.
    assert (E : ptr_eqb (Some a) (Some a) = true) by now apply ptr_eqb_eq. rewrite E. reflexivity.
  - destruct HZ as (-> & n & Hn & Hd & Hl & Hr & HZ). unfold deref. rewrite Hn. cbn [bind].
    assert (E : ptr_eqb (n_left n) (Some a) = false).
    { destruct (ptr_eqb (n_left n) (Some a)) eqn:E; [|reflexivity]. exfalso. apply ptr_eqb_eq in E.
      apply Ha, in_faddrs_FR. right. left. rewrite E in Hr. destruct l as [|ll la ld lr]; cbn [rep] in Hr; [discriminate|].
      destruct Hr as [Hr _]. injection Hr as ->. rewrite addrs_T, in_app_iff. cbn. auto. }
    rewrite E. destruct (nodup_FR _ _ _ _ ND) as (N1 & N2 & N3 & N4 & N5). apply IH; auto. lia.
Qed.
Lemma fs_length fs : (length fs <= length (faddrs fs))%nat.
Proof. clear cmp.
  induction fs as [|[a d r|l a d] fs IH]; [cbn; lia| |]; cbn [length].
  - rewrite (Permutation_length (faddrs_perm_FL a d r fs)). cbn [length]. rewrite app_length. lia.
  - rewrite (Permutation_length (faddrs_perm_FR a d l fs)). cbn [length]. rewrite app_length. lia.
Qed.
(** The address following [a] from left to right. *)
Lemma bst_successor_ok b t fl fs l a d r : binv b t fl -> t = plug fs (T l a d r) ->
  bst_successor b a = Ret (match elems r ++ after fs with [] => None | x :: _ => Some (fst x) end).
Proof. clear cmp.
  intros HB E. pose proof (bi_rep _ _ _ HB) as HR. pose proof (binv_size _ _ _ HB) as HS. pose proof (binv_nodup _ _ _ HB) as ND.
  rewrite E in HR, HS, ND. apply rep_plug in HR. destruct HR as (p & o & HZ & HR). destruct (nodup_plug _ _ ND) as (N1 & N2 & N3).
  cbn [rep] in HR. destruct HR as (-> & n & Hn & Hp & Hd & Hl & Hr). rewrite elems_plug, !app_length in HS. cbn [elems] in HS. rewrite app_length in HS. cbn [length] in HS.
  unfold bst_successor, deref. rewrite Hn. cbn [bind]. destruct r as [|rl ra rd rr].
  - cbn [rep] in Hr. rewrite Hr. cbn [elems app]. rewrite Hp. apply up_loop_ok; auto.
    + intros Ha. apply (N3 a); [rewrite addrs_T, in_app_iff; cbn; auto|exact Ha].
    + pose proof (fs_length fs). unfold faddrs in H. rewrite app_length, !map_length in H. lia.
  - pose proof Hr as Hr'. cbn [rep] in Hr'. destruct Hr' as [Hra _]. rewrite Hra in *. cbn [bst_minimum].
    destruct (min_loop_ok _ (S (b_next b)) b _ _ ra Hr eq_refl ltac:(lia)) as (m & e & rest & H1 & H2). rewrite H1. cbn [bind].
    rewrite H2. reflexivity.
Qed.

(** ** Deletion *)
Lemma locate a d t : In (a, d) (elems t) -> exists fs l r, t = plug fs (T l a d r).
Proof.
  enough (forall gs, In (a, d) (elems t) -> exists fs l r, plug gs t = plug fs (T l a d r)) by (intros; destruct (H [] H0) as (fs & l & r & E); eauto).
  induction t as [|l IHl x e r IHr]; cbn [elems]; intros gs HI; [destruct HI|].
  apply in_app_iff in HI. cbn [In] in HI. destruct HI as [HI|[HI|HI]].
  - destruct (IHl (FL x e r :: gs) HI) as (fs & l' & r' & E). cbn [plug] in E. eauto.
  - injection HI as <- <-. eauto.
  - destruct (IHr (FR l x e :: gs) HI) as (fs & l' & r' & E). cbn [plug] in E. eauto.
Qed.
Lemma leftmost t : t <> Leaf -> exists fs m d r, t = plug fs (T Leaf m d r) /\ before fs = [].
Proof.
  induction t as [|l IHl x e r IHr]; intros H; [congruence|]. destruct l as [|ll la ld lr].
  - exists [], x, e, r. auto.
  - destruct (IHl ltac:(discriminate)) as (fs & m & d & r' & E & Hb). exists (fs ++ [FL x e r]), m, d, r'. split.
    + rewrite plug_app, <- E. reflexivity.
    + clear - Hb. induction fs as [|[a d' r''|l' a d'] fs IH]; cbn [app before] in *; auto.
      exfalso. clear - Hb. destruct (before fs); cbn in Hb; [|discriminate]. destruct (elems l'); discriminate.
Qed.

Lemma splice_out_ok b fs a d l r : rep (b_heap b) None (b_root b) (plug fs (T l a d r)) -> NoDup (addrs (plug fs (T l a d r))) ->
  l = Leaf \/ r = Leaf ->
  exists b', splice_out b a = Ret b' /\ rep (b_heap b') None (b_root b') (plug fs (match l with Leaf => r | _ => l end)) /\
    same_rest (fun x => In x (faddrs fs) \/ In x (addrs l) \/ In x (addrs r)) b b'.
Proof. clear cmp.
  intros HR ND Hlr. apply rep_plug in HR. destruct HR as (p & o & HZ & HR). destruct (nodup_plug _ _ ND) as (N1 & N2 & N3).
  cbn [rep] in HR. destruct HR as (-> & n & Hn & Hp & Hd & Hl & Hr). rewrite addrs_T in N1.
  assert (Ha : ~ In a (faddrs fs)) by (intros H; apply (N3 a); [rewrite addrs_T, in_app_iff; cbn; auto|exact H]).
  set (c := match l with Leaf => r | _ => l end).
  set (child := match n_left n with Some x => Some x | None => n_right n end).
  assert (Hc : rep (b_heap b) (Some a) child c).
  { unfold child, c. destruct l as [|ll la ld lr]; cbn [rep] in Hl; [rewrite Hl; exact Hr|].
    pose proof Hl as (Hl' & _). rewrite Hl' in *. exact Hl. }
  assert (Nc : NoDup (addrs c) /\ (forall x, In x (addrs c) -> In x (addrs l) \/ In x (addrs r)) /\ ~ In a (addrs c)).
  { pose proof (NoDup_remove_2 _ _ _ N1) as Na. rewrite in_app_iff in Na. apply NoDup_remove_1 in N1.
    unfold c. destruct l as [|ll la ld lr]; repeat split; auto.
    - eapply NoDup_app_remove_r; eauto. }
  destruct Nc as (Nc1 & Nc2 & Nc3).
  assert (Hcf : forall x, In x (addrs c) -> In x (faddrs fs) -> False).
  { intros x H1 H2. apply (N3 x); [|exact H2]. rewrite addrs_T, in_app_iff. cbn [In]. destruct (Nc2 x H1); auto. }
  unfold splice_out, deref. rewrite Hn. cbn [bind]. fold child. rewrite Hp.
  assert (HS : exists b1, match child with Some x => set_par b x p | None => Ret b end = Ret b1 /\
    rep (b_heap b1) p child c /\ zip (b_heap b1) (b_root b1) fs p (Some a) /\ same_rest (fun x => In x (addrs c)) b b1).
  { destruct c as [|cl cx cd cr] eqn:Ec.
    - cbn [rep] in Hc. rewrite Hc. exists b. split; [reflexivity|]. repeat split; auto.
    - pose proof Hc as (Hc0 & m & Hm & _). rewrite Hc0. unfold set_par, deref. rewrite Hm. cbn [bind]. eexists. split; [reflexivity|].
      rewrite Hc0 in Hc. cbn [store b_heap b_root]. split; [|split].
      + eapply rep_par; eauto.
      + eapply zip_ext; [|exact HZ]. cbn beta. intros x Hx. destruct (Nat.eqb_spec x cx); [|reflexivity]. subst. exfalso.
        apply (Hcf cx); [rewrite addrs_T, in_app_iff; cbn; auto|exact Hx].
      + repeat split; auto. cbn [store b_heap]. intros x Hx. destruct (Nat.eqb_spec x cx); [|reflexivity]. subst. elim Hx.
        rewrite addrs_T, in_app_iff. cbn. auto. }
  destruct HS as (b1 & HS & Hc1 & HZ1 & Hn1 & Hf1 & Hh1). rewrite HS. cbn [bind].
  destruct (set_child_ok b1 fs p a child HZ1 N2 Ha) as (b2 & HE2 & HZ2 & Hn2 & Hf2 & Hh2).
  exists b2. split; [exact HE2|]. split.
  - apply rep_plug. exists p, child. split; [exact HZ2|]. eapply rep_ext; [|exact Hc1]. intros x Hx. apply Hh2. intros H. eapply Hcf; eauto.
  - split; [congruence|]. split; [congruence|]. intros x Hx. rewrite Hh2 by tauto. apply Hh1. intros H. apply Hx. right. auto.
Qed.

Lemma replace_node_ok b fs cur ar l d md r m0 : rep (b_heap b) None (b_root b) (plug fs (T l cur d r)) -> NoDup (addrs (plug fs (T l cur d r))) ->
  l <> Leaf -> b_heap b ar = Some m0 -> n_data m0 = md -> ~ In ar (addrs (plug fs (T l cur d r))) ->
  exists b', replace_node b cur ar = Ret b' /\ rep (b_heap b') None (b_root b') (plug fs (T l ar md r)) /\
    same_rest (fun x => In x (faddrs fs) \/ In x (addrs l) \/ In x (addrs r) \/ x = ar) b b'.
Proof. clear cmp.
  intros HR ND Hl0 Hm0 Hmd Har. apply rep_plug in HR. destruct HR as (p & o & HZ & HR). destruct (nodup_plug _ _ ND) as (N1 & N2 & N3).
  cbn [rep] in HR. destruct HR as (-> & n & Hn & Hp & Hd & Hl & Hr).
  assert (HL : forall x, In x (addrs l) -> In x (faddrs fs) -> False).
  { intros x H1 H2. apply (N3 x); [|exact H2]. rewrite addrs_T, in_app_iff. auto. }
  assert (HRr : forall x, In x (addrs r) -> In x (faddrs fs) -> False).
  { intros x H1 H2. apply (N3 x); [|exact H2]. rewrite addrs_T, in_app_iff. cbn. auto. }
  assert (Ha : ~ In cur (faddrs fs)) by (intros H; apply (N3 cur); [rewrite addrs_T, in_app_iff; cbn; auto|exact H]).
  assert (Har' : ~ In ar (addrs l) /\ ~ In ar (addrs r) /\ ~ In ar (faddrs fs)).
  { unfold addrs at 1 in Har. rewrite elems_plug in Har. cbn [elems] in Har. rewrite !map_app, !in_app_iff in Har. cbn [map In fst] in Har.
    unfold addrs, faddrs. rewrite in_app_iff. tauto. }
  destruct Har' as (Ar1 & Ar2 & Ar3).
  rewrite addrs_T in N1. pose proof (NoDup_remove_1 _ _ _ N1) as N1'.
  assert (HLR : forall x, In x (addrs l) -> In x (addrs r) -> False) by (intros x; apply nodup_app_disj; exact N1').
  unfold replace_node. unfold deref at 1. rewrite Hn. cbn [bind]. rewrite Hp.
  destruct (set_child_ok b fs p cur (Some ar) HZ N2 Ha) as (b1 & HE1 & HZ1 & Hn1 & Hf1 & Hh1). rewrite HE1. cbn [bind].
  destruct l as [|ll lx ld lr] eqn:El; [congruence|]. rewrite <- El in *.
  pose proof Hl as Hl'. rewrite El in Hl'. cbn [rep] in Hl'. destruct Hl' as (Hlx & nl & Hnl & _). rewrite Hlx in *.
  assert (Hlxl : In lx (addrs l)) by (rewrite El, addrs_T, in_app_iff; cbn; auto).
  unfold set_par at 1, deref at 1. rewrite Hh1 by (intros H; eapply HL; eauto). rewrite Hnl. cbn [bind].
  set (b2 := store b1 lx _).
  assert (R2l : rep (b_heap b2) (Some ar) (Some lx) l).
  { unfold b2. cbn [store b_heap]. eapply rep_par; [exact El| | |].
    - eapply rep_ext; [|exact Hl]. intros x Hx. apply Hh1. intros H. eapply HL; eauto.
    - rewrite Hh1 by (intros H; eapply HL; eauto). exact Hnl.
    - eapply NoDup_app_remove_r; eauto. }
  assert (R2r : rep (b_heap b2) (Some cur) (n_right n) r).
  { eapply rep_ext; [|exact Hr]. intros x Hx. unfold b2. cbn [store b_heap]. destruct (Nat.eqb_spec x lx); [subst; exfalso; eapply HLR; eauto|].
    apply Hh1. intros H. eapply HRr; eauto. }
  assert (Z2 : zip (b_heap b2) (b_root b2) fs p (Some ar)).
  { unfold b2. cbn [store b_heap b_root]. eapply zip_ext; [|exact HZ1]. cbn beta. intros x Hx.
    destruct (Nat.eqb_spec x lx); [subst; exfalso; eapply HL; eauto|reflexivity]. }
  assert (H2 : same_rest (fun x => In x (faddrs fs) \/ In x (addrs l)) b b2).
  { unfold b2. repeat split; cbn [store b_next b_free b_heap]; auto. intros x Hx.
    destruct (Nat.eqb_spec x lx); [subst; tauto|]. apply Hh1. tauto. }
  clearbody b2. destruct H2 as (Hn2 & Hf2 & Hh2).
  assert (HS : exists b3, match n_right n with Some x => set_par b2 x (Some ar) | None => Ret b2 end = Ret b3 /\
     rep (b_heap b3) (Some ar) (n_right n) r /\ b_root b3 = b_root b2 /\ same_rest (fun x => In x (addrs r)) b2 b3).
  { destruct r as [|rl rx rd rr] eqn:Er.
    - cbn [rep] in R2r. rewrite R2r. exists b2. split; [reflexivity|]. repeat split; auto.
    - rewrite <- Er in *. pose proof R2r as R2r'. rewrite Er in R2r'. cbn [rep] in R2r'. destruct R2r' as (Hrx & nr & Hnr & _). rewrite Hrx in *.
      unfold set_par, deref. rewrite Hnr. cbn [bind]. eexists. split; [reflexivity|]. cbn [store b_heap b_root]. split; [|split].
      + eapply rep_par; eauto. eapply NoDup_app_remove_l; eauto.
      + reflexivity.
      + repeat split; auto. cbn [store b_heap]. intros x Hx. destruct (Nat.eqb_spec x rx); [|reflexivity]. subst x. elim Hx.
        rewrite Er, addrs_T, in_app_iff. cbn. auto. }
  destruct HS as (b3 & HS & R3r & Hr3 & Hn3 & Hf3 & Hh3). rewrite HS. cbn [bind].
  unfold deref. rewrite Hh3 by exact Ar2. rewrite Hh2 by tauto. rewrite Hm0. cbn [bind]. eexists. split; [reflexivity|]. split.
  - cbn [store b_heap b_root]. apply rep_plug. exists p, (Some ar). split.
    + rewrite Hr3. eapply zip_ext; [|exact Z2]. cbn beta. intros x Hx. destruct (Nat.eqb_spec x ar); [subst; tauto|]. apply Hh3. intros H. eapply HRr; eauto.
    + cbn [rep]. split; [reflexivity|]. rewrite Nat.eqb_refl. eexists. split; [reflexivity|]. cbn [n_par n_data n_left n_right]. repeat split; auto.
      * eapply rep_ext; [|exact R2l]. cbn beta. intros x Hx. destruct (Nat.eqb_spec x ar); [subst; tauto|]. apply Hh3. intros H. eapply HLR; eauto.
      * eapply rep_ext; [|exact R3r]. cbn beta. intros x Hx. destruct (Nat.eqb_spec x ar); [subst; tauto|reflexivity].
  - split; [cbn; congruence|]. split; [cbn; congruence|]. cbn [store b_heap]. intros x Hx.
    destruct (Nat.eqb_spec x ar); [subst; tauto|]. rewrite Hh3 by tauto. apply Hh2. tauto.
Qed.

(** The tree after deletion. *)
Inductive deleted : tree -> nat -> tree -> Prop :=
| DelOne fs l a d r : l = Leaf \/ r = Leaf -> deleted (plug fs (T l a d r)) a (plug fs (match l with Leaf => r | _ => l end))
| DelTwo fs l a d gs m md mr : l <> Leaf -> before gs = [] ->
    deleted (plug fs (T l a d (plug gs (T Leaf m md mr)))) a (plug fs (T l m md (plug gs mr))).

Lemma deleted_elems t a t' : deleted t a t' -> exists d e1 e2, elems t = e1 ++ (a, d) :: e2 /\ elems t' = e1 ++ e2.
Proof.
  intros [fs l x d r Hlr|fs l x d gs m md mr Hl Hb].
  - exists d, (before fs ++ elems l), (elems r ++ after fs). rewrite !elems_plug. cbn [elems]. rewrite <- !app_assoc. cbn [app].
    split; [reflexivity|]. destruct Hlr as [-> | ->].
    + reflexivity.
    + destruct l; cbn [elems]; [reflexivity|]. reflexivity.
  - exists d, (before fs ++ elems l), (((m, md) :: elems mr ++ after gs) ++ after fs). rewrite !elems_plug. cbn [elems].
    rewrite !elems_plug, Hb. cbn [elems app]. rewrite <- !app_assoc. cbn [app]. rewrite <- !app_assoc. cbn [app]. auto.
Qed.

Lemma finish_delete b b2 t t' a fl d : binv b t fl -> rep (b_heap b2) None (b_root b2) t' -> deleted t a t' -> In (a, d) (elems t) ->
  same_rest (fun x => In x (addrs t)) b b2 ->
  (exists n, b_heap b2 a = Some n) ->
  exists b', (let! b3 := set_right b2 a (b_free b2) in Ret (set_free b3 (Some a))) = Ret b' /\ binv b' t' (a :: fl).
Proof. clear cmp.
  intros HB HR2 HD HI (Hn & Hf & Hh) [n Ha]. unfold set_right, deref. rewrite Ha. cbn [bind]. eexists. split; [reflexivity|].
  destruct (deleted_elems _ _ _ HD) as (d' & e1 & e2 & E1 & E2).
  assert (HP : Permutation (addrs t) (a :: addrs t')).
  { unfold addrs. rewrite E1, E2, !map_app. cbn [map fst]. symmetry. apply Permutation_middle. }
  assert (Hat : ~ In a (addrs t')).
  { intros H. pose proof (binv_nodup _ _ _ HB) as ND. eapply Permutation_NoDup in ND; [|exact HP]. inversion ND; auto. }
  assert (HP2 : Permutation (addrs t ++ fl) (addrs t' ++ a :: fl)). { rewrite HP. cbn [app]. apply Permutation_middle. }
  destruct HB as [HR HF ND HA]. constructor; cbn [store set_free b_heap b_root b_free b_next].
  - eapply rep_ext; [|exact HR2]. cbn beta. intros x Hx. destruct (Nat.eqb_spec x a); [subst; tauto|reflexivity].
  - cbn [flist]. split; [reflexivity|]. rewrite Nat.eqb_refl. eexists. split; [reflexivity|]. cbn [n_right].
    rewrite Hf. eapply flist_ext; [|exact HF]. cbn beta. intros x Hx. destruct (Nat.eqb_spec x a).
    + subst. exfalso. eapply nodup_app_disj; [exact ND| |exact Hx]. eapply Permutation_in; [symmetry; exact HP|cbn; auto].
    + apply Hh. intros H. eapply nodup_app_disj; eauto.
  - eapply Permutation_NoDup; eauto.
  - intros x. rewrite Hn, <- HA. split; intros H; (eapply Permutation_in; [|exact H]); [symmetry; exact HP2|exact HP2].
Qed.

Lemma bst_delete_at b t fl fs l a d r : binv b t fl -> t = plug fs (T l a d r) ->
  exists b' t', bst_delete b a = Ret b' /\ (forall d', deleted (plug fs (T l a d' r)) a t') /\ binv b' t' (a :: fl).
Proof. clear cmp.
  intros HB E.
  assert (HI : In (a, d) (elems t)) by (rewrite E, elems_plug; cbn [elems]; rewrite !in_app_iff; cbn; auto).
  pose proof (bi_rep _ _ _ HB) as HR. pose proof (binv_nodup _ _ _ HB) as ND.
  pose proof HR as HR0. rewrite E in HR0. apply rep_plug in HR0. destruct HR0 as (p & o & HZ & HR0). cbn [rep] in HR0.
  destruct HR0 as (-> & n & Hn & Hp & Hd & Hl & Hr).
  destruct (nodup_plug fs (T l a d r) ltac:(rewrite <- E; exact ND)) as (N1 & N2 & N3).
  assert (Ha : ~ In a (faddrs fs)) by (intros H; apply (N3 a); [rewrite addrs_T, in_app_iff; cbn; auto|exact H]).
  rewrite addrs_T in N1. pose proof (NoDup_remove_2 _ _ _ N1) as Na. rewrite in_app_iff in Na.
  assert (Hin : forall x, In x (faddrs fs) \/ In x (addrs l) \/ In x (addrs r) -> In x (addrs t)).
  { intros x. rewrite E. unfold addrs at 3. rewrite elems_plug. cbn [elems]. rewrite !map_app, !in_app_iff. cbn [map In fst].
    unfold faddrs, addrs. rewrite in_app_iff. tauto. }
  unfold bst_delete. unfold deref at 1. rewrite Hn. cbn [bind].
  assert (Hcase : (l = Leaf \/ r = Leaf) \/ (l <> Leaf /\ r <> Leaf)) by (destruct l, r; auto; right; split; discriminate).
  destruct Hcase as [Hlr|[Hl0 Hr0]].
  - assert (EA : match n_left n, n_right n with
             | Some _, Some _ => let! s := bst_successor b a in match s with Some x => Ret x | None => UBR end
             | _, _ => Ret a end = Ret a).
    { destruct Hlr as [-> | ->]; cbn [rep] in Hl, Hr; [rewrite Hl; reflexivity|rewrite Hr; destruct (n_left n); reflexivity]. }
    rewrite EA. cbn [bind].
    destruct (splice_out_ok b fs a d l r ltac:(rewrite <- E; exact HR) ltac:(rewrite <- E; exact ND) Hlr) as (b1 & HE1 & HR1 & Hn1 & Hf1 & Hh1).
    rewrite HE1. cbn [bind]. rewrite Nat.eqb_refl. cbn [bind].
    assert (HD0 : forall d', deleted (plug fs (T l a d' r)) a (plug fs (match l with Leaf => r | _ => l end))) by (intros; now constructor).
    assert (HD : deleted t a (plug fs (match l with Leaf => r | _ => l end))) by (rewrite E; now constructor).
    destruct (finish_delete b b1 t _ a fl d HB HR1 HD HI) as (b' & HE & HB').
    + split; [exact Hn1|]. split; [exact Hf1|]. intros x Hx. apply Hh1. intros H. apply Hx, Hin. exact H.
    + rewrite Hh1 by tauto. eauto.
    + exists b'. eexists. split; [exact HE|]. split; [exact HD0|exact HB'].
  - destruct (leftmost r Hr0) as (gs & m & md & mr & Er & Hb).
    assert (EA : match n_left n, n_right n with
             | Some _, Some _ => let! s := bst_successor b a in match s with Some x => Ret x | None => UBR end
             | _, _ => Ret a end = Ret m).
    { rewrite (bst_successor_ok b t fl fs l a d r HB E). rewrite Er, elems_plug, Hb. cbn [elems app fst bind].
      destruct l as [|ll la ld lr]; [congruence|]. cbn [rep] in Hl. destruct Hl as [-> _].
      destruct r as [|rl ra rd rr]; [congruence|]. cbn [rep] in Hr. destruct Hr as [-> _]. reflexivity. }
    rewrite EA. cbn [bind].
    set (FS := gs ++ FR l a d :: fs).
    assert (E2 : t = plug FS (T Leaf m md mr)) by (unfold FS; rewrite plug_app, <- Er; exact E).
    destruct (splice_out_ok b FS m md Leaf mr ltac:(rewrite <- E2; exact HR) ltac:(rewrite <- E2; exact ND) ltac:(auto)) as (b1 & HE1 & HR1 & Hn1 & Hf1 & Hh1).
    rewrite HE1. cbn [bind].
    assert (Emr : plug FS mr = plug fs (T l a d (plug gs mr))) by (unfold FS; rewrite plug_app; reflexivity).
    rewrite Emr in HR1.
    assert (Hma : Nat.eqb m a = false).
    { apply Nat.eqb_neq. intros ->. apply Na. right. rewrite Er. unfold addrs. rewrite elems_plug. cbn [elems]. rewrite !map_app, !in_app_iff. cbn. auto. }
    rewrite Hma. pose proof HR as HRm. rewrite E2 in HRm. apply rep_plug in HRm. destruct HRm as (p' & o' & _ & HRm).
    cbn [rep] in HRm. destruct HRm as (_ & m0 & Hm0 & _ & Hmd & _).
    assert (D1 : deleted t m (plug FS mr)) by (rewrite E2; apply (DelOne FS Leaf m md mr); auto).
    destruct (deleted_elems _ _ _ D1) as (d1 & e1 & e2 & X1 & X2).
    assert (HP : Permutation (addrs t) (m :: addrs (plug FS mr))).
    { unfold addrs. rewrite X1, X2, !map_app. cbn [map fst]. symmetry. apply Permutation_middle. }
    assert (ND1 : NoDup (m :: addrs (plug FS mr))) by (eapply Permutation_NoDup; eauto).
    inversion ND1 as [|? ? Hm1 ND2]; subst x l0. rewrite Emr in Hm1, ND2.
    assert (Hmb : b_heap b1 m = Some m0).
    { rewrite Hh1; [exact Hm0|]. intros H. apply Hm1. rewrite <- Emr.
      unfold addrs. rewrite elems_plug, !map_app, !in_app_iff. unfold faddrs in H. rewrite in_app_iff in H. cbn [addrs elems map In] in H. unfold addrs in H. tauto. }
    destruct (replace_node_ok b1 fs a m l d md (plug gs mr) m0 HR1 ND2 Hl0 Hmb Hmd Hm1) as (b2 & HE2 & HR2 & Hn2 & Hf2 & Hh2).
    rewrite HE2. cbn [bind].
    assert (HD0 : forall d', deleted (plug fs (T l a d' r)) a (plug fs (T l m md (plug gs mr)))) by (intros; rewrite Er; now constructor).
    assert (HD : deleted t a (plug fs (T l m md (plug gs mr)))) by (rewrite E; apply HD0).
    assert (Hsub : forall x, In x (addrs (plug gs mr)) -> In x (addrs r)).
    { intros x. rewrite Er. unfold addrs. rewrite !elems_plug, !map_app, !in_app_iff. cbn [elems app map fst In]. tauto. }
    assert (Hmr : In m (addrs r)).
    { rewrite Er. unfold addrs. rewrite !elems_plug, !map_app, !in_app_iff. cbn [elems app map fst In]. tauto. }
    destruct (finish_delete b b2 t _ a fl d HB HR2 HD HI) as (b' & HE & HB').
    + split; [congruence|]. split; [congruence|]. intros x Hx. rewrite Hh2; [apply Hh1|].
      * intros H. apply Hx. eapply Permutation_in; [symmetry; exact HP|]. right.
        unfold addrs. rewrite elems_plug, !map_app, !in_app_iff. unfold faddrs in H. rewrite in_app_iff in H. cbn [addrs elems map In] in H. unfold addrs in H. tauto.
      * intros H. apply Hx, Hin. destruct H as [H|[H|[H|H]]]; auto. subst. auto.
    + cbn [rep] in HR1. apply rep_plug in HR1. destruct HR1 as (q & o2 & _ & HR1). cbn [rep] in HR1. destruct HR1 as (_ & n2 & Hn2' & _).
      exists n2. rewrite Hh2; [exact Hn2'|]. intros H. destruct H as [H|[H|[H|H]]]; [tauto|tauto| |].
      * apply Na. right. apply Hsub. exact H.
      * apply Nat.eqb_neq in Hma. congruence.
    + exists b'. eexists. split; [exact HE|]. split; [exact HD0|exact HB'].
Qed.

Lemma bst_delete_ok b t fl a d : binv b t fl -> In (a, d) (elems t) ->
  exists b' t', bst_delete b a = Ret b' /\ deleted t a t' /\ binv b' t' (a :: fl).
Proof.
  intros HB HI. destruct (locate a d t HI) as (fs & l & r & E).
  destruct (bst_delete_at b t fl fs l a d r HB E) as (b' & t' & H1 & H2 & H3). exists b', t'. rewrite E. auto.
Qed.

(** Overwriting the data of an element. *)
Lemma store_data b t fl fs l a d r n d' : binv b t fl -> t = plug fs (T l a d r) -> b_heap b a = Some n ->
  binv (store b a (mk_node (n_par n) (n_left n) (n_right n) d')) (plug fs (T l a d' r)) fl.
Proof. clear cmp.
  intros HB E Hn. pose proof (binv_nodup _ _ _ HB) as ND. pose proof HB as [HR HF NDF HA]. rewrite E in *.
  destruct (nodup_plug _ _ ND) as (N1 & N2 & N3). rewrite addrs_T in N1.
  pose proof (NoDup_remove_2 _ _ _ N1) as Na. rewrite in_app_iff in Na.
  assert (EA : addrs (plug fs (T l a d' r)) = addrs (plug fs (T l a d r))).
  { unfold addrs. rewrite !elems_plug. cbn [elems]. rewrite !map_app. reflexivity. }
  constructor; cbn [store b_heap b_root b_free b_next]; rewrite ?EA; auto.
  - apply rep_plug in HR. destruct HR as (p & o & HZ & HR). apply rep_plug. exists p, o. split.
    + eapply zip_ext; [|exact HZ]. cbn beta. intros x Hx. destruct (Nat.eqb_spec x a); [|reflexivity]. subst. exfalso.
      apply (N3 a); [rewrite addrs_T, in_app_iff; cbn; auto|exact Hx].
    + cbn [rep] in *. destruct HR as (-> & n' & Hn' & Hp & Hd & Hl & Hr). rewrite Hn in Hn'. injection Hn' as <-.
      split; [reflexivity|]. rewrite Nat.eqb_refl. eexists. split; [reflexivity|]. cbn [n_par n_data n_left n_right]. repeat split; auto.
      * eapply rep_ext; [|exact Hl]. cbn beta. intros x Hx. destruct (Nat.eqb_spec x a); [subst; tauto|reflexivity].
      * eapply rep_ext; [|exact Hr]. cbn beta. intros x Hx. destruct (Nat.eqb_spec x a); [subst; tauto|reflexivity].
  - eapply flist_ext; [|exact HF]. cbn beta. intros x Hx. destruct (Nat.eqb_spec x a); [|reflexivity]. subst. exfalso.
    eapply nodup_app_disj; [exact NDF| |exact Hx]. unfold addrs. rewrite elems_plug. cbn [elems]. rewrite !map_app, !in_app_iff. cbn. auto.
Qed.
Lemma binv_deref b t fl a d : binv b t fl -> In (a, d) (elems t) -> exists n, b_heap b a = Some n /\ n_data n = d.
Proof.
  intros HB HI. destruct (locate a d t HI) as (fs & l & r & E). pose proof (bi_rep _ _ _ HB) as HR. rewrite E in HR.
  apply rep_plug in HR. destruct HR as (p & o & _ & HR). cbn [rep] in HR. destruct HR as (_ & n & Hn & _ & Hd & _). eauto.
Qed.

(** ** Order after deletion *)
Lemma ord_plug fs : forall t t', ord (plug fs t) -> ord t' -> incl (elems t') (elems t) -> ord (plug fs t').
Proof.
  induction fs as [|[a d r|l a d] fs IH]; intros t t' HO HO' HI; cbn [plug] in *; [exact HO'| |].
  - assert (HT : ord (T t a d r)).
    { clear - HO. revert HO. generalize (T t a d r). clear. induction fs as [|[a d r|l a d] fs IH]; intros s H; cbn [plug] in H; auto;
        apply IH in H; cbn [ord] in H; tauto. }
    eapply IH; [exact HO| |].
    + cbn [ord] in *. destruct HT as (H1 & H2 & H3 & H4). repeat split; auto.
    + cbn [elems]. intros x. rewrite !in_app_iff. intros [H|H]; auto.
  - assert (HT : ord (T l a d t)).
    { clear - HO. revert HO. generalize (T l a d t). clear. induction fs as [|[a d r|l a d] fs IH]; intros s H; cbn [plug] in H; auto;
        apply IH in H; cbn [ord] in H; tauto. }
    eapply IH; [exact HO| |].
    + cbn [ord] in *. destruct HT as (H1 & H2 & H3 & H4). repeat split; auto.
    + cbn [elems]. intros x. rewrite !in_app_iff. cbn [In]. intros [H|[H|H]]; auto.
Qed.
Lemma ord_sub fs : forall t, ord (plug fs t) -> ord t.
Proof. induction fs as [|[a d r|l a d] fs IH]; intros s H; cbn [plug] in H; auto; apply IH in H; cbn [ord] in H; tauto. Qed.

(** [P] is a set of elements on which the comparison is a total preorder. *)
Definition preorder_on (P : D -> Prop) : Prop :=
  (forall x y, P x -> P y -> cmp x y <= 0 -> 0 <= cmp y x) /\
  (forall x y, P x -> P y -> 0 <= cmp x y -> cmp y x <= 0) /\
  (forall x y z, P x -> P y -> P z -> cmp x y <= 0 -> cmp y z <= 0 -> cmp x z <= 0).

(** All elements of the frames and right subtrees left of the hole come after the hole's elements. *)
Lemma after_ge P fs t : preorder_on P -> before fs = [] -> ord (plug fs t) -> (forall x, In x (elems (plug fs t)) -> P (snd x)) ->
  forall x y, In x (elems t) -> In y (after fs) -> 0 <= cmp (snd y) (snd x).
Proof.
  intros (HS1 & HS2 & HT). revert t. induction fs as [|[a d r|l a d] fs IH]; intros t Hb HO HP x y Hx Hy; cbn [after plug before] in *.
  - destruct Hy.
  - pose proof (ord_sub fs _ HO) as HO1. cbn [ord] in HO1. destruct HO1 as (H1 & H2 & _ & _).
    assert (Px : P (snd x)). { apply HP. rewrite elems_plug. cbn [elems]. rewrite !in_app_iff. auto. }
    assert (Pd : P d). { apply (HP (a, d)). rewrite elems_plug. cbn [elems]. rewrite !in_app_iff. cbn. auto. }
    specialize (H1 _ Hx). destruct Hy as [<-|Hy].
    + cbn [snd]. apply HS1; auto.
    + apply in_app_iff in Hy. destruct Hy as [Hy|Hy].
      * specialize (H2 _ Hy). assert (Py : P (snd y)). { apply HP. rewrite elems_plug. cbn [elems]. rewrite !in_app_iff. cbn. auto. }
        apply HS1; auto. apply (HT _ d); auto.
      * eapply (IH (T t a d r)); eauto. cbn [elems]. rewrite in_app_iff. auto.
  - destruct (before fs); [destruct (elems l)|]; discriminate.
Qed.

Lemma ord_deleted P t a t' : preorder_on P -> (forall x, In x (elems t) -> P (snd x)) -> ord t -> deleted t a t' -> ord t'.
Proof.
  intros HPre HP HO HD. pose proof HPre as (HS1 & HS2 & HT). destruct HD as [fs l x d r Hlr|fs l x d gs m md mr Hl Hb].
  - pose proof (ord_sub fs _ HO) as H. cbn [ord] in H. destruct H as (_ & _ & H3 & H4).
    eapply ord_plug; [exact HO| |].
    + destruct l; auto.
    + cbn [elems]. intros y Hy. rewrite in_app_iff. cbn [In]. destruct l; auto.
  - pose proof (ord_sub fs _ HO) as H. cbn [ord] in H. destruct H as (H1 & H2 & H3 & H4).
    assert (HPin : forall y, In y (elems (T l x d (plug gs (T Leaf m md mr)))) -> P (snd y)).
    { intros y Hy. apply HP. rewrite elems_plug, !in_app_iff. auto. }
    cbn [elems] in HPin.
    assert (Hm : In (m, md) (elems (plug gs (T Leaf m md mr)))) by (rewrite elems_plug; cbn [elems]; rewrite !in_app_iff; cbn; auto).
    eapply ord_plug; [exact HO| |].
    + cbn [ord]. repeat split; auto.
      * intros y Hy. specialize (H1 _ Hy). specialize (H2 _ Hm). cbn [snd] in H2.
        apply (HT _ d); auto.
        -- apply HPin. apply in_app_iff. auto.
        -- apply (HPin (x, d)), in_app_iff. cbn. auto.
        -- apply (HPin (m, md)), in_app_iff. cbn. auto.
        -- apply HS2; auto; [apply (HPin (m, md))|apply (HPin (x, d))]; apply in_app_iff; cbn; auto.
      * intros y Hy. rewrite elems_plug, Hb in Hy. cbn [app] in Hy. apply in_app_iff in Hy. destruct Hy as [Hy|Hy].
        -- pose proof (ord_sub gs _ H4) as H5. cbn [ord] in H5. apply H5. exact Hy.
        -- apply (after_ge P gs (T Leaf m md mr) HPre Hb H4 ltac:(intros; apply HPin, in_app_iff; cbn; auto) (m, md) y); [cbn; auto|exact Hy].
      * eapply ord_plug; [exact H4| |].
        -- pose proof (ord_sub gs _ H4) as H5. cbn [ord] in H5. tauto.
        -- cbn [elems app]. intros y Hy. right. exact Hy.
    + cbn [elems]. intros y. rewrite !in_app_iff. cbn [In]. intros [Hy|[Hy|Hy]]; auto.
      * subst. right. right. exact Hm.
      * right. right. rewrite elems_plug, !in_app_iff in Hy. rewrite elems_plug, !in_app_iff. cbn [elems app In]. tauto.
Qed.

End BstProofs.
