(** Histories of the ordered set. *)
From Verif Require Import Base BaseFacts ListFacts Bst_Model Bst_Spec Bst_Proofs.
Require Import Permutation ZifyBool ZifyNat.
Set Default Proof Using "Type".

Section H.
Context {D : Type} (cmp : D -> D -> Z).
Notation tree := (@tree D).

Lemma orders_preorder P : orders cmp P -> preorder_on cmp P.
Proof.
  intros (H1 & H2). repeat split; auto; intros x y Hx Hy H; pose proof (H1 x y Hx Hy); pose proof (H1 y x Hy Hx); lia.
Qed.

Lemma drop_spec (a : nat) (e1 e2 : list (nat * D)) d : NoDup (map fst (e1 ++ (a, d) :: e2)) -> drop a (e1 ++ (a, d) :: e2) = e1 ++ e2.
Proof. clear cmp.
  intros ND. unfold drop. rewrite filter_app. cbn [filter fst]. rewrite Nat.eqb_refl. cbn [negb].
  rewrite map_app in ND. cbn [map fst] in ND. pose proof (NoDup_remove_2 _ _ _ ND) as Hn. rewrite in_app_iff in Hn.
  assert (HF : forall l : list (nat * D), ~ In a (map fst l) -> filter (fun x => negb (Nat.eqb (fst x) a)) l = l).
  { induction l as [|x l IH]; cbn [filter map In]; intros H; [reflexivity|]. destruct (Nat.eqb_spec (fst x) a); [tauto|]. cbn [negb]. rewrite IH; tauto. }
  rewrite !HF by tauto. reflexivity.
Qed.
Lemma drop_perm (a : nat) (l m : list (nat * D)) : Permutation l m -> Permutation (drop a l) (drop a m).
Proof.
  unfold drop. induction 1; cbn [filter]; auto.
  - destruct (negb (Nat.eqb (fst x) a)); auto.
  - destruct (negb (Nat.eqb (fst x) a)), (negb (Nat.eqb (fst y) a)); auto. constructor.
  - etransitivity; eauto.
Qed.
Lemma drop_in (a x : nat) d (l : list (nat * D)) : In (x, d) (drop a l) <-> In (x, d) l /\ x <> a.
Proof. clear cmp. unfold drop. rewrite filter_In. cbn [fst]. destruct (Nat.eqb_spec x a); cbn; intuition congruence. Qed.
Lemma deleted_drop (t : tree) a t' live : NoDup (addrs t) -> deleted t a t' -> Permutation (elems t) live -> Permutation (elems t') (drop a live).
Proof.
  intros ND HD HP. destruct (deleted_elems _ _ _ HD) as (d & e1 & e2 & E1 & E2). rewrite E2.
  rewrite <- (drop_perm a _ _ HP), E1. rewrite (drop_spec a e1 e2 d); [reflexivity|]. unfold addrs in ND. rewrite E1 in ND. exact ND.
Qed.

(** The invariant of every history. *)
Lemma history_inv P b live : history cmp P b live -> exists t fl, binv b t fl /\ Permutation (elems t) live /\
  (forall x, In x live -> P (snd x)) /\ (orders cmp P -> ord cmp t).
Proof.
  induction 1 as [|b live d a b' HH (t & fl & HB & HP & HPP & HO) Hd HE|b live a d b' HH (t & fl & HB & HP & HPP & HO) HI HE].
  - exists Leaf, []. split; [apply binv_init|]. repeat split; auto. intros x [].
  - destruct (bst_add_ok cmp b t fl d HB) as (a' & b2 & fl' & HE' & Ha & HB'). rewrite HE in HE'. injection HE' as <- <-.
    exists (ins cmp d a t), fl'. split; [exact HB'|]. split; [rewrite ins_elems; now constructor|]. split.
    + intros x [<-|Hx]; auto.
    + intros Ho. apply ord_ins. auto.
  - assert (HI' : In (a, d) (elems t)) by (eapply Permutation_in; [symmetry; exact HP|exact HI]).
    destruct (bst_delete_ok b t fl a d HB HI') as (b2 & t' & HE' & HD & HB'). rewrite HE in HE'. injection HE' as <-.
    exists t', (a :: fl). split; [exact HB'|]. split; [eapply deleted_drop; eauto; eapply binv_nodup; eauto|]. split.
    + intros x Hx. apply HPP. unfold drop in Hx. apply filter_In in Hx. tauto.
    + intros Ho. eapply ord_deleted; eauto using orders_preorder. intros x Hx. apply HPP. eapply Permutation_in; eauto.
Qed.

Lemma equiv_sgn P k x y : orders cmp P -> P k -> P x -> P y -> cmp k x = 0 -> Z.sgn (cmp k y) = Z.sgn (cmp x y).
Proof.
  intros (HS & HT) Hk Hx Hy H0. pose proof (HS k x Hk Hx) as A1. pose proof (HS k y Hk Hy) as A2. pose proof (HS x y Hx Hy) as A3.
  pose proof (HS y k Hy Hk) as A4. pose proof (HS y x Hy Hx) as A5.
  pose proof (HT k x y Hk Hx Hy) as T1. pose proof (HT x k y Hx Hk Hy) as T2. pose proof (HT y x k Hy Hx Hk) as T3. pose proof (HT y k x Hy Hk Hx) as T4. lia.
Qed.
Lemma orders_refl P x : orders cmp P -> P x -> cmp x x = 0.
Proof. intros (HS & HT) Hx. pose proof (HS x x Hx Hx). lia. Qed.

(** Elements that are equal to the left only. *)
Fixpoint sord (t : tree) : Prop :=
  match t with
  | Leaf => True
  | T l a d r => (forall x, In x (elems l) -> cmp (snd x) d <= 0) /\ (forall x, In x (elems r) -> 0 < cmp (snd x) d) /\ sord l /\ sord r
  end.
Lemma sord_ins d a t : sord t -> sord (ins cmp d a t).
Proof.
  induction t as [|l IHl x e r IHr]; cbn [sord ins]; intros H; [cbn; repeat split; auto; intros ? []|].
  destruct H as (H1 & H2 & H3 & H4). destruct (cmp d e <=? 0) eqn:E; cbn [sord]; repeat split; auto.
  - intros y Hy. apply (Permutation_in _ (ins_elems cmp d a l)) in Hy. destruct Hy as [<-|Hy]; [cbn; lia|auto].
  - intros y Hy. apply (Permutation_in _ (ins_elems cmp d a r)) in Hy. destruct Hy as [<-|Hy]; [cbn; lia|auto].
Qed.
Lemma sord_ord t : sord t -> ord cmp t.
Proof.
  induction t as [|l IHl x e r IHr]; cbn [sord ord]; [auto|]. intros (H1 & H2 & H3 & H4). repeat split; auto. intros y Hy. specialize (H2 y Hy). lia.
Qed.
Lemma additions_inv P b live : additions cmp P b live -> exists t fl, binv b t fl /\ Permutation (elems t) live /\
  (forall x, In x live -> P (snd x)) /\ sord t.
Proof.
  induction 1 as [|b live d a b' HH (t & fl & HB & HP & HPP & HO) Hd HE].
  - exists Leaf, []. split; [apply binv_init|]. repeat split; auto. intros x [].
  - destruct (bst_add_ok cmp b t fl d HB) as (a' & b2 & fl' & HE' & Ha & HB'). rewrite HE in HE'. injection HE' as <- <-.
    exists (ins cmp d a t), fl'. split; [exact HB'|]. split; [rewrite ins_elems; now constructor|]. split.
    + intros x [<-|Hx]; auto.
    + apply sord_ins. auto.
Qed.

Lemma srch_split P k t a : orders cmp P -> P k -> (forall x, In x (elems t) -> P (snd x)) -> sord t -> srch cmp k t = Some a ->
  exists gs l d r, t = plug gs (T l a d r) /\ cmp k d = 0 /\ sord l /\
    forall x, In x (elems t) -> cmp k (snd x) = 0 -> x = (a, d) \/ In x (elems l).
Proof.
  intros (HS & HT) Hk. induction t as [|l IHl y e r IHr]; cbn [srch sord elems]; intros HP HO HE; [discriminate|].
  destruct HO as (H1 & H2 & H3 & H4).
  assert (Pe : P e) by (apply (HP (y, e)), in_app_iff; cbn; auto). pose proof (HS k e Hk Pe) as Ske. pose proof (HS e k Pe Hk) as Sek.
  destruct (cmp k e =? 0) eqn:E0.
  - injection HE as ->. exists [], l, e, r. split; [reflexivity|]. split; [lia|]. split; [auto|].
    intros x Hx Hk0. apply in_app_iff in Hx. cbn [In] in Hx. destruct Hx as [Hx|[Hx|Hx]]; auto. exfalso.
    assert (Px : P (snd x)) by (apply HP, in_app_iff; cbn; auto). specialize (H2 _ Hx).
    pose proof (HS k (snd x) Hk Px). pose proof (HT (snd x) k e Px Hk Pe). lia.
  - destruct (cmp k e <? 0) eqn:E1.
    + destruct (IHl ltac:(intros x Hx; apply HP, in_app_iff; auto) H3 HE) as (gs & l' & d & r' & E & Hd & Hl & HA).
      exists (gs ++ [FL y e r]), l', d, r'. split; [rewrite plug_app; cbn [plug]; congruence|]. split; [exact Hd|]. split; [exact Hl|].
      intros x Hx Hk0. apply in_app_iff in Hx. cbn [In] in Hx. destruct Hx as [Hx|[Hx|Hx]]; auto; exfalso.
      * subst x. cbn [snd] in *. lia.
      * assert (Px : P (snd x)) by (apply HP, in_app_iff; cbn; auto). specialize (H2 _ Hx).
        pose proof (HS k (snd x) Hk Px). pose proof (HT (snd x) k e Px Hk Pe). lia.
    + destruct (IHr ltac:(intros x Hx; apply HP, in_app_iff; cbn; auto) H4 HE) as (gs & l' & d & r' & E & Hd & Hl & HA).
      exists (gs ++ [FR l y e]), l', d, r'. split; [rewrite plug_app; cbn [plug]; congruence|]. split; [exact Hd|]. split; [exact Hl|].
      intros x Hx Hk0. apply in_app_iff in Hx. cbn [In] in Hx. destruct Hx as [Hx|[Hx|Hx]]; auto; exfalso.
      * assert (Px : P (snd x)) by (apply HP, in_app_iff; cbn; auto). specialize (H1 _ Hx).
        pose proof (HS k (snd x) Hk Px). pose proof (HT k (snd x) e Hk Px Pe). lia.
      * subst x. cbn [snd] in *. lia.
Qed.

Lemma srch_none P k t : orders cmp P -> P k -> (forall x, In x (elems t) -> P (snd x)) -> ord cmp t -> srch cmp k t = None ->
  forall x, In x (elems t) -> cmp k (snd x) <> 0.
Proof.
  intros HO Hk HP Ho HE x Hx H0. destruct (srch_complete cmp k t x Ho Hx) as [a Ha]; [| |congruence].
  - intros y Hy. apply (equiv_sgn P); auto.
  - eapply orders_refl; eauto.
Qed.

Lemma search_all_ok P k : orders cmp P -> P k -> forall n t s b fl fuel last, (length (elems s) <= n)%nat -> (n < fuel)%nat ->
  binv b t fl -> (forall x, In x (elems s) -> P (snd x)) -> sord s ->
  bst_search cmp b k last = Ret (srch cmp k s) -> (exists fs, t = plug fs s) ->
  exists l, search_all cmp fuel b k last = Ret l /\ NoDup l /\ forall a, In a l <-> exists d, In (a, d) (elems s) /\ cmp k d = 0.
Proof.
  intros HO Hk. induction n as [|n IH]; intros t s b fl fuel last Hn Hf HB HP Hs HE [fs Et]; (destruct fuel as [|fuel]; [lia|]);
    cbn [search_all]; rewrite HE; cbn [bind]; destruct (srch cmp k s) as [a|] eqn:ES.
  - destruct s; [discriminate|]. cbn [elems] in Hn. rewrite app_length in Hn. cbn in Hn. lia.
  - exists []. split; [reflexivity|]. split; [constructor|]. intros a. split; [intros []|]. intros (d & Hd & H0).
    eapply (srch_none P k s HO Hk HP (sord_ord _ Hs) ES); eauto.
  - destruct (srch_split P k s a HO Hk HP Hs ES) as (gs & l & d & r & E & Hd & Hl & HA).
    assert (Et' : t = plug (gs ++ fs) (T l a d r)) by (rewrite plug_app; congruence).
    assert (HN : NoDup (addrs t)) by (eapply binv_nodup; eauto).
    assert (Hin : forall x, In x (elems l) -> In x (elems s)) by (intros x Hx; rewrite E, elems_plug; cbn [elems]; rewrite !in_app_iff; auto).
    destruct (IH t l b fl fuel (Some a)) as (l' & HE' & ND & HA'); auto.
    + rewrite E, elems_plug in Hn. cbn [elems] in Hn. rewrite !app_length in Hn. cbn [length] in Hn. lia.
    + lia.
    + eapply bst_search_last; eauto.
    + exists (FL a d r :: gs ++ fs). cbn [plug]. rewrite plug_app. congruence.
    + rewrite HE'. cbn [bind]. exists (a :: l'). split; [reflexivity|]. split.
      * constructor; auto. intros HI. apply HA' in HI. destruct HI as (e & He & _).
        rewrite Et' in HN. destruct (nodup_plug _ _ HN) as (N1 & _). rewrite addrs_T in N1. apply NoDup_remove_2 in N1. apply N1, in_app_iff. left.
        unfold addrs. apply in_map_iff. exists (a, e). auto.
      * intros x. cbn [In]. rewrite HA'. split.
        -- intros [<-|(e & He & H0)]; [exists d; split; [|exact Hd]; rewrite E, elems_plug; cbn [elems]; rewrite !in_app_iff; cbn; auto|eauto].
        -- intros (e & He & H0). destruct (HA (x, e) He H0) as [HE2|HE2]; [left; congruence|eauto].
  - exists []. split; [reflexivity|]. split; [constructor|]. intros a. split; [intros []|]. intros (d & Hd & H0).
    eapply (srch_none P k s HO Hk HP (sord_ord _ Hs) ES); eauto.
Qed.

Lemma visit_never_stop {S : Type} (cb : S -> nat -> D -> S * bool) l : (forall s a d, snd (cb s a d) = false) ->
  forall s, visit cb l (s, false) = (fold_left (fun s x => fst (cb s (fst x) (snd x))) l s, false).
Proof.
  intros HC. induction l as [|[a d] l IH]; intros s; cbn [visit fold_left fst snd]; [reflexivity|].
  destruct (cb s a d) as [s' f] eqn:E. pose proof (HC s a d) as H. rewrite E in H. cbn [snd] in H. subst f. cbn [fst]. apply IH.
Qed.

(** ** In-order traversal *)
Lemma locate_at (t : tree) e1 a d e2 : elems t = e1 ++ (a, d) :: e2 -> NoDup (addrs t) -> exists fs l r, t = plug fs (T l a d r) /\ elems r ++ after fs = e2.
Proof.
  intros E ND. destruct (locate a d t) as (fs & l & r & Et); [rewrite E; apply in_app_iff; cbn; auto|]. exists fs, l, r. split; [exact Et|].
  assert (E2 : elems t = (before fs ++ elems l) ++ (a, d) :: (elems r ++ after fs)) by (rewrite Et, elems_plug; cbn [elems]; rewrite <- !app_assoc; reflexivity).
  rewrite E in E2. unfold addrs in ND. rewrite E in ND. clear - E2 ND. revert E2 ND. generalize (before fs ++ elems l) as f1. generalize (elems r ++ after fs) as f2.
  induction e1 as [|x e1 IH]; intros f2 [|y f1] E ND; cbn [app] in E.
  - congruence.
  - exfalso. injection E as <- E. cbn [app map fst] in ND. inversion ND; subst. apply H1. rewrite map_app, in_app_iff. cbn. auto.
  - exfalso. injection E as -> E. subst. cbn [app map fst] in ND. inversion ND; subst. apply H1. rewrite map_app, in_app_iff. cbn. auto.
  - injection E as <- E. cbn [app map fst] in ND. inversion ND; subst. eauto.
Qed.
Lemma successors_ok b t fl : binv b t fl -> forall (e2 e1 : list (nat * D)) fuel, elems t = e1 ++ e2 -> (length e2 < fuel)%nat ->
  successors fuel b (match e2 with [] => None | x :: _ => Some (fst x) end) = Ret (map fst e2).
Proof. clear cmp.
  intros HB. induction e2 as [|[a d] e2 IH]; intros e1 fuel E Hf; (destruct fuel as [|fuel]; [cbn in Hf; lia|]); cbn [successors length] in *; [reflexivity|].
  destruct (locate_at t e1 a d e2 E (binv_nodup _ _ _ HB)) as (fs & l & r & Et & Ea). cbn [fst map].
  rewrite (bst_successor_ok b t fl fs l a d r HB Et), Ea. cbn [bind].
  rewrite (IH (e1 ++ [(a, d)])); [reflexivity|rewrite <- app_assoc; exact E|lia].
Qed.
Lemma ord_sorted P t : orders cmp P -> (forall x, In x (elems t) -> P (snd x)) -> ord cmp t ->
  forall e1 x e2 y e3, elems t = e1 ++ x :: e2 ++ y :: e3 -> cmp (snd x) (snd y) <= 0.
Proof.
  intros (HS & HT). 
  enough (HG : forall l, (forall x, In x (elems t) -> P (snd x)) -> ord cmp t -> l = elems t ->
          ForallOrdPairs (fun x y => cmp (snd x) (snd y) <= 0) l).
  { intros HP HO e1 x e2 y e3 E. specialize (HG _ HP HO eq_refl). rewrite E in HG. clear - HG. induction e1 as [|z e1 IH]; cbn [app] in HG; inversion HG; subst; auto.
    rewrite Forall_forall in H1. apply H1, in_app_iff. cbn. auto. }
  induction t as [|l IHl a d r IHr]; cbn [ord elems]; intros L HP HO ->; [constructor|]. destruct HO as (H1 & H2 & H3 & H4).
  assert (Il := IHl _ ltac:(intros x Hx; apply HP, in_app_iff; auto) H3 eq_refl).
  assert (Ir := IHr _ ltac:(intros x Hx; apply HP, in_app_iff; cbn; auto) H4 eq_refl).
  assert (Pd : P d) by (apply (HP (a, d)), in_app_iff; cbn; auto).
  assert (HdR : forall y, In y (elems r) -> cmp d (snd y) <= 0).
  { intros y Hy. specialize (H2 _ Hy). assert (Py : P (snd y)) by (apply HP, in_app_iff; cbn; auto). pose proof (HS (snd y) d Py Pd). pose proof (HS d (snd y) Pd Py). lia. }
  assert (HLR : forall x y, In x (elems l) -> In y (elems r) -> cmp (snd x) (snd y) <= 0).
  { intros x y Hx Hy. apply (HT _ d); auto; apply HP, in_app_iff; cbn; auto. }
  clear IHl IHr HP H3 H4. induction (elems l) as [|z L IH]; cbn [app].
  - constructor; [|exact Ir]. apply Forall_forall. intros y Hy. cbn [snd]. auto.
  - inversion Il; subst. constructor.
    + apply Forall_forall. intros y Hy. apply in_app_iff in Hy. cbn [In] in Hy. destruct Hy as [Hy|[<-|Hy]].
      * rewrite Forall_forall in H3. auto. * cbn [snd]. apply H1. cbn; auto. * apply HLR; cbn; auto.
    + apply IH; auto; intros; [apply H1|apply HLR]; cbn; auto.
Qed.
End H.
