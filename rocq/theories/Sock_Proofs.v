(** Proofs about the sets of sockets. *)
From Verif Require Import Base BaseFacts ListFacts Bst_Model Bst_Spec Bst_Proofs Bst2_Proofs Sock_Model Sock_Spec.
Require Import Permutation ZifyBool ZifyNat.
Set Default Proof Using "Type".

(** ** Deleting keeps the data in the nodes *)
Section Keep.
Context {D : Type}.
Definition keeps (b b' : bst D) : Prop := forall x n, b_heap b x = Some n -> exists n', b_heap b' x = Some n' /\ n_data n' = n_data n.
Lemma keeps_refl b : keeps b b.
Proof. intros x n H. eauto. Qed.
Lemma keeps_trans b b' b'' : keeps b b' -> keeps b' b'' -> keeps b b''.
Proof. intros H1 H2 x n H. destruct (H1 x n H) as (n' & H' & E). destruct (H2 x n' H') as (n'' & H'' & E'). exists n''. split; congruence. Qed.
Lemma keeps_store b a n m : b_heap b a = Some n -> n_data m = n_data n -> keeps b (store b a m).
Proof.
  intros H E x k Hx. cbn [store b_heap]. destruct (Nat.eqb_spec x a) as [->|N]; [|eauto]. exists m. split; [reflexivity|congruence].
Qed.
Lemma keeps_root b r : keeps b (set_root b r).
Proof. intros x n H. cbn. eauto. Qed.
Lemma keeps_free b r : keeps b (set_free b r).
Proof. intros x n H. cbn. eauto. Qed.
Lemma deref_some (b : bst D) a n : deref b a = Ret n -> b_heap b a = Some n.
Proof. unfold deref. destruct (b_heap b a); congruence. Qed.
Lemma bind_ret {A B} (o : outcome A) (f : A -> outcome B) v : bind o f = Ret v -> exists a, o = Ret a /\ f a = Ret v.
Proof. destruct o; cbn; try discriminate. eauto. Qed.
Lemma keeps_par b a v b' : set_par b a v = Ret b' -> keeps b b'.
Proof. unfold set_par. intros H. apply bind_ret in H. destruct H as (n & H & E). injection E as <-. eapply keeps_store; [apply deref_some; exact H|reflexivity]. Qed.
Lemma keeps_left b a v b' : set_left b a v = Ret b' -> keeps b b'.
Proof. unfold set_left. intros H. apply bind_ret in H. destruct H as (n & H & E). injection E as <-. eapply keeps_store; [apply deref_some; exact H|reflexivity]. Qed.
Lemma keeps_right b a v b' : set_right b a v = Ret b' -> keeps b b'.
Proof. unfold set_right. intros H. apply bind_ret in H. destruct H as (n & H & E). injection E as <-. eapply keeps_store; [apply deref_some; exact H|reflexivity]. Qed.
Lemma keeps_child b p o v b' : set_child b p o v = Ret b' -> keeps b b'.
Proof.
  unfold set_child. destruct p as [p|]; [|intros E; injection E as <-; apply keeps_root]. intros H. apply bind_ret in H. destruct H as (n & _ & H).
  destruct (ptr_eqb (n_left n) (Some o)); [eapply keeps_left|eapply keeps_right]; exact H.
Qed.
Lemma keeps_splice b a b' : splice_out b a = Ret b' -> keeps b b'.
Proof.
  unfold splice_out. intros H. apply bind_ret in H. destruct H as (n & _ & H). cbv zeta in H. apply bind_ret in H. destruct H as (b1 & H1 & H2).
  eapply keeps_trans; [|eapply keeps_child; exact H2]. destruct (match n_left n with Some l => Some l | None => n_right n end) as [c|].
  - eapply keeps_par; exact H1.
  - injection H1 as <-. apply keeps_refl.
Qed.
Lemma keeps_replace b c a b' : replace_node b c a = Ret b' -> keeps b b'.
Proof.
  unfold replace_node. intros H. apply bind_ret in H. destruct H as (n & _ & H). apply bind_ret in H. destruct H as (b1 & H1 & H).
  apply bind_ret in H. destruct H as (b2 & H2 & H). apply bind_ret in H. destruct H as (b3 & H3 & H). apply bind_ret in H. destruct H as (m & Hm & E). injection E as <-.
  eapply keeps_trans; [eapply keeps_child; exact H1|]. eapply keeps_trans; [|eapply keeps_trans; [|eapply keeps_store; [apply deref_some; exact Hm|reflexivity]]].
  - destruct (n_left n); [eapply keeps_par; exact H2|discriminate].
  - destruct (n_right n); [eapply keeps_par; exact H3|injection H3 as <-; apply keeps_refl].
Qed.
Lemma keeps_delete b a b' : bst_delete b a = Ret b' -> keeps b b'.
Proof.
  unfold bst_delete. intros H. apply bind_ret in H. destruct H as (n & _ & H). apply bind_ret in H. destruct H as (ar & _ & H). apply bind_ret in H. destruct H as (b1 & H1 & H).
  apply bind_ret in H. destruct H as (b2 & H2 & H). apply bind_ret in H. destruct H as (b3 & H3 & E). injection E as <-.
  eapply keeps_trans; [eapply keeps_splice; exact H1|]. eapply keeps_trans; [|eapply keeps_trans; [eapply keeps_right; exact H3|apply keeps_free]].
  destruct (Nat.eqb ar a); [injection H2 as <-; apply keeps_refl|eapply keeps_replace; exact H2].
Qed.
End Keep.

(** ** The invariant *)
Section Pinv.
Context {D : Type} (zero : D).
Definition pair_of (x : nat * sunit D) : Z * D := (su_sock (snd x), su_data (snd x)).
Definition pinv (p : puller D) (live : list (Z * D)) : Prop := exists t fl, binv (p_tree p) t fl /\ ord sock_cmp t /\ Permutation (map pair_of (elems t)) live /\
  NoDup (map fst live) /\ (forall s, p_set p s = true <-> In s (map fst live)) /\ (forall s, In s (map fst live) -> 0 <= s < 1024 /\ s <= p_max p).

Lemma sock_orders : orders sock_cmp (fun _ : sunit D => True).
Proof. split; unfold sock_cmp; intros; lia. Qed.

Lemma pinv_init : pinv pl_init [].
Proof.
  exists Leaf, []. split; [apply binv_init|]. split; [exact I|]. split; [constructor|]. split; [constructor|]. split; [|intros s []].
  intros s. cbn. split; [discriminate|tauto].
Qed.

Lemma in_live p live t fl : binv (p_tree p) t fl -> Permutation (map pair_of (elems t)) live -> forall s d, In (s, d) live -> exists a, In (a, mk_unit s d) (elems t).
Proof.
  intros HB HP s d HI. apply (Permutation_in _ (Permutation_sym HP)) in HI. apply in_map_iff in HI. destruct HI as ((a & [s' d']) & E & HI). cbn in E. injection E as -> ->. eauto.
Qed.

Lemma pl_add_ok p live s d : pinv p live -> 0 <= s < 1024 -> ~ In s (map fst live) -> exists p', pl_add p s d = Ret (0, p') /\ pinv p' ((s, d) :: live).
Proof.
  intros (t & fl & HB & HO & HP & ND & HS & HM) Hs Hn. unfold pl_add. destruct (Z.eqb_spec s (-1)); [lia|].
  destruct (bst_add_ok sock_cmp (p_tree p) t fl (mk_unit s d) HB) as (a & b & fl' & -> & Ha & HB'). cbn [bind snd]. unfold fd_put.
  destruct (Z.leb_spec 0 s); [|lia]. destruct (Z.ltb_spec s 1024); [|lia]. cbn [andb bind]. eexists. split; [reflexivity|].
  exists (ins sock_cmp (mk_unit s d) a t), fl'. cbn [p_tree p_set p_max]. split; [exact HB'|]. split; [apply ord_ins; exact HO|]. split.
  { rewrite (Permutation_map pair_of (ins_elems sock_cmp (mk_unit s d) a t)). cbn [map pair_of snd su_sock su_data]. now constructor. }
  cbn [map fst]. split; [constructor; assumption|]. split.
  - intros x. cbn [In]. destruct (Z.eqb_spec x s) as [->|N]; [intuition|]. rewrite HS. intuition congruence.
  - intros x [<-|Hx]; [destruct (Z.ltb_spec (p_max p) s); lia|]. specialize (HM x Hx). destruct (Z.ltb_spec (p_max p) s); lia.
Qed.

Lemma without_none s (live : list (Z * D)) : ~ In s (map fst live) -> without s live = live.
Proof.
  unfold without. induction live as [|[x d] l IH]; cbn [filter map fst In]; intros H; [reflexivity|]. destruct (Z.eqb_spec x s); [tauto|]. cbn [negb]. rewrite IH; tauto.
Qed.
Lemma without_at s d (l1 l2 : list (Z * D)) : NoDup (map fst (l1 ++ (s, d) :: l2)) -> without s (l1 ++ (s, d) :: l2) = l1 ++ l2.
Proof.
  intros ND. rewrite map_app in ND. cbn [map fst] in ND. pose proof (NoDup_remove_2 _ _ _ ND) as Hn. rewrite in_app_iff in Hn. unfold without. rewrite filter_app. cbn [filter fst]. rewrite Z.eqb_refl. cbn [negb].
  fold (without s l1). fold (without s l2). rewrite !without_none by tauto. reflexivity.
Qed.
Lemma without_perm s (l m : list (Z * D)) : Permutation l m -> Permutation (without s l) (without s m).
Proof.
  unfold without. induction 1; cbn [filter]; auto.
  - destruct (negb (fst x =? s)); auto.
  - destruct (negb (fst x =? s)), (negb (fst y =? s)); auto. constructor.
  - etransitivity; eauto.
Qed.
Lemma in_without s (l : list (Z * D)) x d : In (x, d) (without s l) <-> In (x, d) l /\ x <> s.
Proof. unfold without. rewrite filter_In. cbn [fst]. destruct (Z.eqb_spec x s); cbn; intuition congruence. Qed.
Lemma in_without_fst s (l : list (Z * D)) x : In x (map fst (without s l)) <-> In x (map fst l) /\ x <> s.
Proof.
  rewrite !in_map_iff. split.
  - intros ((y & d) & <- & H). apply in_without in H. cbn [fst]. split; [exists (y, d); tauto|tauto].
  - intros (((y & d) & <- & H) & N). exists (y, d). split; [reflexivity|]. apply in_without. auto.
Qed.
Lemma nodup_without s (l : list (Z * D)) : NoDup (map fst l) -> NoDup (map fst (without s l)).
Proof.
  unfold without. induction l as [|[x d] l IH]; cbn [filter map fst]; intros H; [constructor|]. inversion_clear H as [|? ? Hn H']. destruct (negb (x =? s)); [|auto]. cbn [map fst]. constructor; [|auto].
  intros A. apply Hn. apply (in_without_fst s) in A. tauto.
Qed.

Lemma pl_del_ok p live s : pinv p live -> 0 <= s < 1024 -> exists p', pl_del zero p s = Ret p' /\ pinv p' (without s live) /\ keeps (p_tree p) (p_tree p').
Proof.
  intros (t & fl & HB & HO & HP & ND & HS & HM) Hs. unfold pl_del. rewrite (bst_search_ok sock_cmp _ t fl (mk_unit s zero) HB). cbn [bind].
  unfold fd_put. destruct (Z.leb_spec 0 s); [|lia]. destruct (Z.ltb_spec s 1024); [|lia]. cbn [andb].
  destruct (srch sock_cmp (mk_unit s zero) t) as [a|] eqn:E.
  - destruct (srch_sound sock_cmp _ _ _ E) as ([s' d] & HI & Hc). unfold sock_cmp in Hc. cbn [su_sock] in Hc. assert (s' = s) by lia. subst s'. clear Hc.
    destruct (bst_delete_ok (p_tree p) t fl a _ HB HI) as (b' & t' & ED & DD & HB'). rewrite ED. cbn [bind]. eexists. split; [reflexivity|]. split; [|apply keeps_delete in ED; exact ED].
    destruct (deleted_elems _ _ _ DD) as (d' & e1 & e2 & E1 & E2).
    assert (d' = mk_unit s d) as ->.
    { pose proof (binv_nodup _ _ _ HB) as NA. unfold addrs in NA. rewrite E1 in HI, NA. rewrite map_app in NA. cbn [map fst] in NA. apply NoDup_remove_2 in NA. rewrite in_app_iff in NA. apply in_app_iff in HI. destruct HI as [HI|[HI|HI]]; [|congruence|];
        exfalso; apply NA; [left|right]; apply in_map_iff; exists (a, mk_unit s d); auto. }
    exists t', (a :: fl). cbn [p_tree p_set p_max]. split; [exact HB'|]. split.
    { eapply (ord_deleted sock_cmp (fun _ => True)); eauto; apply orders_preorder, sock_orders. }
    split.
    { rewrite <- (without_perm s _ _ HP). rewrite E1, E2, !map_app. cbn [map]. change (pair_of (a, mk_unit s d)) with (s, d). rewrite without_at; [reflexivity|].
      rewrite E1, map_app in HP. cbn [map] in HP. change (pair_of (a, mk_unit s d)) with (s, d) in HP. eapply Permutation_NoDup; [apply Permutation_map; symmetry; exact HP|exact ND]. }
    split; [apply nodup_without; exact ND|]. split.
    + intros x. rewrite in_without_fst. destruct (Z.eqb_spec x s) as [->|N]; [intuition discriminate|]. rewrite HS. intuition.
    + intros x Hx. apply in_without_fst in Hx. apply HM. tauto.
  - cbn [bind]. eexists. split; [reflexivity|]. split; [|apply keeps_refl].
    assert (Hn : ~ In s (map fst live)).
    { intros A. apply in_map_iff in A. destruct A as ((s' & d) & Es & A). cbn [fst] in Es. subst s'. destruct (in_live p live t fl HB HP s d A) as (a & Ha).
      apply (srch_none sock_cmp (fun _ => True) (mk_unit s zero) t sock_orders I (fun _ _ => I) HO E _ Ha). unfold sock_cmp. cbn [snd su_sock]. lia. }
    rewrite (without_none s live Hn). exists t, fl. cbn [p_tree p_set p_max]. split; [exact HB|]. split; [exact HO|]. split; [exact HP|]. split; [exact ND|]. split; [|exact HM].
    intros x. destruct (Z.eqb_spec x s) as [->|N]; [|apply HS]. split; [discriminate|tauto].
Qed.

Lemma fetch_visit (ready : Z -> bool) l : forall acc : option (Z * nat), 
  (exists a u, In (a, u) l /\ ready (su_sock u) = true /\ visit (fetch_inner ready) l (acc, false) = (Some (su_sock u, a), true)) \/
  ((forall a u, In (a, u) l -> ready (su_sock u) = false) /\ visit (@fetch_inner D ready) l (acc, false) = (acc, false)).
Proof.
  induction l as [|[a u] l IH]; intros acc; cbn [visit fst snd].
  - right. split; [intros ? ? []|reflexivity].
  - assert (EF : fetch_inner ready acc a u = if ready (su_sock u) then (Some (su_sock u, a), true) else (acc, false)) by reflexivity. rewrite EF. clear EF. destruct (ready (su_sock u)) eqn:E.
    + left. exists a, u. split; [left; reflexivity|]. split; [exact E|]. apply visit_stop.
    + destruct (IH acc) as [(a' & u' & HI & HR & HV)|(HN & HV)]; [left|right].
      * exists a', u'. split; [right; exact HI|]. auto.
      * split; [|exact HV]. intros x y [H|H]; [congruence|eauto].
Qed.

Lemma pl_fetch_ok p live ready : pinv p live -> exists o, pl_fetch p ready = Ret o /\
  match o with
  | Some (s, a) => ready s = true /\ exists d, In (s, d) live /\ pl_data p a = Ret d
  | None => forall s, In s (map fst live) -> ready s = false
  end.
Proof.
  intros (t & fl & HB & HO & HP & ND & HS & HM). unfold pl_fetch. rewrite (bst_enum_ok (fetch_inner ready) _ t fl None HB).
  destruct (fetch_visit ready (preorder t) None) as [(a & u & HI & HR & ->)|(HN & ->)]; cbn [fst]; eexists; (split; [reflexivity|]); cbn beta iota.
  - split; [exact HR|]. apply (Permutation_in _ (preorder_perm t)) in HI. exists (su_data u). split.
    + eapply Permutation_in; [exact HP|]. apply in_map_iff. exists (a, u). auto.
    + unfold pl_data, deref. destruct (binv_deref _ _ _ _ _ HB HI) as (n & -> & En). cbn [bind]. rewrite En. reflexivity.
  - intros s Hs. apply in_map_iff in Hs. destruct Hs as ((s' & d) & Es & Hs). cbn [fst] in Es. subst s'. destruct (in_live p live t fl HB HP s d Hs) as (a & Ha).
    apply (HN a (mk_unit s d)). eapply Permutation_in; [symmetry; apply preorder_perm|exact Ha].
Qed.

Lemma close_visit except l : forall acc, visit (@close_inner D except) l (acc, false) = (acc ++ filter (fun s => negb (s =? -1) && negb (s =? except)) (map (fun x => su_sock (snd x)) l), false).
Proof.
  induction l as [|[a u] l IH]; intros acc; cbn [visit fst snd map filter]; [rewrite app_nil_r; reflexivity|]. change (close_inner except acc a u) with (if negb (su_sock u =? -1) && negb (su_sock u =? except) then acc ++ [su_sock u] else acc, false).
  rewrite IH. destruct (negb (su_sock u =? -1) && negb (su_sock u =? except)); [|reflexivity]. rewrite <- app_assoc. reflexivity.
Qed.
Lemma filter_perm {X} (f : X -> bool) l m : Permutation l m -> Permutation (filter f l) (filter f m).
Proof.
  induction 1; cbn [filter]; auto.
  - destruct (f x); auto.
  - destruct (f x), (f y); auto. constructor.
  - etransitivity; eauto.
Qed.
Lemma pl_close_all_ok p live except : pinv p live -> exists l, pl_close_all p except = Ret l /\ Permutation l (filter (fun s => negb (s =? except)) (map fst live)).
Proof.
  intros (t & fl & HB & HO & HP & ND & HS & HM). unfold pl_close_all. rewrite (bst_enum_ok (close_inner except) _ t fl [] HB). rewrite close_visit. cbn [fst app]. eexists. split; [reflexivity|].
  assert (E : Permutation (map (fun x : nat * sunit D => su_sock (snd x)) (preorder t)) (map fst live)).
  { rewrite <- (Permutation_map fst HP), map_map. cbn [pair_of fst]. apply Permutation_map, preorder_perm. }
  etransitivity; [apply filter_perm; exact E|]. erewrite filter_ext_in; [reflexivity|]. intros s Hs. cbn beta. apply HM in Hs. destruct (Z.eqb_spec s (-1)); [lia|reflexivity].
Qed.

Lemma pool_pinv p live : pool_of zero p live -> pinv p live.
Proof.
  induction 1 as [|p live s d p' c HH IH Hs Hn E|p live s p' HH IH E].
  - apply pinv_init.
  - destruct (pl_add_ok p live s d IH Hs Hn) as (p2 & E2 & HI). rewrite E in E2. injection E2 as _ <-. exact HI.
  - assert (Hs : 0 <= s < 1024).
    { unfold pl_del in E. apply bind_ret in E. destruct E as (r & _ & E). apply bind_ret in E. destruct E as (t & _ & E). apply bind_ret in E. destruct E as (f & E & _). unfold fd_put in E.
      destruct (Z.leb_spec 0 s); [|discriminate]. destruct (Z.ltb_spec s 1024); [lia|discriminate]. }
    destruct (pl_del_ok p live s IH Hs) as (p2 & E2 & HI & _). rewrite E in E2. injection E2 as <-. exact HI.
Qed.
End Pinv.
