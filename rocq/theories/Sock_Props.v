(** Theorems about the sets of sockets (C68). *)
From Verif Require Import Base BaseFacts ListFacts Bst_Model Bst_Proofs Sock_Model Sock_Spec Sock_Proofs.
Require Import Permutation ZifyBool ZifyNat.

(** C68.  A set of sockets is watched exactly: select looks at the sockets that are in the set and at no others, adding and deleting never fail, and Free closes
    each socket of the set once. *)
Theorem C68_set_partial : forall D (zero : D) p live, pool_of zero p live ->
  NoDup (map fst live) /\
  (forall s, watched p s <-> In s (map fst live)) /\
  (forall s d, 0 <= s < 1024 -> ~ In s (map fst live) -> exists p', pl_add p s d = Ret (0, p') /\ pool_of zero p' ((s, d) :: live)) /\
  (forall s, 0 <= s < 1024 -> exists p', pl_del zero p s = Ret p' /\ pool_of zero p' (without s live)) /\
  (forall except, exists l, pl_close_all p except = Ret l /\ NoDup l /\ forall s, In s l <-> In s (map fst live) /\ s <> except).
Proof.
  intros D zero p live HP. pose proof (pool_pinv zero p live HP) as HI. pose proof HI as (t & fl & HB & HO & HPm & ND & HS & HM).
  split; [exact ND|]. split; [|split; [|split]].
  - intros s. unfold watched. rewrite HS. split; [tauto|]. intros H. specialize (HM s H). split; [exact H|lia].
  - intros s d Hs Hn. destruct (pl_add_ok p live s d HI Hs Hn) as (p' & E & _). exists p'. split; [exact E|]. eapply PO_add; eauto.
  - intros s Hs. destruct (pl_del_ok zero p live s HI Hs) as (p' & E & _). exists p'. split; [exact E|]. eapply PO_del; eauto.
  - intros except. destruct (pl_close_all_ok p live except HI) as (l & E & HPl). exists l. split; [exact E|]. split.
    + eapply Permutation_NoDup; [symmetry; exact HPl|]. apply NoDup_filter. exact ND.
    + intros s. split.
      * intros H. apply (Permutation_in _ HPl), filter_In in H. destruct (Z.eqb_spec s except); cbn [negb] in H; intuition discriminate.
      * intros (H & N). eapply Permutation_in; [symmetry; exact HPl|]. apply filter_In. destruct (Z.eqb_spec s except); [contradiction|auto].
Qed.
Print Assumptions C68_set_partial.

(** When select reports sockets as ready, the call gives one of them that is in the set, with the data that socket was added with; that data is still there
    after the socket has been deleted.  It gives none only if no socket of the set is ready. *)
Theorem C68_select : forall D (zero : D) p live, pool_of zero p live -> forall es ready, Forall (fun e => fatal_error e = false) es ->
  exists o err, pl_select p (map SelErr es ++ [SelReady ready]) 0 = Ret (o, err) /\ (es = [] -> err = 0) /\
    match o with
    | Some (s, a) => ready s = true /\ exists d, In (s, d) live /\ pl_data p a = Ret d /\ forall p', pl_del zero p s = Ret p' -> pl_data p' a = Ret d
    | None => forall s, In s (map fst live) -> ready s = false
    end.
Proof.
  intros D zero p live HP es ready HE. pose proof (pool_pinv zero p live HP) as HI. destruct (pl_fetch_ok p live ready HI) as (o & EF & HO).
  exists o, (last es 0). split.
  - assert (G : forall err, pl_select p (map SelErr es ++ [SelReady ready]) err = Ret (o, last es err)).
    { clear HO. induction HE as [|e es He HE IH]; intros err; cbn [map app pl_select]; [rewrite EF; reflexivity|]. rewrite He, IH. destruct es as [|e' es]; [reflexivity|].
      f_equal. f_equal. cbn [last]. clear. revert e'. induction es as [|x es IH]; intros e'; [reflexivity|apply IH]. }
    apply G.
  - split; [intros ->; reflexivity|]. destruct o as [[s a]|]; [|exact HO]. destruct HO as (HR & d & HL & HD). split; [exact HR|]. exists d. split; [exact HL|]. split; [exact HD|].
    intros p' E. assert (Hs : 0 <= s < 1024).
    { destruct HI as (t & fl & _ & _ & _ & _ & _ & HM). apply (HM s). apply in_map_iff. exists (s, d). auto. }
    destruct (pl_del_ok zero p live s HI Hs) as (p2 & E2 & _ & HK). rewrite E in E2. injection E2 as <-. unfold pl_data in *. apply bind_ret in HD. destruct HD as (n & Hn & Hd).
    apply deref_some in Hn. destruct (HK a n Hn) as (n' & Hn' & Ed). unfold deref. rewrite Hn'. cbn [bind]. rewrite Ed. exact Hd.
Qed.
Print Assumptions C68_select.

(** Timeouts and fatal errors give no socket. *)
Theorem C68_no_socket : forall D (p : puller D) es r rest, Forall (fun e => fatal_error e = false) es -> (r = SelTimeout \/ exists e, r = SelErr e /\ fatal_error e = true) ->
  exists err, pl_select p (map SelErr es ++ r :: rest) 0 = Ret (None, err) /\ (r = SelTimeout /\ es = [] -> err = 0) /\ (forall e, r = SelErr e -> err = e).
Proof.
  intros D p es r rest HE HR.
  assert (G : forall err, pl_select p (map SelErr es ++ r :: rest) err = Ret (None, match r with SelErr e => e | _ => last es err end)).
  { induction HE as [|e es He HE IH]; intros err; cbn [map app pl_select].
    - destruct HR as [->|(e & -> & Ef)]; cbn [pl_select]; [reflexivity|]. rewrite Ef. reflexivity.
    - rewrite He, IH. destruct HR as [->|(e' & -> & _)]; [|reflexivity]. f_equal. f_equal. destruct es as [|e' es]; [reflexivity|]. cbn [last]. clear. revert e'. induction es as [|x es IH]; intros e'; [reflexivity|apply IH]. }
  eexists. split; [apply G|]. split.
  - intros (-> & ->). reflexivity.
  - intros e ->. reflexivity.
Qed.
Print Assumptions C68_no_socket.

(** Data of the full length is stored as it is, and without data zeros are stored.  Too much data is refused. *)
Theorem C68_data_partial mem data : 
  (forall d, length d = length mem -> data = Some d -> unit_fill mem data (Z.of_nat (length mem)) = Ret (Some d)) /\
  (data = None -> unit_fill mem data 0 = Ret (Some (repeat 0 (length mem)))) /\
  (forall dl, Z.of_nat (length mem) < dl \/ dl < 0 -> unit_fill mem data dl = Ret None).
Proof.
  unfold unit_fill. split; [|split].
  - intros d L ->. destruct (Z.ltb_spec (Z.of_nat (length mem)) 0); [lia|]. destruct (Z.ltb_spec (Z.of_nat (length mem)) (Z.of_nat (length mem))); [lia|]. cbn [orb]. rewrite Nat2Z.id.
    unfold slice. cbn [Nat.add skipn]. rewrite <- L, Nat.leb_refl, firstn_all. unfold write. cbn [Nat.add firstn app]. rewrite L, Nat.leb_refl, skipn_all2 by lia. rewrite app_nil_r. cbn [bind]. rewrite Nat.eqb_refl. reflexivity.
  - intros ->. destruct (Z.ltb_spec 0 0); [lia|]. destruct (Z.ltb_spec (Z.of_nat (length mem)) 0); [lia|]. cbn [orb bind]. change (Z.to_nat 0) with 0%nat. destruct (Nat.eqb_spec 0 (length mem)) as [E|N].
    + destruct mem; [reflexivity|discriminate].
    + change (4 * 0)%nat with 0%nat. unfold write. rewrite repeat_length, Nat.add_0_l, Nat.sub_0_r, Nat.leb_refl. cbn [firstn app]. rewrite skipn_all2 by lia. rewrite app_nil_r. reflexivity.
  - intros dl [H|H]; [destruct (Z.ltb_spec dl 0); [reflexivity|]; destruct (Z.ltb_spec (Z.of_nat (length mem)) dl); [reflexivity|lia]|destruct (Z.ltb_spec dl 0); [reflexivity|lia]].
Qed.
Print Assumptions C68_data_partial.

(** But shorter data overruns the buffer. *)
Theorem C68_data_refuted mem d : (0 < length d < length mem)%nat -> unit_fill mem (Some d) (Z.of_nat (length d)) = UBW.
Proof.
  intros L. unfold unit_fill. destruct (Z.ltb_spec (Z.of_nat (length d)) 0); [lia|]. destruct (Z.ltb_spec (Z.of_nat (length mem)) (Z.of_nat (length d))); [lia|]. cbn [orb]. rewrite Nat2Z.id.
  unfold slice. cbn [Nat.add skipn]. rewrite Nat.leb_refl, firstn_all. unfold write at 1. cbn [Nat.add firstn app]. destruct (Nat.leb_spec (length d) (length mem)); [|lia]. cbn [bind].
  destruct (Nat.eqb_spec (length d) (length mem)); [lia|]. unfold write. rewrite repeat_length, app_length, skipn_length. destruct (Nat.leb_spec (4 * length d + (length mem - length d)) (length d + (length mem - length d))); [lia|reflexivity].
Qed.
Print Assumptions C68_data_refuted.

(** The 1025th descriptor is written beyond the set. *)
Theorem C68_many_refuted : forall D (zero : D) p live s d, pool_of zero p live -> 1024 <= s -> pl_add p s d = UBW.
Proof.
  intros D zero p live s d HP Hs. destruct (pool_pinv zero p live HP) as (t & fl & HB & _). unfold pl_add. destruct (Z.eqb_spec s (-1)); [lia|].
  destruct (bst_add_ok sock_cmp (p_tree p) t fl (mk_unit s d) HB) as (a & b & fl' & -> & _ & _). cbn [bind]. unfold fd_put. destruct (Z.ltb_spec s 1024); [lia|]. rewrite andb_false_r. reflexivity.
Qed.
Print Assumptions C68_many_refuted.

(** A socket that is added twice and deleted once is in the set (Free closes it) but is not watched any more. *)
Theorem C68_twice_refuted : exists (p1 p2 p3 : puller Z), pl_add pl_init 7 1 = Ret (0, p1) /\ pl_add p1 7 2 = Ret (0, p2) /\ pl_del 0 p2 7 = Ret p3 /\
  pl_close_all p3 (-1) = Ret [7] /\ ~ watched p3 7.
Proof.
  eexists _, _, _. split; [vm_compute; reflexivity|]. split; [vm_compute; reflexivity|]. split; [vm_compute; reflexivity|]. split; [vm_compute; reflexivity|]. intros (H & _). discriminate H.
Qed.
Print Assumptions C68_twice_refuted.

(** A wait that is interrupted by a signal and then times out is reported as an error, although nothing is wrong. *)
Theorem C68_interrupted_refuted : forall D (p : puller D), pl_select p [SelErr 4; SelTimeout] 0 = Ret (None, 4) /\ fatal_error 4 = false.
Proof. intros D p. split; reflexivity. Qed.
Print Assumptions C68_interrupted_refuted.

(** Three sockets, the one in the middle deleted again. *)
Example C68_nonvacuous : exists (p : puller (list Z)), pool_of [] p [(9, [4; 5; 6]); (5, [1; 2; 3])] /\ (exists a, pl_select p [SelErr 4; SelReady (fun s => s =? 9)] 0 = Ret (Some (9, a), 4)) /\
  unit_fill [9; 9; 9] (Some [4; 5; 6]) 3 = Ret (Some [4; 5; 6]) /\ unit_fill [9; 9; 9] (Some [4]) 1 = UBW.
Proof.
  destruct (C68_set_partial (list Z) [] pl_init [] (PO_init [])) as (_ & _ & A & _). destruct (A 5 [1; 2; 3] ltac:(lia) ltac:(intros [])) as (p1 & E1 & H1).
  destruct (C68_set_partial _ [] p1 _ H1) as (_ & _ & A1 & _). destruct (A1 7 [7; 7; 7] ltac:(lia) ltac:(cbn; lia)) as (p2 & E2 & H2).
  destruct (C68_set_partial _ [] p2 _ H2) as (_ & _ & A2 & _). destruct (A2 9 [4; 5; 6] ltac:(lia) ltac:(cbn; lia)) as (p3 & E3 & H3).
  destruct (C68_set_partial _ [] p3 _ H3) as (_ & _ & _ & A3 & _). destruct (A3 7 ltac:(lia)) as (p4 & E4 & H4). exists p4. split; [exact H4|]. split; [|split; reflexivity].
  destruct (C68_select _ [] p4 _ H4 [4] (fun s => s =? 9) ltac:(repeat constructor)) as (o & err & E & _ & HO). destruct o as [[s a]|].
  - destruct HO as (HR & _). assert (s = 9) by lia. subst s. exists a. cbn [map app] in E. rewrite E. f_equal. f_equal. cbn [pl_select] in E. change (fatal_error 4) with false in E. cbn iota in E. apply bind_ret in E. destruct E as (o & _ & E). congruence.
  - exfalso. specialize (HO 9 ltac:(cbn; auto)). discriminate HO.
Qed.
