(** Lemmas about the connections of the TCP upstream module. *)
From Verif Require Import Base BaseFacts ListFacts Hash_Model Bst_Model Mctx_Model Iheader_Model Sock_Model Sock_Spec Sock_Proofs Sock_Props Tcp_Model Tcp_Props Udpm_Model Tcpm_Model Tcpm_Spec.
Require Import Permutation ZifyBool ZifyNat.
Set Default Proof Using "Type".

Lemma NoDup_map_inj_in {A B} (f : A -> B) l : (forall x y, In x l -> In y l -> f x = f y -> x = y) -> NoDup l -> NoDup (map f l).
Proof.
  induction l as [|a l IH]; intros H ND; cbn [map]; [constructor|]. inversion ND as [|? ? N1 N2]; subst. constructor; [|apply IH; [intros x y Hx Hy; apply H; right; assumption|exact N2]].
  intros A1. apply in_map_iff in A1. destruct A1 as (x & E & Hx). apply H in E; [subst; contradiction|right; exact Hx|left; reflexivity].
Qed.

(** * Pools *)
Lemma pool_range {D} (zero : D) p live : pool_of zero p live -> forall s d, In (s, d) live -> 0 <= s < 1024.
Proof.
  induction 1 as [|p live s d p' c HP IH Hs Hn HA|p live s p' HP IH HD]; intros s0 d0 H; [destruct H| |].
  - destruct H as [E|H]; [injection E as <- _; exact Hs|eauto].
  - apply in_without in H. apply (IH s0 d0). tauto.
Qed.
Lemma without_out {D} s (l : list (Z * D)) : ~ In s (map fst l) -> without s l = l.
Proof.
  unfold without. induction l as [|[x e] l IH]; cbn [filter map fst In]; [reflexivity|]. intros H. destruct (Z.eqb_spec x s) as [->|N]; [tauto|]. cbn [negb]. rewrite IH by tauto. reflexivity.
Qed.
Lemma without_one {D} s d (l : list (Z * D)) : NoDup (map fst l) -> In (s, d) l -> S (length (without s l)) = length l.
Proof.
  induction l as [|[x e] l IH]; cbn [In map fst]; [tauto|]. intros ND H. inversion ND as [|? ? N1 N2]; subst. unfold without in *. cbn [filter fst length]. destruct (Z.eqb_spec x s) as [->|N]; cbn [negb length].
  - pose proof (without_out s l N1) as W. unfold without in W. rewrite W. reflexivity.
  - destruct H as [E|H]; [congruence|]. rewrite (IH N2 H). reflexivity.
Qed.

Definition holdsn (p : puller tctx) (f : Z -> option tctx) (n : nat) : Prop :=
  exists live, pool_of tctx0 p live /\ (forall s d, In (s, d) live <-> f s = Some d) /\ length live = n.
Definition holds (p : puller tctx) (f : Z -> option tctx) : Prop := exists n, holdsn p f n.

Lemma holds_ext p f g n : holdsn p f n -> (forall s, g s = f s) -> holdsn p g n.
Proof. intros (live & HP & HF & HL) E. exists live. split; [exact HP|]. split; [intros s d; rewrite E; apply HF|exact HL]. Qed.
Lemma holds_ext' p f g : holds p f -> (forall s, g s = f s) -> holds p g.
Proof. intros (n & H) E. exists n. eapply holds_ext; eauto. Qed.
Lemma holds_bound p f n : holdsn p f n -> (n <= 1024)%nat.
Proof.
  intros (live & HP & HF & <-). destruct (C68_set_partial _ _ _ _ HP) as (ND & _). rewrite <- (map_length fst live).
  replace 1024%nat with (length (map Z.of_nat (seq 0 1024))) by (rewrite map_length, seq_length; reflexivity). apply NoDup_incl_length; [exact ND|].
  intros s Hs. apply in_map_iff in Hs. destruct Hs as ((x & d) & <- & Hs). apply (pool_range _ _ _ HP) in Hs. cbn [fst]. apply in_map_iff. exists (Z.to_nat x). split; [lia|]. apply in_seq. lia.
Qed.
Lemma holds_watched p f : holds p f -> forall s, watched p s <-> f s <> None.
Proof.
  intros (n & live & HP & HF & _) s. destruct (C68_set_partial _ _ _ _ HP) as (_ & HW & _). rewrite HW, in_map_iff. split.
  - intros ((x & d) & <- & H) E. apply HF in H. cbn [fst] in E. congruence.
  - intros H. destruct (f s) as [d|] eqn:E; [|congruence]. exists (s, d). split; [reflexivity|apply HF; exact E].
Qed.
Lemma holds_init : holdsn pl_init (fun _ => None) 0.
Proof. exists []. split; [constructor|]. split; [intros s d; cbn; split; [tauto|discriminate]|reflexivity]. Qed.

Definition fupd {X} (f : Z -> X) (s : Z) (x : X) : Z -> X := fun y => if y =? s then x else f y.
Lemma fupd_at {X} (f : Z -> X) s x : fupd f s x s = x.
Proof. unfold fupd. rewrite Z.eqb_refl. reflexivity. Qed.
Lemma fupd_ne {X} (f : Z -> X) s x y : y <> s -> fupd f s x y = f y.
Proof. intros N. unfold fupd. destruct (Z.eqb_spec y s); congruence. Qed.

Lemma holds_add p f n s d : holdsn p f n -> f s = None -> 0 <= s < 1024 -> exists p', pl_add p s d = Ret (0, p') /\ holdsn p' (fupd f s (Some d)) (S n).
Proof.
  intros (live & HP & HF & HL) Hn Hs. destruct (C68_set_partial _ _ _ _ HP) as (ND & _ & HA & _).
  assert (HI : ~ In s (map fst live)). { intros A. apply in_map_iff in A. destruct A as ((x & e) & Ex & A). cbn [fst] in Ex. subst x. apply HF in A. congruence. }
  destruct (HA s d Hs HI) as (p' & E & HP'). exists p'. split; [exact E|]. exists ((s, d) :: live). split; [exact HP'|]. split; [|cbn [length]; congruence].
  intros x e. cbn [In]. rewrite HF. unfold fupd. destruct (Z.eqb_spec x s) as [->|N]; [|intuition congruence]. rewrite Hn. intuition congruence.
Qed.
Lemma holds_del p f n s d : holdsn p f n -> f s = Some d -> exists p' m, pl_del tctx0 p s = Ret p' /\ holdsn p' (fupd f s None) m /\ S m = n.
Proof.
  intros (live & HP & HF & HL) Hn. destruct (C68_set_partial _ _ _ _ HP) as (ND & _ & _ & HD & _). apply HF in Hn. pose proof (pool_range _ _ _ HP _ _ Hn) as Hs.
  destruct (HD s Hs) as (p' & E & HP'). exists p', (length (without s live)). split; [exact E|]. split; [|rewrite <- HL; eapply without_one; eauto].
  exists (without s live). split; [exact HP'|]. split; [|reflexivity]. intros x e. rewrite in_without, HF. unfold fupd. destruct (Z.eqb_spec x s); intuition congruence.
Qed.

Lemma select_rest {D} (p : puller D) es ready rest : Forall (fun e => fatal_error e = false) es -> pl_select p (map SelErr es ++ SelReady ready :: rest) 0 = pl_select p (map SelErr es ++ [SelReady ready]) 0.
Proof. generalize 0. intros z HE. revert z. induction HE as [|x es0 Hx HE IH]; intros z; cbn [map app pl_select]; [reflexivity|]. rewrite Hx. apply IH. Qed.
Lemma holds_select p f rs : holds p f -> select_ends rs -> exists o err, pl_select p rs 0 = Ret (o, err) /\
  match o with
  | Some (s, a) => exists d, f s = Some d /\ (forall p', pl_del tctx0 p s = Ret p' -> pl_data p' a = Ret d) /\ (forall es r rest, rs = map SelErr es ++ SelReady r :: rest -> Forall (fun e => fatal_error e = false) es -> r s = true)
  | None => forall r, rs = [SelReady r] -> err = 0 /\ forall s d, f s = Some d -> r s = false
  end.
Proof.
  intros (n & live & HP & HF & _) (es & r & rest & -> & HE & HR). destruct r as [e0| |ready].
  - destruct (C68_no_socket _ p es (SelErr e0) rest HE (or_intror (ex_intro _ e0 (conj eq_refl (HR e0 eq_refl))))) as (err & E & _). eexists _, _. split; [exact E|]. intros r Er. destruct es as [|? [|]]; discriminate.
  - destruct (C68_no_socket _ p es SelTimeout rest HE (or_introl eq_refl)) as (err & E & _). eexists _, _. split; [exact E|]. intros r Er. destruct es as [|? [|]]; discriminate.
  - destruct (C68_select _ _ _ _ HP es ready HE) as (o & err & E & HE0 & HO). exists o, err. split; [rewrite select_rest by exact HE; exact E|]. destruct o as [[s a]|].
    + destruct HO as (Hr & d & H1 & H2 & H3). exists d. split; [apply HF; exact H1|]. split; [exact H3|]. intros es' r' rest' Eq HE'.
      assert (ready = r') as <-; [|exact Hr]. clear - HE HE' Eq. revert es' HE' Eq. induction es as [|x es IH]; intros [|y es'] HE' Eq; cbn [map app] in Eq; try discriminate; [congruence|]. inversion HE; inversion HE'; subst. eapply IH; eauto. congruence.
    + intros r Er. assert (es = [] /\ ready = r) as (-> & ->). { destruct es as [|? [|]]; [cbn in Er; split; congruence|discriminate|discriminate]. } split; [auto|]. intros s d Hd. apply HO. apply in_map_iff. exists (s, d). split; [reflexivity|apply HF; exact Hd].
Qed.

(** * Where the sockets are *)
Inductive place := PWait | PQuery | PAgent (i : nat) | PProxy | PProxies (i : nat) | PHand.
Lemma place_dec (a b : place) : {a = b} + {a <> b}.
Proof. decide equality; apply Nat.eq_dec. Qed.
Definition whereabouts := Z -> option (place * tctx).
Definition at_ (w : whereabouts) (pl : place) : Z -> option tctx := fun s => match w s with Some (pl', d) => if place_dec pl pl' then Some d else None | None => None end.
Lemma at_some w pl s d : at_ w pl s = Some d <-> w s = Some (pl, d).
Proof. unfold at_. destruct (w s) as [[pl' d']|]; [|split; discriminate]. destruct (place_dec pl pl') as [->|N]; split; congruence. Qed.
Lemma at_upd_same w pl s d x : at_ (fupd w s (Some (pl, d))) pl x = fupd (at_ w pl) s (Some d) x.
Proof. unfold at_, fupd. destruct (x =? s); [|reflexivity]. destruct (place_dec pl pl); congruence. Qed.
Lemma at_upd_other w pl s y x : (forall d, y <> Some (pl, d)) -> at_ (fupd w s y) pl x = fupd (at_ w pl) s None x.
Proof. intros H. unfold at_, fupd. destruct (x =? s); [|reflexivity]. destruct y as [[pl' d]|]; [|reflexivity]. destruct (place_dec pl pl') as [->|N]; [exfalso; eapply H; reflexivity|reflexivity]. Qed.
Lemma at_upd_out w pl s y x : (forall d, y <> Some (pl, d)) -> (forall d, w s <> Some (pl, d)) -> at_ (fupd w s y) pl x = at_ w pl x.
Proof.
  intros H1 H2. rewrite at_upd_other by exact H1. unfold fupd. destruct (Z.eqb_spec x s) as [->|N]; [|reflexivity]. destruct (at_ w pl s) as [d|] eqn:E; [|reflexivity]. apply at_some in E. exfalso. eapply H2; eauto.
Qed.

(** [w'] is as [w] but for the places in [P]. *)
Definition same_but (P : place -> Prop) (w w' : whereabouts) : Prop := forall pl, ~ P pl -> forall s, at_ w' pl s = at_ w pl s.
Lemma same_refl P w : same_but P w w.
Proof. intros pl _ s. reflexivity. Qed.
Lemma same_trans P w w1 w2 : same_but P w w1 -> same_but P w1 w2 -> same_but P w w2.
Proof. intros H1 H2 pl Hp s. rewrite H2, H1 by exact Hp. reflexivity. Qed.
Lemma same_weak (P Q : place -> Prop) w w' : same_but P w w' -> (forall pl, P pl -> Q pl) -> same_but Q w w'.
Proof. intros H HQ pl Hp. apply H. intros A. apply Hp, HQ, A. Qed.
Lemma same_upd (P : place -> Prop) w s y : (forall pl d, w s = Some (pl, d) -> P pl) -> (forall pl d, y = Some (pl, d) -> P pl) -> same_but P w (fupd w s y).
Proof. intros H1 H2 pl Hp x. apply at_upd_out; intros d E; apply Hp; eauto. Qed.

Lemma set_nth_length {X} (l : list X) i x : (i < length l)%nat -> length (set_nth l i x) = length l.
Proof. intros H. unfold set_nth. rewrite app_length, firstn_length. cbn [length]. rewrite skipn_length. lia. Qed.
Lemma set_nth_nth {X} (l : list X) i x j : (i < length l)%nat -> nth_error (set_nth l i x) j = if Nat.eqb j i then Some x else nth_error l j.
Proof.
  intros H. unfold set_nth. destruct (Nat.eqb_spec j i) as [->|N].
  - rewrite nth_error_app2 by (rewrite firstn_length; lia). rewrite firstn_length, Nat.min_l by lia. rewrite Nat.sub_diag. reflexivity.
  - destruct (Nat.lt_ge_cases j i) as [L|L].
    + rewrite nth_error_app1 by (rewrite firstn_length; lia). rewrite <- (firstn_skipn i l) at 2. rewrite nth_error_app1 by (rewrite firstn_length; lia). reflexivity.
    + rewrite nth_error_app2 by (rewrite firstn_length; lia). rewrite firstn_length, Nat.min_l by lia. destruct (j - i)%nat as [|m] eqn:Em; [lia|]. cbn [nth_error].
      rewrite <- (firstn_skipn (S i) l) at 2. rewrite nth_error_app2 by (rewrite firstn_length; lia). rewrite firstn_length, Nat.min_l by lia. f_equal. lia.
Qed.

(** From [k] to [k'] queries were sent to the servers [ss], all of them [msg]. *)
Definition adds (k k' : kst) (ss : list (option nat)) (msg : list Z) : Prop :=
  (k_tick k <= k_tick k')%nat /\ exists l, k_log k' = l ++ k_log k /\ only_sends msg l /\ sent_to (k_log k') = ss ++ sent_to (k_log k).
Lemma adds_refl k msg : adds k k [] msg.
Proof. split; [lia|]. exists []. split; [reflexivity|]. split; [intros s m out ok []|reflexivity]. Qed.
Lemma adds_last k k' msg x : adds k k' [] msg -> last_sent (k_log k') x = last_sent (k_log k) x.
Proof.
  intros (_ & l & -> & _ & H). cbn [app] in H. assert (HL : length (sent_to (l ++ k_log k)) = length (sent_to (k_log k))) by congruence. clear H. revert HL. generalize (k_log k). intros l0.
  assert (HG : forall l, (length (sent_to l0) <= length (sent_to (l ++ l0)))%nat) by (clear; induction l as [|e l IH]; [cbn [app]; lia|]; destruct e; cbn [app sent_to length]; lia).
  induction l as [|e l IH]; intros HL; [reflexivity|]. destruct e; cbn [app sent_to last_sent length] in *; try (apply IH; exact HL). specialize (HG l). lia.
Qed.
Lemma adds_trans k k1 k2 a b msg : adds k k1 a msg -> adds k1 k2 b msg -> adds k k2 (b ++ a) msg.
Proof.
  intros (T1 & l1 & E1 & O1 & S1) (T2 & l2 & E2 & O2 & S2). split; [lia|]. exists (l2 ++ l1). split; [rewrite E2, E1, app_assoc; reflexivity|]. split.
  - intros s m out ok H. apply in_app_or in H. destruct H; [eapply O2|eapply O1]; eauto.
  - rewrite S2, S1, app_assoc. reflexivity.
Qed.
Lemma adds_tick k msg : adds k (ticked k) [] msg.
Proof. split; [cbn [ticked k_tick]; lia|]. exists []. split; [reflexivity|]. split; [intros s m out ok []|reflexivity]. Qed.
Lemma adds_close k s msg : adds k (noted (TClose s) k) [] msg.
Proof. split; [cbn [noted k_tick]; lia|]. exists [TClose s]. split; [reflexivity|]. split; [intros x m out ok [E|[]]; discriminate|reflexivity]. Qed.
Lemma adds_open k s p i msg : adds k (noted (TOpen s p i) k) [] msg.
Proof. split; [cbn [noted k_tick]; lia|]. exists [TOpen s p i]. split; [reflexivity|]. split; [intros x m out ok [E|[]]; discriminate|reflexivity]. Qed.
Lemma adds_prep k s i ok msg : adds k (noted (TPrep s i ok) k) [] msg.
Proof. split; [cbn [noted k_tick]; lia|]. exists [TPrep s i ok]. split; [reflexivity|]. split; [intros x m out ok' [E|[]]; discriminate|reflexivity]. Qed.
Lemma adds_got k s msg : adds k (noted (TGot s) k) [] msg.
Proof. split; [cbn [noted k_tick]; lia|]. exists [TGot s]. split; [reflexivity|]. split; [intros x m out ok' [E|[]]; discriminate|reflexivity]. Qed.
Lemma adds_sent k s msg out ok via i b : state_of (k_log k) s = Some (Conn via i b) -> adds k (noted (TSent s msg out ok) k) [i] msg.
Proof. intros H. split; [cbn [noted k_tick]; lia|]. exists [TSent s msg out ok]. split; [reflexivity|]. split; [intros x m out' ok' [E|[]]; congruence|]. cbn [noted k_log sent_to]. rewrite H. reflexivity. Qed.


Lemma holds_empty p f n : holdsn p f n -> (forall s, f s = None) -> n = 0%nat.
Proof. intros (live & _ & HF & <-) H. destruct live as [|[s d] l]; [reflexivity|]. assert (A : f s = Some d) by (apply HF; left; reflexivity). rewrite H in A. discriminate. Qed.

Lemma holds_some p f n : holdsn p f (S n) -> exists s d, f s = Some d.
Proof. intros (live & _ & HF & HL). destruct live as [|[s d] l]; [discriminate|]. exists s, d. apply HF. left. reflexivity. Qed.

Lemma clear_total : forall fuel c len, (Z.to_nat len < fuel)%nat -> exists c', clear_loop fuel c len = Ret c'.
Proof.
  induction fuel as [|fuel IH]; intros c len H; [lia|]. cbn [clear_loop]. destruct (Z.leb_spec len 0); [eauto|]. destruct c as [|[l| | |e] c]; try (eexists; reflexivity).
  cbv zeta. destruct (Z.leb_spec (Z.of_nat (length (firstn (Z.to_nat (if 128 <? len then 128 else len)) l))) 0); [eauto|]. apply IH. lia.
Qed.
Lemma prep_total s1 s2 c text port : exists ok out c', proxy_preparation s1 s2 c text port = Ret (ok, out, c').
Proof.
  unfold proxy_preparation. destruct (send_wrapper s1 [5; 1; 0]) as [ok1 out1]. destruct (negb ok1); [eauto|]. destruct (recv_wrapper c 2) as [[st1 d1] c1]. destruct (negb (st1 =? 2)); [eauto|].
  destruct (negb (nth 0 d1 0 =? 5) || negb (nth 1 d1 0 =? 0)); [eauto|]. cbv zeta. destruct (send_wrapper s2 _) as [ok2 out2]. destruct (negb ok2); [eauto|]. destruct (recv_wrapper c1 4) as [[st2 d2] c2].
  destruct (negb (st2 =? 4)); [eauto|]. destruct (negb (nth 1 d2 0 =? 0)); [eauto|].
  destruct (nth 3 d2 0 =? 1). { destruct (clear_total (S (Z.to_nat 6)) c2 6 ltac:(lia)) as (c4 & ->). cbn [bind]. eauto. }
  destruct (nth 3 d2 0 =? 3). { destruct (recv_wrapper c2 1) as [[st3 d3] c3]. match goal with |- context [clear_loop (S (Z.to_nat ?z)) c3 _] => destruct (clear_total (S (Z.to_nat z)) c3 z ltac:(lia)) as (c4 & ->) end. cbn [bind]. eauto. }
  destruct (nth 3 d2 0 =? 4). { destruct (clear_total (S (Z.to_nat 18)) c2 18 ltac:(lia)) as (c4 & ->). cbn [bind]. eauto. }
  eauto.
Qed.

(** Memory of the pools stays. *)
Definition lives (p p' : puller tctx) : Prop := forall a d, pl_data p a = Ret d -> exists d', pl_data p' a = Ret d'.
Lemma lives_refl p : lives p p.
Proof. intros a d H. eauto. Qed.
Lemma lives_trans p p1 p2 : lives p p1 -> lives p1 p2 -> lives p p2.
Proof. intros H1 H2 a d H. destruct (H1 a d H) as (d1 & H3). eapply H2; eauto. Qed.
Definition stays {D} (b b' : bst D) : Prop := forall x, b_heap b x <> None -> b_heap b' x <> None.
Lemma stays_refl {D} (b : bst D) : stays b b.
Proof. intros x H. exact H. Qed.
Lemma stays_trans {D} (b b1 b2 : bst D) : stays b b1 -> stays b1 b2 -> stays b b2.
Proof. unfold stays. auto. Qed.
Lemma stays_store {D} (b : bst D) a n : stays b (store b a n).
Proof. intros x H. cbn [store b_heap]. destruct (Nat.eqb x a); [discriminate|exact H]. Qed.
Lemma stays_insert {D} (b : bst D) par c d a b' : insert_node b par c d = Ret (a, b') -> stays b b'.
Proof.
  unfold insert_node. intros H. apply bind_ret in H. destruct H as ((a1 & b1) & H1 & H). apply bind_ret in H. destruct H as (b2 & H2 & E). injection E as <- <-.
  apply (stays_trans b b1); [|apply (stays_trans b1 b2); [|apply stays_store]].
  - unfold get_unused in H1. destruct (b_free b); [apply bind_ret in H1; destruct H1 as (m & _ & E); injection E as <- <-|injection H1 as <- <-]; intros x Hx; exact Hx.
  - destruct par as [p|]; [|injection H2 as <-; intros x Hx; exact Hx]. destruct (c <=? 0); apply bind_ret in H2; destruct H2 as (m & _ & E); injection E as <-; apply stays_store.
Qed.
Lemma stays_add {D} (cmp : D -> D -> Z) b d a b' : bst_add cmp b d = Ret (a, b') -> stays b b'.
Proof.
  unfold bst_add. destruct (b_root b) as [r|]; [|apply stays_insert]. generalize (S (b_next b)). intros fuel. revert r. induction fuel as [|fuel IH]; intros r H; cbn [add_loop] in H; [discriminate|].
  apply bind_ret in H. destruct H as (n & _ & H). cbv zeta in H. destruct (cmp d (n_data n) <=? 0); [destruct (n_left n)|destruct (n_right n)]; eauto using stays_insert.
Qed.
Lemma stays_lives p p' : stays (p_tree p) (p_tree p') -> lives p p'.
Proof.
  intros H a d E. unfold pl_data in *. apply bind_ret in E. destruct E as (n & E & _). apply deref_some in E. unfold deref. specialize (H a). destruct (b_heap (p_tree p') a) as [n'|]; [cbn [bind]; eauto|]. exfalso. apply H; congruence.
Qed.
Lemma lives_add p s d c p' : pl_add p s d = Ret (c, p') -> lives p p'.
Proof.
  unfold pl_add. destruct (s =? -1); [intros E; injection E as _ <-; apply lives_refl|]. intros H. apply bind_ret in H. destruct H as ((a & b) & HA & H). apply bind_ret in H. destruct H as (f & _ & H). injection H as _ <-.
  apply stays_lives. cbn [p_tree snd]. eapply stays_add; eauto.
Qed.
Lemma lives_del p s p' : pl_del tctx0 p s = Ret p' -> lives p p'.
Proof.
  unfold pl_del. intros H. apply bind_ret in H. destruct H as (r & _ & H). apply bind_ret in H. destruct H as (t & HT & H). apply bind_ret in H. destruct H as (f & _ & H). injection H as <-. apply stays_lives. cbn [p_tree].
  destruct r as [a|]; [|injection HT as <-; apply stays_refl]. apply keeps_delete in HT. intros x Hx. destruct (b_heap (p_tree p) x) as [n|] eqn:E; [|congruence]. destruct (HT x n E) as (n' & -> & _). discriminate.
Qed.
Lemma send_loop_lives v targets nproxies a qid hash msg : forall n k p w k' p' w', send_loop v targets nproxies n a qid hash msg k p w = Ret (k', p', w') -> lives w w'.
Proof.
  induction n as [|n IH]; intros k p w k' p' w' H; cbn [send_loop] in H; [injection H as _ _ <-; apply lives_refl|]. apply bind_ret in H. destruct H as ((((o & err) & k1) & p1) & _ & H). destruct o as [[s d]|].
  - apply bind_ret in H. destruct H as ((ready & k2) & _ & H). destruct (negb ready); [eauto|]. destruct (send_wrapper _ msg) as [ok out]. destruct (negb _); [eauto|]. apply bind_ret in H. destruct H as ((c & w2) & HA & H). cbn [snd] in H.
    eapply lives_trans; [eapply lives_add; exact HA|]. eauto.
  - destruct (negb (err =? 0) && negb (void_error err)); [injection H as _ _ <-; apply lives_refl|eauto].
Qed.

(** * The order of the servers *)
Lemma order_all n shift : 0 <= shift -> shift + Z.of_nat n <= 2147483648 -> exists l, order None n shift = Ret l /\ Permutation (seq 0 n) l.
Proof.
  intros H0 H1. unfold order. destruct (Z.ltb_spec 2147483648 (shift + Z.of_nat n)); [lia|]. eexists. split; [reflexivity|]. symmetry.
  assert (Inj : forall i j, (i < n)%nat -> (j < n)%nat -> Z.to_nat ((shift + Z.of_nat i) mod Z.of_nat n) = Z.to_nat ((shift + Z.of_nat j) mod Z.of_nat n) -> i = j).
  { intros i j Hi Hj E. pose proof (Z.mod_pos_bound (shift + Z.of_nat i) (Z.of_nat n) ltac:(lia)). pose proof (Z.mod_pos_bound (shift + Z.of_nat j) (Z.of_nat n) ltac:(lia)).
    pose proof (Z.div_mod (shift + Z.of_nat i) (Z.of_nat n) ltac:(lia)). pose proof (Z.div_mod (shift + Z.of_nat j) (Z.of_nat n) ltac:(lia)).
    assert (ED : (shift + Z.of_nat i) / Z.of_nat n = (shift + Z.of_nat j) / Z.of_nat n) by nia. rewrite ED in *. lia. }
  apply NoDup_Permutation_bis.
  - apply NoDup_map_inj_in; [|apply seq_NoDup]. intros i j Hi Hj. apply in_seq in Hi, Hj. apply Inj; lia.
  - rewrite map_length. lia.
  - intros x Hx. apply in_map_iff in Hx. destruct Hx as (i & <- & Hi). apply in_seq in Hi. apply in_seq. pose proof (Z.mod_pos_bound (shift + Z.of_nat i) (Z.of_nat n) ltac:(lia)). lia.
Qed.

Section Conns.
Context (targets : list (list Z * list Z)) (nproxies : option nat) (incoming : Z).
Notation nservers := (length targets).

(** A connection for a server, with its data. *)
Definition good_conn (d : tctx) (busy : bool) (st : conn) : Prop :=
  exists via o, st = Conn via o busy /\ (tc_srv d < nservers)%nat /\
    match nproxies with
    | None => via = None /\ o = Some (tc_srv d)
    | Some _ => via <> None /\ (tc_queried d = 0 /\ o = None \/ 1 <= tc_queried d /\ o = Some (tc_srv d))
    end /\ 0 <= tc_queried d.
Definition proxy_conn (d : tctx) (st : conn) : Prop := exists np, nproxies = Some np /\ (tc_srv d < np)%nat /\ tc_queried d = 0 /\ st = Conn (Some (tc_srv d)) None false.
Definition fits (pl : place) (d : tctx) (st : conn) : Prop :=
  match pl with
  | PWait => st = Listening \/ (good_conn d true st /\ 1 <= tc_queried d)
  | PQuery => good_conn d false st
  | PAgent i => good_conn d false st /\ tc_srv d = i
  | PProxy => proxy_conn d st
  | PProxies i => proxy_conn d st /\ tc_srv d = i
  | PHand => st <> Listening
  end.
Definition linv (w : whereabouts) (log : list tev) : Prop :=
  lawful log /\ (forall s, match w s with
                          | None => state_of log s = None
                          | Some (pl, d) => 0 <= s < 1024 /\ exists st, state_of log s = Some st /\ fits pl d st
                          end) /\
  forall s, state_of log s = Some Listening <-> s = incoming.
Lemma fits_conn pl d st : fits pl d st -> pl <> PWait -> st <> Listening.
Proof. destruct pl; cbn [fits]; try congruence; [intros (via & o & -> & _)|intros ((via & o & -> & _) & _)|intros (np & _ & _ & _ & ->)|intros ((np & _ & _ & _ & ->) & _)]; discriminate. Qed.

Lemma linv_some w log s pl d : linv w log -> w s = Some (pl, d) -> 0 <= s < 1024 /\ exists st, state_of log s = Some st /\ fits pl d st.
Proof. intros (_ & H & _) E. specialize (H s). rewrite E in H. exact H. Qed.
(** From one place to another. *)
Lemma linv_move w log s pl d st : linv w log -> 0 <= s < 1024 -> state_of log s = Some st -> fits pl d st -> linv (fupd w s (Some (pl, d))) log.
Proof. intros (HL & H & HI) Hs Hst HF. split; [exact HL|]. split; [|exact HI]. intros x. unfold fupd. destruct (Z.eqb_spec x s) as [->|N]; [eauto|apply H]. Qed.
(** Something done to a socket in hand. *)
Definition subject (e : tev) : Z := match e with TListen s | TOpen s _ _ | TPrep s _ _ | TSent s _ _ _ | TGot s | TClose s => s end.
Lemma state_other e log s : s <> subject e -> state_of (e :: log) s = state_of log s.
Proof. intros N. destruct e; cbn [subject state_of] in *; (destruct (Z.eqb_spec s0 s); [congruence|reflexivity]). Qed.
Lemma linv_event w log e y : linv w log -> legal log e -> match e with TListen _ => False | TClose s => s <> incoming | _ => True end ->
  match y with None => state_of (e :: log) (subject e) = None | Some (pl, d) => 0 <= subject e < 1024 /\ exists st, state_of (e :: log) (subject e) = Some st /\ fits pl d st end ->
  linv (fupd w (subject e) y) (e :: log).
Proof.
  intros (HL & H & HI) He Hx Hy. split; [split; assumption|]. split.
  - intros s. unfold fupd. destruct (Z.eqb_spec s (subject e)) as [->|N]; [destruct y as [[pl d]|]; exact Hy|]. rewrite state_other by exact N. apply H.
  - intros s. destruct (Z.eq_dec s (subject e)) as [->|N]; [|rewrite state_other by exact N; apply HI].
    assert (Hs : subject e <> incoming).
    { intros E. apply HI in E. destruct e; cbn [legal subject] in *; try contradiction; try congruence; try (destruct He as (j & He); congruence); try (destruct He as (j & i' & He); congruence). apply HI in E. contradiction. }
    split; [|congruence]. intros E. exfalso. revert E. destruct e as [s|s pr i|s i ok|s m o ok|s|s]; cbn [state_of subject legal] in *; rewrite Z.eqb_refl; try contradiction.
    + destruct pr; discriminate.
    + destruct He as (j & ->). discriminate.
    + destruct He as (j & i & ->). discriminate.
    + destruct He as (j & i & ->). discriminate.
    + discriminate.
Qed.
Lemma linv_close w log s pl d : linv w log -> w s = Some (pl, d) -> pl <> PWait -> linv (fupd w s None) (TClose s :: log).
Proof.
  intros HL E HW. destruct (linv_some _ _ _ _ _ HL E) as (_ & st & Hst & HF). apply (linv_event w log (TClose s) None HL); cbn [legal subject state_of]; [congruence| |rewrite Z.eqb_refl; reflexivity].
  intros ->. destruct HL as (_ & _ & HI). rewrite (proj2 (HI incoming) eq_refl) in Hst. apply (fits_conn _ _ _ HF HW). congruence.
Qed.

Context (v : tenv).
Context (HE : env_ok v nservers nproxies).

Lemma take_ok k p w A n : holdsn p (at_ w A) n -> linv w (k_log k) -> A <> PHand -> A <> PWait -> exists o err p', take v k p = Ret (o, err, ticked k, p') /\
  match o with
  | None => p' = p /\ (forall r, v_sel v (k_tick k) = [SelReady r] -> err = 0 /\ forall s d, w s = Some (A, d) -> r s = false)
  | Some (s, d) => w s = Some (A, d) /\ exists m, S m = n /\ holdsn p' (at_ (fupd w s (Some (PHand, d))) A) m /\ linv (fupd w s (Some (PHand, d))) (k_log k) /\
      0 <= s < 1024 /\ exists st, state_of (k_log k) s = Some st /\ fits A d st
  end.
Proof using HE.
  intros HH HL HA HAw. destruct HE as (HS & _). destruct (holds_select p _ (v_sel v (k_tick k)) (ex_intro _ n HH) (HS (k_tick k))) as (o & err & E & HO). unfold take. rewrite E. cbn [bind fst snd]. destruct o as [[s a]|].
  - destruct HO as (d & Hd & HDel & _). destruct (holds_del _ _ _ _ _ HH Hd) as (p' & m & E' & HH' & Hm). rewrite E'. cbn [bind]. rewrite (HDel p' E'). cbn [bind]. apply at_some in Hd.
    destruct (linv_some _ _ _ _ _ HL Hd) as (Hs & st & Hst & HF). exists (Some (s, d)), err, p'. split; [reflexivity|]. split; [exact Hd|]. exists m. split; [exact Hm|]. split; [|split; [|split; [exact Hs|eauto]]].
    + eapply holds_ext; [exact HH'|]. intros x. apply at_upd_other. intros d' E2. congruence.
    + eapply linv_move; eauto. cbn [fits]. eapply fits_conn; eauto.
  - exists None, err, p. split; [reflexivity|]. split; [reflexivity|]. intros r Er. destruct (HO r Er) as (-> & H). split; [reflexivity|]. intros s d Hd. apply (H s d). apply at_some. exact Hd.
Qed.

Lemma put_ok p w A n s d0 d st log : holdsn p (at_ w A) n -> w s = Some (PHand, d0) -> linv w log -> state_of log s = Some st -> fits A d st -> A <> PHand ->
  exists p', pl_add p s d = Ret (0, p') /\ holdsn p' (at_ (fupd w s (Some (A, d))) A) (S n) /\ linv (fupd w s (Some (A, d))) log.
Proof.
  intros HH Hw HL Hst HF HA. destruct (linv_some _ _ _ _ _ HL Hw) as (Hs & _). destruct (holds_add p _ n s d HH) as (p' & E & HH'); [|exact Hs|].
  - destruct (at_ w A s) as [x|] eqn:Ex; [|reflexivity]. apply at_some in Ex. congruence.
  - exists p'. split; [exact E|]. split; [eapply holds_ext; [exact HH'|]; intros x; apply at_upd_same|]. eapply linv_move; eauto.
Qed.

(** A list of pools, one for each index. *)
Definition all_hold (ps : list (puller tctx)) (w : whereabouts) (B : nat -> place) : Prop := forall i q, nth_error ps i = Some q -> holds q (at_ w (B i)).
Lemma all_hold_set ps w w' B i q : all_hold ps w B -> (i < length ps)%nat -> holds q (at_ w' (B i)) -> (forall j s, j <> i -> at_ w' (B j) s = at_ w (B j) s) -> all_hold (set_nth ps i q) w' B.
Proof.
  intros HA Hi HQ HS j x Hx. rewrite set_nth_nth in Hx by exact Hi. destruct (Nat.eqb_spec j i) as [->|N]; [congruence|]. eapply holds_ext'; [apply HA; exact Hx|]. intros s. apply HS. exact N.
Qed.
Lemma all_hold_same (P : place -> Prop) ps w w' B : all_hold ps w B -> same_but P w w' -> (forall i, ~ P (B i)) -> all_hold ps w' B.
Proof. intros HA HS HB i q Hq. eapply holds_ext'; [apply HA; exact Hq|]. intros s. apply HS, HB. Qed.

Lemma put_at_ok ps w B s d0 d st log i : all_hold ps w B -> (forall i j, B i = B j -> i = j) -> (forall i, B i <> PHand) -> w s = Some (PHand, d0) -> linv w log -> state_of log s = Some st -> fits (B i) d st -> (i < length ps)%nat ->
  exists ps', put_at ps i s d = Ret ps' /\ length ps' = length ps /\ all_hold ps' (fupd w s (Some (B i, d))) B /\ linv (fupd w s (Some (B i, d))) log.
Proof.
  intros HA HBi HBh Hw HL Hst HF Hi. unfold put_at. destruct (nth_error ps i) as [q|] eqn:Eq; [|apply nth_error_None in Eq; lia]. destruct (HA i q Eq) as (n & HQ).
  destruct (put_ok q w (B i) n s d0 d st log HQ Hw HL Hst HF (HBh i)) as (q' & E & HQ' & HL'). rewrite E. cbn [bind snd]. eexists. split; [reflexivity|]. split; [apply set_nth_length; exact Hi|]. split; [|exact HL'].
  eapply all_hold_set; [exact HA|exact Hi|exists (S n); exact HQ'|]. intros j x N. apply at_upd_out; intros d' E2; [|rewrite Hw in E2; assert (Hh : PHand = B j) by congruence; apply (HBh j); auto]. assert (B i = B j) by congruence. apply N. symmetry. auto.
Qed.

(** Recycle moves connections from one pool to the pools of their indexes. *)
Lemma recycle_ok A B : (forall i j, B i = B j -> i = j) -> (forall i, B i <> PHand) -> (forall i, B i <> A) -> A <> PHand -> A <> PWait ->
  forall fuel k p ps w n, (forall d st, fits A d st -> (tc_srv d < length ps)%nat /\ fits (B (tc_srv d)) d st) ->
  holdsn p (at_ w A) n -> (n < fuel)%nat -> all_hold ps w B -> linv w (k_log k) ->
  exists k' p' ps' w', recycle v fuel k p ps = Ret (k', p', ps') /\ (forall msg, adds k k' [] msg) /\ length ps' = length ps /\ holds p' (at_ w' A) /\ all_hold ps' w' B /\ linv w' (k_log k') /\
    same_but (fun pl => pl = A \/ exists i, pl = B i) w w' /\
    ((forall t, (k_tick k <= t)%nat -> v_sel v t = [SelReady (fun _ => true)]) -> forall s d, w' s <> Some (A, d)).
Proof using HE.
  intros HBi HBh HBA HA HAw. induction fuel as [|fuel IH]; intros k p ps w n HC HH Hf HAll HL; [lia|]. cbn [recycle].
  destruct (take_ok k p w A n HH HL HA HAw) as (o & err & p1 & E & HO). rewrite E. cbn [bind]. destruct o as [[s d]|].
  - destruct HO as (Hw & m & Hm & HH1 & HL1 & Hs & st & Hst & HF). destruct (HC d st HF) as (Hi & HF').
    set (w1 := fupd w s (Some (PHand, d))) in *.
    assert (HAll1 : all_hold ps w1 B). { intros i q Hq. eapply holds_ext'; [apply HAll; exact Hq|]. intros x. apply at_upd_out; intros d' E2; [assert (Hh : PHand = B i) by congruence; apply (HBh i); auto|rewrite Hw in E2; apply (HBA i); congruence]. }
    destruct (put_at_ok ps w1 B s d d st (k_log k) (tc_srv d) HAll1 HBi HBh (fupd_at _ _ _) HL1 Hst HF' Hi) as (ps' & E' & HLen & HAll2 & HL2). rewrite E'. cbn [bind].
    set (w2 := fupd w1 s (Some (B (tc_srv d), d))) in *.
    assert (HH2 : holdsn p1 (at_ w2 A) m). { eapply holds_ext; [exact HH1|]. intros x. apply at_upd_out; intros d' E2; [apply (HBA (tc_srv d)); congruence|]. unfold w1 in E2. rewrite fupd_at in E2. congruence. }
    destruct (IH (ticked k) p1 ps' w2 m) as (k' & p' & ps'' & w' & ER & EL & HLen' & HHf & HAllf & HLf & HSame & HFav); [rewrite HLen; exact HC|exact HH2|lia|exact HAll2|exact HL2|].
    exists k', p', ps'', w'. split; [exact ER|]. split; [intros msg; eapply (adds_trans _ _ _ [] []); [apply adds_tick|apply EL]|]. split; [congruence|]. split; [exact HHf|]. split; [exact HAllf|]. split; [exact HLf|]. split; [|intros HV; apply HFav; intros x Hx; apply HV; cbn [ticked k_tick] in Hx; lia].
    eapply same_trans; [|exact HSame]. intros pl Hp x. unfold w2, w1. unfold at_, fupd. destruct (Z.eqb_spec x s) as [->|N]; [|reflexivity]. destruct (place_dec pl (B (tc_srv d))) as [->|N2]; [exfalso; apply Hp; eauto|]. rewrite Hw. destruct (place_dec pl A) as [->|N3]; [exfalso; apply Hp; auto|reflexivity].
  - destruct HO as (-> & HFv). exists (ticked k), p, ps, w. split; [reflexivity|]. split; [intros msg; apply adds_tick|]. split; [reflexivity|]. split; [exists n; exact HH|]. split; [exact HAll|]. split; [exact HL|]. split; [apply same_refl|].
    intros HV s d Hs. destruct (HFv _ (HV (k_tick k) (le_n _))) as (_ & HX). specialize (HX s d Hs). discriminate.
Qed.

(** No connection could be made at some moment between [k] and [k']. *)
Local Notation no_conn := (Tcpm_Spec.no_conn v).
Lemma no_conn_l k k1 k2 ss msg : no_conn k k1 -> adds k1 k2 ss msg -> no_conn k k2.
Proof. intros (t & l & x & y & Ht & E1 & E2 & HV) (T & l2 & E3 & _). exists t, l, (l2 ++ x), y. split; [lia|]. split; [rewrite E3, E1, app_assoc; reflexivity|]. auto. Qed.
Lemma no_conn_r k k1 k2 ss msg : adds k k1 ss msg -> no_conn k1 k2 -> no_conn k k2.
Proof. intros (T & l2 & E3 & _) (t & l & x & y & Ht & E1 & E2 & HV). exists t, l, x, (y ++ l2). split; [lia|]. split; [exact E1|]. split; [rewrite E2, E3, app_assoc; reflexivity|exact HV]. Qed.

Context (keep : Z).

Lemma get_avail_ok A : A <> PHand -> A <> PWait -> forall fuel k p w n, holdsn p (at_ w A) n -> (n < fuel)%nat -> linv w (k_log k) ->
  exists o k' p' w', get_avail v keep fuel k p = Ret (o, k', p') /\ holds p' (at_ w' A) /\ linv w' (k_log k') /\ (forall msg, adds k k' [] msg) /\
  match o with
  | None => same_but (fun pl => pl = A) w w'
  | Some (s, d) => w' s = Some (PHand, d) /\ (exists st, state_of (k_log k') s = Some st /\ fits A d st) /\
                   same_but (fun pl => pl = A \/ pl = PHand) w w' /\ (forall x, at_ w' PHand x = fupd (at_ w PHand) s (Some d) x) /\ at_ w PHand s = None
  end.
Proof using HE.
  intros HA HAw. induction fuel as [|fuel IH]; intros k p w n HH Hf HL; [lia|]. cbn [get_avail]. destruct (take_ok k p w A n HH HL HA HAw) as (o & err & p1 & E & HO). rewrite E. cbn [bind]. destruct o as [[s d]|].
  - destruct HO as (Hw & m & Hm & HH1 & HL1 & Hs & st & Hst & HF). set (w1 := fupd w s (Some (PHand, d))) in *. destruct (keep <? v_time v (k_tick (ticked k)) - tc_last d).
    + set (w2 := fupd w1 s None). assert (HL2 : linv w2 (TClose s :: k_log k)) by (apply (linv_close w1 (k_log k) s PHand d HL1); [apply fupd_at|discriminate]).
      assert (HH2 : holdsn p1 (at_ w2 A) m). { eapply holds_ext; [exact HH1|]. intros x. apply at_upd_out; intros d' E2; [discriminate|]. unfold w1 in E2. rewrite fupd_at in E2. congruence. }
      destruct (IH (noted (TClose s) (ticked (ticked k))) p1 w2 m HH2 ltac:(lia) HL2) as (o & k' & p' & w' & E' & HH' & HL' & HAd & HO').
      assert (HS2 : same_but (fun pl => pl = A) w w2). { intros pl Hp x. unfold w2, w1, at_, fupd. destruct (Z.eqb_spec x s) as [->|N]; [|reflexivity]. rewrite Hw. destruct (place_dec pl A); [contradiction|reflexivity]. }
      exists o, k', p', w'. split; [exact E'|]. split; [exact HH'|]. split; [exact HL'|]. split.
      * intros msg. eapply (adds_trans _ _ _ [] []); [|apply HAd]. eapply (adds_trans _ _ _ [] []); [|apply adds_close]. eapply (adds_trans _ _ _ [] []); apply adds_tick.
      * destruct o as [[s' d']|]; [|eapply same_trans; eauto]. destruct HO' as (X1 & X2 & X3 & X4 & X5). split; [exact X1|]. split; [exact X2|]. split; [eapply same_trans; [eapply same_weak; [exact HS2|auto]|exact X3]|].
        assert (HN : forall x, at_ w2 PHand x = at_ w PHand x) by (intros x; apply HS2; congruence). split; [|rewrite <- HN; exact X5]. intros x. rewrite X4. unfold fupd. rewrite HN. reflexivity.
    + exists (Some (s, d)), (ticked (ticked k)), p1, w1. split; [reflexivity|]. split; [exists m; exact HH1|]. split; [exact HL1|]. split; [intros msg; eapply (adds_trans _ _ _ [] []); apply adds_tick|].
      split; [apply fupd_at|]. split; [exists st; split; [exact Hst|exact HF]|]. split; [apply same_upd; [intros pl d' E2; left; congruence|intros pl d' E2; right; congruence]|]. split; [intros x; apply at_upd_same|].
      unfold at_. rewrite Hw. destruct (place_dec PHand A); congruence.
  - destruct HO as (-> & _). exists None, (ticked k), p, w. split; [reflexivity|]. split; [exists n; exact HH|]. split; [exact HL|]. split; [intros msg; apply adds_tick|apply same_refl].
Qed.

Lemma linv_none w log s : linv w log -> state_of log s = None -> w s = None.
Proof. intros (_ & H & _) E. specialize (H s). destruct (w s) as [[pl d]|]; [|reflexivity]. destruct H as (_ & st & E2 & _). congruence. Qed.

Context (stale : tctx).

Lemma connect_direct_ok (A : place) (B : nat -> place) (proxy : bool) : (forall i j, B i = B j -> i = j) -> (forall i, B i <> PHand) -> (forall i, B i <> PWait) -> (forall i, B i <> A) -> A <> PHand ->
  (forall i d st, fits (B i) d st -> fits A d st /\ tc_srv d = i) -> forall fuel np, (1024 < fuel)%nat ->
  (forall i t, (i < np)%nat -> fits A (mk_tctx i t 0 (tc_qid stale) (tc_hash stale) (tc_msg stale)) (if proxy then Conn (Some i) None false else Conn None (Some i) false)) ->
  forall idxs k p ps w n m, length ps = np -> (forall i, In i idxs -> (i < np)%nat) -> holdsn p (at_ w A) m -> all_hold ps w B -> linv w (k_log k) ->
  exists c k' p' ps' w', connect_direct v keep stale fuel proxy idxs k p ps n = Ret (n + Z.of_nat c, k', p', ps') /\ (c <= length idxs)%nat /\ length ps' = np /\
    holdsn p' (at_ w' A) (m + c) /\ all_hold ps' w' B /\ linv w' (k_log k') /\ same_but (fun pl => pl = A \/ exists i, pl = B i) w w' /\ (forall msg, adds k k' [] msg) /\
    (forall s d, w s = Some (A, d) -> w' s = Some (A, d)) /\
    (c = length idxs /\ (forall i, In i idxs -> exists s d, w' s = Some (A, d) /\ tc_srv d = i) \/ no_conn k k').
Proof using HE.
  intros HBi HBh HBw HBA HA HFB fuel np Hfuel HFA. induction idxs as [|i idxs IH]; intros k p ps w n m HLen HI HH HAll HL; cbn [connect_direct].
  - exists 0%nat, k, p, ps, w. rewrite Z.add_0_r, Nat.add_0_r. split; [reflexivity|]. split; [lia|]. split; [exact HLen|]. split; [exact HH|]. split; [exact HAll|]. split; [exact HL|]. split; [apply same_refl|]. split; [intros msg; apply adds_refl|]. split; [auto|]. left. split; [reflexivity|]. intros i [].
  - assert (Hi : (i < np)%nat) by (apply HI; left; reflexivity). destruct (nth_error ps i) as [q|] eqn:Eq; [|apply nth_error_None in Eq; lia]. destruct (HAll i q Eq) as (nq & HQ). pose proof (holds_bound _ _ _ HQ) as HB1.
    destruct (get_avail_ok (B i) (HBh i) (HBw i) fuel k q w nq HQ ltac:(lia) HL) as (o & k1 & q1 & w1 & E1 & HQ1 & HL1 & HAd1 & HO1). rewrite E1. cbn [bind].
    assert (HLen1 : length (set_nth ps i q1) = np) by (rewrite set_nth_length; lia). destruct o as [[s d]|].
    + destruct HO1 as (Hw1 & (st & Hst & HF) & HS1 & HP1 & HP0). destruct (HFB i d st HF) as (HF2 & Esrv).
      assert (HH1 : holdsn p (at_ w1 A) m) by (eapply holds_ext; [exact HH|]; intros x; apply HS1; intros [X|X]; [apply (HBA i); auto|auto]).
      destruct (put_ok p w1 A m s d d st (k_log k1) HH1 Hw1 HL1 Hst HF2 HA) as (p2 & E2 & HH2 & HL2). rewrite E2. cbn [bind snd]. set (w2 := fupd w1 s (Some (A, d))) in *.
      assert (HS2 : same_but (fun pl => pl = A \/ exists i, pl = B i) w w2).
      { intros pl Hp x. destruct (place_dec pl PHand) as [->|N].
        - unfold w2. rewrite at_upd_other by (intros d'; congruence). unfold fupd. rewrite HP1. unfold fupd. destruct (Z.eqb_spec x s) as [->|]; [symmetry; exact HP0|reflexivity].
        - unfold w2. rewrite at_upd_out; [apply HS1; intros [X|X]; [apply Hp; eauto|contradiction]| |]; intros d' E; [apply Hp; left; congruence|rewrite Hw1 in E; congruence]. }
      assert (HAll2 : all_hold (set_nth ps i q1) w2 B).
      { eapply (all_hold_set ps w w2 B i q1 HAll); [lia| |].
        - eapply holds_ext'; [exact HQ1|]. intros x. unfold w2. apply at_upd_out; intros d' E; [apply (HBA i); congruence|rewrite Hw1 in E; apply (HBh i); congruence].
        - intros j x N. unfold w2. rewrite at_upd_out; [apply HS1; intros [X|X]; [apply HBi in X; congruence|apply (HBh j); auto]| |]; intros d' E; [apply (HBA j); congruence|rewrite Hw1 in E; apply (HBh j); congruence]. }
      destruct (IH k1 p2 (set_nth ps i q1) w2 (n + 1) (S m) HLen1 (fun j Hj => HI j (or_intror Hj)) HH2 HAll2 HL2) as (c & k' & p' & ps' & w' & ER & Hc & HLenF & HHF & HAllF & HLF & HSF & HAdF & HKF & HCF).
      exists (S c), k', p', ps', w'. split; [rewrite ER; do 4 f_equal; lia|]. split; [cbn [length]; lia|]. split; [exact HLenF|]. split; [replace (m + S c)%nat with (S m + c)%nat by lia; exact HHF|]. split; [exact HAllF|]. split; [exact HLF|].
      split; [eapply same_trans; eauto|]. split; [intros msg; eapply (adds_trans _ _ _ [] []); [apply HAd1|apply HAdF]|].
      assert (HK2 : forall x e, w x = Some (A, e) -> w2 x = Some (A, e)).
      { intros x e Hx. unfold w2. destruct (Z.eq_dec x s) as [->|N]; [|rewrite fupd_ne by exact N; apply at_some; rewrite HS1; [apply at_some; exact Hx|intros [X|X]; [apply (HBA i); auto|auto]]].
        exfalso. apply at_some in Hx. rewrite <- HS1 in Hx by (intros [X|X]; [apply (HBA i); auto|auto]). apply at_some in Hx. congruence. }
      split; [intros x e Hx; apply HKF, HK2, Hx|]. destruct HCF as [(-> & HCF)|HCF]; [left|right; eapply no_conn_r; [apply (HAd1 [])|exact HCF]]. split; [reflexivity|]. intros j [<-|Hj]; [|apply HCF; exact Hj].
      exists s, d. split; [apply HKF; apply fupd_at|exact Esrv].
    + assert (HS2 : same_but (fun pl => pl = A \/ exists i, pl = B i) w w1) by (eapply same_weak; [exact HO1|]; intros pl ->; eauto).
      assert (HH1 : holdsn p (at_ w1 A) m) by (eapply holds_ext; [exact HH|]; intros x; apply HO1; intros X; apply (HBA i); auto).
      assert (HAll2 : all_hold (set_nth ps i q1) w1 B) by (eapply (all_hold_set ps w w1 B i q1 HAll); [lia|exact HQ1|]; intros j x N; apply HO1; intros X; apply HBi in X; congruence).
      assert (HK1 : forall x e, w x = Some (A, e) -> w1 x = Some (A, e)) by (intros x e Hx; apply at_some; rewrite HO1; [apply at_some; exact Hx|]; intros X; apply (HBA i); auto).
      destruct (v_conn v (k_tick k1) (k_log k1)) as [s|] eqn:EC.
      * assert (EV := HE). destruct EV as (_ & HV & _). destruct (HV _ _ _ EC) as (Hs & Hnone). pose proof (linv_none _ _ _ HL1 Hnone) as Hw1. set (k2 := noted (TOpen s proxy i) (ticked k1)) in *.
        set (d := mk_tctx i (v_time v (k_tick k2)) 0 (tc_qid stale) (tc_hash stale) (tc_msg stale)).
        destruct (holds_add p (at_ w1 A) m s d HH1) as (p2 & E2 & HH2); [unfold at_; rewrite Hw1; reflexivity|exact Hs|]. rewrite E2. cbn [bind snd]. set (w2 := fupd w1 s (Some (A, d))).
        assert (HL2 : linv w2 (k_log (ticked k2))).
        { apply (linv_event w1 (k_log k1) (TOpen s proxy i) (Some (A, d)) HL1); cbn [legal subject]; [exact Hnone|exact I|]. split; [exact Hs|]. cbn [state_of]. rewrite Z.eqb_refl. eexists. split; [reflexivity|]. apply HFA. exact Hi. }
        assert (HOut : forall pl x, pl <> A -> at_ w2 pl x = at_ w1 pl x) by (intros pl x N; apply at_upd_out; intros d' E; congruence).
        destruct (IH (ticked k2) p2 (set_nth ps i q1) w2 (n + 1) (S m) HLen1 (fun j Hj => HI j (or_intror Hj))) as (c & k' & p' & ps' & w' & ER & Hc & HLenF & HHF & HAllF & HLF & HSF & HAdF & HKF & HCF); [eapply holds_ext; [exact HH2|]; intros x; apply at_upd_same| |exact HL2|].
        { intros j q' Hq'. eapply holds_ext'; [apply HAll2; exact Hq'|]. intros x. apply HOut. apply HBA. }
        assert (HAd2 : forall msg, adds k (ticked k2) [] msg).
        { intros msg. eapply (adds_trans _ _ _ [] []); [apply HAd1|]. eapply (adds_trans _ _ _ [] []); [apply adds_tick|]. eapply (adds_trans _ _ _ [] []); [apply adds_open|apply adds_tick]. }
        exists (S c), k', p', ps', w'. split; [rewrite ER; do 4 f_equal; lia|]. split; [cbn [length]; lia|]. split; [exact HLenF|]. split; [replace (m + S c)%nat with (S m + c)%nat by lia; exact HHF|]. split; [exact HAllF|]. split; [exact HLF|].
        split; [eapply same_trans; [|exact HSF]; intros pl Hp x; rewrite HOut by (intros X; apply Hp; auto); apply HS2; exact Hp|]. split; [intros msg; eapply (adds_trans _ _ _ [] []); [apply HAd2|apply HAdF]|].
        split. { intros x e Hx. apply HKF. unfold w2. rewrite fupd_ne; [apply HK1; exact Hx|]. intros ->. apply HK1 in Hx. congruence. }
        destruct HCF as [(-> & HCF)|HCF]; [left|right; eapply no_conn_r; [apply (HAd2 [])|exact HCF]]. split; [reflexivity|]. intros j [<-|Hj]; [|apply HCF; exact Hj]. exists s, d. split; [apply HKF; apply fupd_at|reflexivity].
      * destruct (IH (ticked k1) p (set_nth ps i q1) w1 n m HLen1 (fun j Hj => HI j (or_intror Hj)) HH1 HAll2 HL1) as (c & k' & p' & ps' & w' & ER & Hc & HLenF & HHF & HAllF & HLF & HSF & HAdF & HKF & HCF).
        exists c, k', p', ps', w'. split; [exact ER|]. split; [cbn [length]; lia|]. split; [exact HLenF|]. split; [exact HHF|]. split; [exact HAllF|]. split; [exact HLF|]. split; [eapply same_trans; eauto|].
        split; [intros msg; eapply (adds_trans _ _ _ [] []); [apply HAd1|]; eapply (adds_trans _ _ _ [] []); [apply adds_tick|apply HAdF]|]. split; [intros x e Hx; apply HKF, HK1, Hx|]. right.
        eapply no_conn_r; [apply (HAd1 [])|]. eapply (no_conn_l k1 (ticked k1)); [|apply (HAdF [])]. exists (k_tick k1), (k_log k1), [], []. split; [cbn [ticked k_tick]; lia|]. auto.
Qed.

(** The pools and the whereabouts. *)
Definition pinv (q : pools) (w : whereabouts) : Prop :=
  holds (q_query q) (at_ w PQuery) /\ all_hold (q_agents q) w PAgent /\ length (q_agents q) = nservers /\
  forall np, nproxies = Some np -> holds (q_proxy q) (at_ w PProxy) /\ all_hold (q_proxies q) w PProxies /\ length (q_proxies q) = np.

Lemma connect_proxies_ok fuel np k q w : (1024 < fuel)%nat -> nproxies = Some np -> pinv q w -> linv w (k_log k) ->
  exists c k' q' w', connect_proxies v keep stale fuel np k q = Ret (Z.of_nat c, k', q') /\ pinv q' w' /\ linv w' (k_log k') /\
    same_but (fun pl => pl = PProxy \/ exists i, pl = PProxies i) w w' /\ (forall msg, adds k k' [] msg) /\ q_query q' = q_query q /\ q_agents q' = q_agents q.
Proof using HE.
  intros Hf Hnp (HQ & HAg & HLA & HPr) HL. destruct (HPr np Hnp) as ((n & HP) & HPs & HLP). pose proof (holds_bound _ _ _ HP) as Hn. unfold connect_proxies.
  destruct (recycle_ok PProxy PProxies) with (fuel := fuel) (k := k) (p := q_proxy q) (ps := q_proxies q) (w := w) (n := n) as (k1 & p1 & ps1 & w1 & E1 & HAd1 & HLen1 & HH1 & HAll1 & HL1 & HS1 & _);
    [congruence|discriminate|discriminate|discriminate|discriminate| |exact HP|lia|exact HPs|exact HL|].
  { intros d st HF. cbn [fits] in *. destruct HF as (np' & E & Hlt & HF). split; [rewrite HLP; congruence|]. split; [exists np'; split; [exact E|split; [exact Hlt|exact HF]]|reflexivity]. }
  rewrite E1. cbn [bind]. assert (EV := HE). destruct EV as (_ & _ & HR). destruct (HR (k_tick k1)) as (R0 & _ & R2). destruct (order_all np (v_rand v (k_tick k1)) R0 (R2 np Hnp)) as (l & EO & PL). rewrite EO. cbn [bind].
  destruct HH1 as (m1 & HH1).
  destruct (connect_direct_ok PProxy PProxies true) with (fuel := fuel) (np := np) (idxs := l) (k := ticked k1) (p := p1) (ps := ps1) (w := w1) (n := 0) (m := m1) as (c & k2 & p2 & ps2 & w2 & E2 & _ & HLen2 & HH2 & HAll2 & HL2 & HS2 & HAd2 & _);
    [congruence|discriminate|discriminate|discriminate|discriminate| |exact Hf| |congruence| |exact HH1|exact HAll1|exact HL1|].
  { intros i d st HF. cbn [fits] in *. exact HF. }
  { intros i t Hi. cbn [fits]. exists np. auto. }
  { intros i Hi. apply (Permutation_in _ (Permutation_sym PL)) in Hi. apply in_seq in Hi. lia. }
  rewrite E2. cbn [bind]. exists c, k2, (mk_pools (q_query q) (q_agents q) p2 ps2), w2. split; [reflexivity|].
  assert (HS : same_but (fun pl => pl = PProxy \/ exists i, pl = PProxies i) w w2) by (eapply same_trans; eauto).
  split; [|split; [exact HL2|split; [exact HS|split; [|split; reflexivity]]]].
  - split; [eapply holds_ext'; [exact HQ|]; apply HS; intros [X|(i & X)]; discriminate|]. split; [eapply all_hold_same; [exact HAg|exact HS|]; intros i [X|(j & X)]; discriminate|]. split; [exact HLA|].
    intros np' E. cbn [q_proxy q_proxies]. split; [exists (m1 + c)%nat; exact HH2|]. split; [exact HAll2|congruence].
  - intros msg. eapply (adds_trans _ _ _ [] []); [apply HAd1|]. eapply (adds_trans _ _ _ [] []); [apply adds_tick|apply HAd2].
Qed.

Definition own (pl : place) : Prop := pl <> PHand /\ pl <> PWait.
Lemma agents_pq i d st : fits (PAgent i) d st -> fits PQuery d st /\ tc_srv d = i.
Proof. cbn [fits]. auto. Qed.

Lemma connect_via_ok fuel np : (1024 < fuel)%nat -> nproxies = Some np -> forall idxs k q w n, (forall i, In i idxs -> (i < nservers)%nat) -> pinv q w -> linv w (k_log k) ->
  exists c k' q' w', connect_via v keep stale fuel np idxs k q n = Ret (n + Z.of_nat c, k', q') /\ pinv q' w' /\ linv w' (k_log k') /\ same_but own w w' /\ (forall msg, adds k k' [] msg).
Proof using HE.
  intros Hf Hnp. induction idxs as [|i idxs IH]; intros k q w n HI HP HL; cbn [connect_via].
  - exists 0%nat, k, q, w. rewrite Z.add_0_r. split; [reflexivity|]. split; [exact HP|]. split; [exact HL|]. split; [apply same_refl|intros msg; apply adds_refl].
  - assert (Hi : (i < nservers)%nat) by (apply HI; left; reflexivity). assert (HP0 := HP). destruct HP0 as (HQ & HAg & HLA & HPr). destruct (nth_error (q_agents q) i) as [a|] eqn:Eq; [|apply nth_error_None in Eq; lia].
    destruct (HAg i a Eq) as (na & HA). pose proof (holds_bound _ _ _ HA) as HB1.
    destruct (get_avail_ok (PAgent i) ltac:(discriminate) ltac:(discriminate) fuel k a w na HA ltac:(lia) HL) as (o & k1 & a1 & w1 & E1 & HA1 & HL1 & HAd1 & HO1). rewrite E1. cbn [bind].
    assert (HLen1 : length (set_nth (q_agents q) i a1) = nservers) by (rewrite set_nth_length; lia). destruct o as [[s d]|].
    + destruct HO1 as (Hw1 & (st & Hst & HF) & HS1 & HP1 & HP2). destruct (agents_pq i d st HF) as (HF2 & Esrv). destruct HQ as (m & HQ).
      assert (HQ1 : holdsn (q_query q) (at_ w1 PQuery) m) by (eapply holds_ext; [exact HQ|]; intros x; apply HS1; intros [X|X]; discriminate).
      destruct (put_ok (q_query q) w1 PQuery m s d d st (k_log k1) HQ1 Hw1 HL1 Hst HF2 ltac:(discriminate)) as (p2 & E2 & HH2 & HL2). cbn [q_query]. rewrite E2. cbn [bind snd q_agents q_proxy q_proxies]. set (w2 := fupd w1 s (Some (PQuery, d))) in *.
      assert (HS2 : same_but (fun pl => pl = PAgent i \/ pl = PQuery) w w2).
      { intros pl Hp x. destruct (place_dec pl PHand) as [->|N].
        - unfold w2. rewrite at_upd_other by (intros d'; congruence). unfold fupd. rewrite HP1. unfold fupd. destruct (Z.eqb_spec x s) as [->|]; [symmetry; exact HP2|reflexivity].
        - unfold w2. rewrite at_upd_out; [apply HS1; intros [X|X]; [apply Hp; eauto|contradiction]| |]; intros d' E; [apply Hp; right; congruence|rewrite Hw1 in E; congruence]. }
      destruct (IH k1 (mk_pools p2 (set_nth (q_agents q) i a1) (q_proxy q) (q_proxies q)) w2 (n + 1) (fun j Hj => HI j (or_intror Hj))) as (c & k' & q' & w' & ER & HPF & HLF & HSF & HAdF); [|exact HL2|].
      { split; [exists (S m); exact HH2|]. cbn [q_agents q_proxy q_proxies]. split; [|split; [exact HLen1|]].
        - eapply (all_hold_set (q_agents q) w w2 PAgent i a1 HAg); [lia| |intros j x N; apply HS2; intros [X|X]; congruence].
          eapply holds_ext'; [exact HA1|]. intros x. unfold w2. apply at_upd_out; intros d' E; [discriminate|rewrite Hw1 in E; discriminate].
        - intros np' E. destruct (HPr np' E) as (X1 & X2 & X3). split; [eapply holds_ext'; [exact X1|]; apply HS2; intros [X|X]; discriminate|]. split; [|exact X3]. eapply all_hold_same; [exact X2|exact HS2|]. intros j [X|X]; discriminate. }
      exists (S c), k', q', w'. split; [rewrite ER; do 3 f_equal; lia|]. split; [exact HPF|]. split; [exact HLF|]. split; [|intros msg; eapply (adds_trans _ _ _ [] []); [apply HAd1|apply HAdF]].
      eapply same_trans; [|exact HSF]. eapply same_weak; [exact HS2|]. intros pl [->| ->]; split; discriminate.
    + assert (HP1 : pinv (mk_pools (q_query q) (set_nth (q_agents q) i a1) (q_proxy q) (q_proxies q)) w1).
      { split; [eapply holds_ext'; [exact HQ|]; apply HO1; discriminate|]. cbn [q_agents q_proxy q_proxies]. split; [|split; [exact HLen1|]].
        - eapply (all_hold_set (q_agents q) w w1 PAgent i a1 HAg); [lia|exact HA1|intros j x N; apply HO1; congruence].
        - intros np' E. destruct (HPr np' E) as (X1 & X2 & X3). split; [eapply holds_ext'; [exact X1|]; apply HO1; discriminate|]. split; [|exact X3]. eapply all_hold_same; [exact X2|exact HO1|]. discriminate. }
      destruct (connect_proxies_ok fuel np k1 _ w1 Hf Hnp HP1 HL1) as (c0 & k2 & q2 & w2 & E2 & HP2 & HL2 & HS2 & HAd2 & EQ1 & EQ2). rewrite E2. cbn [bind].
      assert (HS02 : same_but own w w2). { eapply same_trans; [eapply same_weak; [exact HO1|intros pl ->; split; discriminate]|eapply same_weak; [exact HS2|]]. intros pl [->|(j & ->)]; split; discriminate. }
      assert (HAd02 : forall msg, adds k k2 [] msg) by (intros msg; eapply (adds_trans _ _ _ [] []); [apply HAd1|apply HAd2]).
      destruct (0 <? Z.of_nat c0).
      * assert (HP20 := HP2). destruct HP20 as (HQ2 & HAg2 & HLA2 & HPr2). destruct (HPr2 np Hnp) as ((npx & HX) & HXs & HXl). pose proof (holds_bound _ _ _ HX) as HBx.
        destruct (get_avail_ok PProxy ltac:(discriminate) ltac:(discriminate) fuel k2 (q_proxy q2) w2 npx HX ltac:(lia) HL2) as (o2 & k3 & p3 & w3 & E3 & HX3 & HL3 & HAd3 & HO3). rewrite E3. cbn [bind]. destruct o2 as [[s d]|].
        -- destruct HO3 as (Hw3 & (st & Hst & HF) & HS3 & HP3 & HP4). set (d' := mk_tctx i (tc_last d) (tc_queried d) (tc_qid d) (tc_hash d) (tc_msg d)). destruct HQ2 as (m & HQ2).
           assert (HQ3 : holdsn (q_query q2) (at_ w3 PQuery) m) by (eapply holds_ext; [exact HQ2|]; intros x; apply HS3; intros [X|X]; discriminate).
           assert (HF2 : fits PQuery d' st). { cbn [fits] in *. destruct HF as (np' & En & Hlt & Hq & ->). exists (Some (tc_srv d)), None. cbn [tc_srv tc_queried d']. rewrite En. split; [reflexivity|]. split; [exact Hi|]. split; [|lia]. split; [discriminate|]. left. auto. }
           destruct (put_ok (q_query q2) w3 PQuery m s d d' st (k_log k3) HQ3 Hw3 HL3 Hst HF2 ltac:(discriminate)) as (p4 & E4 & HH4 & HL4). cbn [q_query]. rewrite E4. cbn [bind snd q_agents q_proxy q_proxies]. set (w4 := fupd w3 s (Some (PQuery, d'))) in *.
           assert (HS4 : same_but (fun pl => pl = PProxy \/ pl = PQuery) w2 w4).
           { intros pl Hp x. destruct (place_dec pl PHand) as [->|N].
             - unfold w4. rewrite at_upd_other by (intros d0; congruence). unfold fupd. rewrite HP3. unfold fupd. destruct (Z.eqb_spec x s) as [->|]; [symmetry; exact HP4|reflexivity].
             - unfold w4. rewrite at_upd_out; [apply HS3; intros [X|X]; [apply Hp; eauto|contradiction]| |]; intros d0 E; [apply Hp; right; congruence|rewrite Hw3 in E; congruence]. }
           destruct (IH k3 (mk_pools p4 (q_agents q2) p3 (q_proxies q2)) w4 (n + 1) (fun j Hj => HI j (or_intror Hj))) as (c & k' & q' & w' & ER & HPF & HLF & HSF & HAdF); [|exact HL4|].
           { split; [exists (S m); exact HH4|]. cbn [q_agents q_proxy q_proxies]. split; [eapply all_hold_same; [exact HAg2|exact HS4|]; intros j [X|X]; discriminate|]. split; [exact HLA2|].
             intros np' E. split; [eapply holds_ext'; [exact HX3|]; intros x; unfold w4; apply at_upd_out; intros d0 E0; [discriminate|rewrite Hw3 in E0; discriminate]|]. split; [|congruence]. eapply all_hold_same; [exact HXs|exact HS4|]. intros j [X|X]; discriminate. }
           exists (S c), k', q', w'. split; [rewrite ER; do 3 f_equal; lia|]. split; [exact HPF|]. split; [exact HLF|]. split.
           ++ eapply same_trans; [exact HS02|]. eapply same_trans; [|exact HSF]. eapply same_weak; [exact HS4|]. intros pl [->| ->]; split; discriminate.
           ++ intros msg. eapply (adds_trans _ _ _ [] []); [apply HAd02|]. eapply (adds_trans _ _ _ [] []); [apply HAd3|apply HAdF].
        -- destruct (IH k3 (mk_pools (q_query q2) (q_agents q2) p3 (q_proxies q2)) w3 n (fun j Hj => HI j (or_intror Hj))) as (c & k' & q' & w' & ER & HPF & HLF & HSF & HAdF); [|exact HL3|].
           { split; [eapply holds_ext'; [exact HQ2|]; apply HO3; discriminate|]. cbn [q_agents q_proxy q_proxies]. split; [eapply all_hold_same; [exact HAg2|exact HO3|]; discriminate|]. split; [exact HLA2|].
             intros np' E. split; [exact HX3|]. split; [|congruence]. eapply all_hold_same; [exact HXs|exact HO3|]. discriminate. }
           exists c, k', q', w'. split; [exact ER|]. split; [exact HPF|]. split; [exact HLF|]. split.
           ++ eapply same_trans; [exact HS02|]. eapply same_trans; [|exact HSF]. eapply same_weak; [exact HO3|]. intros pl ->; split; discriminate.
           ++ intros msg. eapply (adds_trans _ _ _ [] []); [apply HAd02|]. eapply (adds_trans _ _ _ [] []); [apply HAd3|apply HAdF].
      * destruct (IH k2 q2 w2 n (fun j Hj => HI j (or_intror Hj)) HP2 HL2) as (c & k' & q' & w' & ER & HPF & HLF & HSF & HAdF). exists c, k', q', w'. split; [exact ER|]. split; [exact HPF|]. split; [exact HLF|].
        split; [eapply same_trans; eauto|]. intros msg. eapply (adds_trans _ _ _ [] []); [apply HAd02|apply HAdF].
Qed.

Lemma t_connect_ok fuel one k q w : (1024 < fuel)%nat -> (forall i, one = Some i -> (i < nservers)%nat) -> pinv q w -> linv w (k_log k) ->
  exists c k' q' w', t_connect v targets nproxies keep stale fuel one k q = Ret (Z.of_nat c, k', q') /\ pinv q' w' /\ linv w' (k_log k') /\ same_but own w w' /\ (forall msg, adds k k' [] msg) /\
    (nproxies = None -> one = None -> (forall t, (k_tick k <= t)%nat -> v_sel v t = [SelReady (fun _ => true)]) -> no_conn k k' \/
      (c = nservers /\ holdsn (q_query q') (at_ w' PQuery) nservers /\ forall i, (i < nservers)%nat -> exists s d, w' s = Some (PQuery, d) /\ tc_srv d = i)).
Proof using HE.
  intros Hf Hone (HQ & HAg & HLA & HPr) HL. destruct HQ as (n & HQ). pose proof (holds_bound _ _ _ HQ) as Hn. unfold t_connect.
  destruct (recycle_ok PQuery PAgent) with (fuel := fuel) (k := k) (p := q_query q) (ps := q_agents q) (w := w) (n := n) as (k1 & p1 & ps1 & w1 & E1 & HAd1 & HLen1 & HH1 & HAll1 & HL1 & HS1 & HFav);
    [congruence|discriminate|discriminate|discriminate|discriminate| |exact HQ|lia|exact HAg|exact HL|].
  { intros d st HF. cbn [fits] in *. assert (HF' := HF). destruct HF' as (via & o & _ & Hlt & _). split; [rewrite HLA; exact Hlt|]. split; [exact HF|reflexivity]. }
  rewrite E1. cbn [bind]. assert (EV := HE). destruct EV as (_ & _ & HR). destruct (HR (k_tick k1)) as (R0 & R1 & _). destruct HH1 as (m1 & HH1).
  assert (EO : exists l, order one nservers (v_rand v (k_tick k1)) = Ret l /\ (forall i, In i l -> (i < nservers)%nat) /\ (one = None -> Permutation (seq 0 nservers) l)).
  { destruct one as [i|].
    - exists [i]. split; [reflexivity|]. split; [intros j [<-|[]]; auto|discriminate].
    - destruct (order_all nservers (v_rand v (k_tick k1)) R0 R1) as (l & EO & PL). exists l. split; [exact EO|]. split; [|auto]. intros i Hi. apply (Permutation_in _ (Permutation_sym PL)) in Hi. apply in_seq in Hi. lia. }
  destruct EO as (l & EO & HI & HPm). rewrite EO. cbn [bind].
  assert (HS1' : same_but own w w1) by (eapply same_weak; [exact HS1|]; intros pl [->|(j & ->)]; split; discriminate).
  assert (D : nproxies = None \/ exists np, nproxies = Some np) by (case nproxies; eauto). destruct D as [Enp|(np & Enp)]; rewrite Enp.
  2: {
    destruct (connect_via_ok fuel np Hf Enp l (ticked k1) (mk_pools p1 ps1 (q_proxy q) (q_proxies q)) w1 0 HI) as (c & k' & q' & w' & ER & HPF & HLF & HSF & HAdF); [|exact HL1|].
    { split; [exists m1; exact HH1|]. cbn [q_agents q_proxy q_proxies]. split; [exact HAll1|]. split; [congruence|]. intros np' E. destruct (HPr np' E) as (X1 & X2 & X3).
      split; [eapply holds_ext'; [exact X1|]; apply HS1; intros [X|(j & X)]; discriminate|]. split; [|exact X3]. eapply all_hold_same; [exact X2|exact HS1|]. intros i [X|(j & X)]; discriminate. }
    exists c, k', q', w'. split; [exact ER|]. split; [exact HPF|]. split; [exact HLF|]. split; [eapply same_trans; eauto|]. split; [|discriminate]. intros msg. eapply (adds_trans _ _ _ [] []); [apply HAd1|]. eapply (adds_trans _ _ _ [] []); [apply adds_tick|apply HAdF]. }
  { destruct (connect_direct_ok PQuery PAgent false) with (fuel := fuel) (np := nservers) (idxs := l) (k := ticked k1) (p := p1) (ps := ps1) (w := w1) (n := 0) (m := m1) as (c & k2 & p2 & ps2 & w2 & E2 & _ & HLen2 & HH2 & HAll2 & HL2 & HS2 & HAd2 & _ & HC2);
      [congruence|discriminate|discriminate|discriminate|discriminate|apply agents_pq|exact Hf| |congruence|exact HI|exact HH1|exact HAll1|exact HL1|].
    { intros i t Hi. cbn [fits]. exists None, (Some i). rewrite Enp. cbn [tc_srv tc_queried]. repeat split; auto; lia. }
    rewrite E2. cbn [bind]. exists c, k2, (mk_pools p2 ps2 (q_proxy q) (q_proxies q)), w2. split; [reflexivity|].
    assert (HS2' : same_but own w1 w2) by (eapply same_weak; [exact HS2|]; intros pl [->|(j & ->)]; split; discriminate).
    split; [|split; [exact HL2|split; [eapply same_trans; eauto|split]]].
    + split; [exists (m1 + c)%nat; exact HH2|]. cbn [q_agents q_proxy q_proxies]. split; [exact HAll2|]. split; [exact HLen2|]. intros np' E. rewrite Enp in E. discriminate.
    + intros msg. eapply (adds_trans _ _ _ [] []); [apply HAd1|]. eapply (adds_trans _ _ _ [] []); [apply adds_tick|apply HAd2].
    + intros _ Eone HV. specialize (HPm Eone). destruct HC2 as [(-> & HC2)|HC2]; [right|left; eapply no_conn_r; [apply (HAd1 [])|]; eapply no_conn_r; [apply (adds_tick _ [])|exact HC2]].
      pose proof (Permutation_length HPm) as HLl. rewrite seq_length in HLl. rewrite <- HLl in *. split; [reflexivity|]. split.
      * assert (m1 = 0%nat) as ->. { eapply holds_empty; [exact HH1|]. intros s. destruct (at_ w1 PQuery s) as [d|] eqn:E; [|reflexivity]. apply at_some in E. exfalso. eapply HFav; eauto. }
        exact HH2.
      * intros i Hi. apply HC2. apply (Permutation_in _ HPm). apply in_seq. lia. }
Qed.

(** The sends reach whole queries and every socket is ready. *)
Local Notation fair := (Tcpm_Spec.fair nproxies v).

Lemma fair_later k k' msg : fair k msg -> (k_tick k <= k_tick k')%nat -> fair k' msg.
Proof. intros (F1 & F2 & F3) H. split; [exact F1|]. split; [intros t Ht; apply F2; lia|exact F3]. Qed.

Lemma send_loop_ok a qid hash msg : forall n k p wp w m, holdsn p (at_ w PQuery) m -> holds wp (at_ w PWait) -> linv w (k_log k) ->
  exists k' p' wp' w' ss m', send_loop v targets nproxies n a qid hash msg k p wp = Ret (k', p', wp') /\ holdsn p' (at_ w' PQuery) m' /\ holds wp' (at_ w' PWait) /\ linv w' (k_log k') /\
    same_but (fun pl => pl = PQuery \/ pl = PWait) w w' /\ adds k k' ss msg /\ (length ss <= n)%nat /\ (forall o, In o ss -> exists i, o = Some i /\ (i < nservers)%nat) /\
    (forall s d, w s = Some (PWait, d) -> w' s = Some (PWait, d)) /\
    (forall s d, w' s = Some (PWait, d) -> w s = Some (PWait, d) /\ last_sent (k_log k') s = last_sent (k_log k) s \/ tc_qid d = qid /\ tc_hash d = hash /\ tc_msg d = Some a /\ In (Some (tc_srv d)) ss /\ last_sent (k_log k') s = Some msg) /\
    (fair k msg -> (n <= m)%nat -> length ss = n /\ (m' + n = m)%nat /\ forall s d, w s = Some (PQuery, d) -> w' s = Some (PQuery, d) \/ In (Some (tc_srv d)) ss).
Proof using HE stale.
  induction n as [|n IH]; intros k p wp w m HP HW HL; cbn [send_loop].
  - exists k, p, wp, w, [], m. split; [reflexivity|]. split; [exact HP|]. split; [exact HW|]. split; [exact HL|]. split; [apply same_refl|]. split; [apply adds_refl|]. split; [cbn; lia|]. split; [intros o []|]. split; [auto|]. split; [auto|].
    intros _ _. split; [reflexivity|]. split; [lia|auto].
  - destruct (take_ok k p w PQuery m HP HL ltac:(discriminate) ltac:(discriminate)) as (o & err & p1 & E & HO). rewrite E. cbn [bind]. destruct o as [[s d]|].
    + destruct HO as (Hw & m1 & Hm & HP1 & HL1 & Hs & st & Hst & HF). set (w1 := fupd w s (Some (PHand, d))) in *. cbn [fits] in HF. destruct HF as (via & srv & -> & Hlt & HV & Hq).
      assert (Hw1 : w1 s = Some (PHand, d)) by apply fupd_at.
      assert (HS1 : forall pl x, pl <> PQuery -> pl <> PHand -> at_ w1 pl x = at_ w pl x) by (intros pl x N1 N2; apply at_upd_out; intros d' E2; congruence).
      (* closing *)
      assert (HClose : forall k2, (forall msg, adds k k2 [] msg) -> linv w1 (k_log k2) -> exists w2, linv w2 (TClose s :: k_log k2) /\ holdsn p1 (at_ w2 PQuery) m1 /\ holds wp (at_ w2 PWait) /\ same_but (fun pl => pl = PQuery \/ pl = PWait) w w2 /\ (forall x e, w x = Some (PWait, e) <-> w2 x = Some (PWait, e))).
      { intros k2 HAd2 HLx. exists (fupd w1 s None). split; [eapply linv_close; eauto; discriminate|]. split; [eapply holds_ext; [exact HP1|]; intros x; apply at_upd_out; intros d' E2; congruence|].
        split; [eapply holds_ext'; [exact HW|]; intros x; rewrite at_upd_out by (intros d' E2; congruence); apply HS1; discriminate|]. split.
        - intros pl Hp x. destruct (place_dec pl PHand) as [->|N]; [|rewrite at_upd_out by (intros d' E2; congruence); apply HS1; [intros ->; apply Hp; auto|exact N]].
          unfold w1, at_, fupd. destruct (Z.eqb_spec x s) as [->|]; [|reflexivity]. rewrite Hw. destruct (place_dec PHand PQuery); [discriminate|reflexivity].
        - intros x e. unfold w1, fupd. destruct (Z.eqb_spec x s) as [->|]; [rewrite Hw; split; discriminate|tauto]. }
      (* sending *)
      assert (HSend : forall k2, (forall msg, adds k k2 [] msg) -> linv w1 (k_log k2) -> state_of (k_log k2) s = Some (Conn via (Some (tc_srv d)) false) ->
        exists k' p' wp' w' ss m', (let (ok, out) := send_wrapper (v_send v (k_tick k2)) msg in
            let k3 := noted (TSent s msg out ok) (ticked k2) in
            if negb (ok || v_err0 v (k_tick k2)) then send_loop v targets nproxies n a qid hash msg (noted (TClose s) k3) p1 wp
            else let! r := pl_add wp s (mk_tctx (tc_srv d) (v_time v (k_tick k3)) (tc_queried d + 1) qid hash (Some a)) in send_loop v targets nproxies n a qid hash msg (ticked k3) p1 (snd r)) = Ret (k', p', wp') /\
          holdsn p' (at_ w' PQuery) m' /\ holds wp' (at_ w' PWait) /\ linv w' (k_log k') /\ same_but (fun pl => pl = PQuery \/ pl = PWait) w w' /\ adds k k' ss msg /\ (length ss <= S n)%nat /\ (forall o, In o ss -> exists i, o = Some i /\ (i < nservers)%nat) /\
          (forall x e, w x = Some (PWait, e) -> w' x = Some (PWait, e)) /\
          (forall x e, w' x = Some (PWait, e) -> w x = Some (PWait, e) /\ last_sent (k_log k') x = last_sent (k_log k) x \/ tc_qid e = qid /\ tc_hash e = hash /\ tc_msg e = Some a /\ In (Some (tc_srv e)) ss /\ last_sent (k_log k') x = Some msg) /\
          (fair k msg -> (S n <= m)%nat -> length ss = S n /\ (m' + S n = m)%nat /\ forall x e, w x = Some (PQuery, e) -> w' x = Some (PQuery, e) \/ In (Some (tc_srv e)) ss)).
      { intros k2 HAd2 HL2 Hst2. destruct (send_wrapper (v_send v (k_tick k2)) msg) as [ok out] eqn:ES. cbv zeta. set (k3 := noted (TSent s msg out ok) (ticked k2)).
        assert (HAd3 : adds k k3 [Some (tc_srv d)] msg). { eapply (adds_trans _ _ _ [] [_]); [eapply (adds_trans _ _ _ [] []); [apply HAd2|apply adds_tick]|]. eapply adds_sent. exact Hst2. }
        assert (HSt3 : state_of (k_log k3) s = Some (Conn via (Some (tc_srv d)) true)). { cbn [k3 noted ticked k_log state_of]. rewrite Z.eqb_refl, Hst2. reflexivity. }
        assert (HL3 : linv (fupd w1 s (Some (PHand, d))) (k_log k3)).
        { apply (linv_event w1 (k_log k2) (TSent s msg out ok) (Some (PHand, d)) HL2); cbn [legal subject]; [eauto|exact I|]. split; [exact Hs|]. eexists. split; [exact HSt3|discriminate]. }
        destruct (negb (ok || v_err0 v (k_tick k2))) eqn:EK.
        - set (w2 := fupd (fupd w1 s (Some (PHand, d))) s None). assert (HL4 : linv w2 (TClose s :: k_log k3)) by (apply (linv_close _ _ s PHand d HL3); [apply fupd_at|discriminate]).
          assert (HX : forall x, w2 x = fupd w1 s None x) by (intros x; unfold w2, fupd; destruct (x =? s); reflexivity).
          assert (HP2 : holdsn p1 (at_ w2 PQuery) m1). { eapply holds_ext; [exact HP1|]; intros x. unfold at_ at 1. rewrite HX. apply at_upd_out; intros d' E2; congruence. }
          assert (HS2 : same_but (fun pl => pl = PQuery \/ pl = PWait) w w2).
          { intros pl Hp x. unfold at_ at 1. rewrite HX. unfold w1, at_, fupd. destruct (Z.eqb_spec x s) as [->|]; [|reflexivity]. rewrite Hw. destruct (place_dec pl PQuery) as [->|]; [exfalso; apply Hp; auto|reflexivity]. }
          assert (HWs : forall x e, w x = Some (PWait, e) <-> w2 x = Some (PWait, e)) by (intros x e; rewrite HX; unfold w1, fupd; destruct (Z.eqb_spec x s) as [->|]; [rewrite Hw; split; discriminate|tauto]).
          destruct (IH (noted (TClose s) k3) p1 wp w2 m1 HP2) as (k' & p' & wp' & w' & ss & m' & ER & X1 & X2 & X3 & X4 & X5 & X6 & X7 & X8 & X9 & X10).
          { eapply holds_ext'; [exact HW|]. intros x. destruct (at_ w2 PWait x) as [e|] eqn:E2; [apply at_some in E2; apply HWs in E2; symmetry; apply at_some; exact E2|]. destruct (at_ w PWait x) as [e|] eqn:E3; [|reflexivity]. apply at_some in E3. apply HWs in E3. apply at_some in E3. congruence. }
          { exact HL4. }
          exists k', p', wp', w', (ss ++ [Some (tc_srv d)]), m'. split; [exact ER|]. split; [exact X1|]. split; [exact X2|]. split; [exact X3|]. split; [eapply same_trans; eauto|].
          split; [eapply adds_trans; [|exact X5]; eapply (adds_trans _ _ _ _ []); [exact HAd3|apply adds_close]|]. rewrite app_length. cbn [length]. split; [lia|]. split.
          { intros o Ho. apply in_app_or in Ho. destruct Ho as [Ho|[<-|[]]]; [apply X7; exact Ho|eauto]. }
          split; [intros x e Hx; apply X8, HWs, Hx|]. split.
          { intros x e Hx. destruct (X9 x e Hx) as [(Y & YL)|(Y1 & Y2 & Y3 & Y4 & Y5)]; [left; split; [apply HWs; exact Y|]|right].
            - rewrite YL. cbn [noted k3 ticked k_log last_sent]. destruct (Z.eqb_spec s x) as [->|_]; [apply HWs in Y; congruence|]. apply (adds_last _ _ msg), HAd2.
            - repeat (split; [assumption|]). split; [|exact Y5]. apply in_or_app. left. exact Y4. }
          intros (F1 & F2 & F3) _. rewrite F3 in ES. injection ES as <- _. discriminate.
        - set (d2 := mk_tctx (tc_srv d) (v_time v (k_tick k3)) (tc_queried d + 1) qid hash (Some a)). destruct HW as (nw & HW). set (w1' := fupd w1 s (Some (PHand, d))) in *.
          assert (HW1 : holdsn wp (at_ w1' PWait) nw) by (eapply holds_ext; [exact HW|]; intros x; unfold w1'; rewrite at_upd_out by (intros d' E2; congruence); apply HS1; discriminate).
          destruct (put_ok wp w1' PWait nw s d d2 _ (k_log k3) HW1 (fupd_at _ _ _) HL3 HSt3) as (wp2 & EP & HW2 & HL4); [|discriminate|].
          { cbn [fits]. right. split; [|cbn [d2 tc_queried]; lia]. exists via, (Some (tc_srv d)). cbn [d2 tc_srv tc_queried]. split; [reflexivity|]. split; [exact Hlt|]. split; [|lia]. revert HV. case nproxies; [|intros (HV1 & HV2); auto]. intros np (HV1 & _). split; [exact HV1|]. right. split; [lia|reflexivity]. }
          rewrite EP. cbn [bind snd]. set (w2 := fupd w1' s (Some (PWait, d2))) in *.
          assert (HX : forall x, w2 x = fupd w s (Some (PWait, d2)) x) by (intros x; unfold w2, w1', w1, fupd; destruct (x =? s); reflexivity).
          assert (HS2 : same_but (fun pl => pl = PQuery \/ pl = PWait) w w2).
          { intros pl Hp x. unfold at_ at 1. rewrite HX. apply at_upd_out; intros d' E2; apply Hp; [right|left]; congruence. }
          destruct (IH (ticked k3) p1 wp2 w2 m1) as (k' & p' & wp' & w' & ss & m' & ER & X1 & X2 & X3 & X4 & X5 & X6 & X7 & X8 & X9 & X10).
          { eapply holds_ext; [exact HP1|]. intros x. unfold at_. rewrite HX. unfold w1, fupd. destruct (x =? s); [|reflexivity]. destruct (place_dec PQuery PWait), (place_dec PQuery PHand); try discriminate; reflexivity. }
          { exists (S nw). exact HW2. }
          { exact HL4. }
          exists k', p', wp', w', (ss ++ [Some (tc_srv d)]), m'. split; [exact ER|]. split; [exact X1|]. split; [exact X2|]. split; [exact X3|]. split; [eapply same_trans; eauto|].
          split; [eapply adds_trans; [|exact X5]; eapply (adds_trans _ _ _ _ []); [exact HAd3|apply adds_tick]|]. rewrite app_length. cbn [length]. split; [lia|]. split.
          { intros o Ho. apply in_app_or in Ho. destruct Ho as [Ho|[<-|[]]]; [apply X7; exact Ho|eauto]. }
          split. { intros x e Hx. apply X8. rewrite HX. rewrite fupd_ne; [exact Hx|]. intros ->. congruence. }
          split.
          { intros x e Hx. destruct (X9 x e Hx) as [(Y & YL)|(Y1 & Y2 & Y3 & Y4 & Y5)]; [|right; repeat (split; [assumption|]); split; [|exact Y5]; apply in_or_app; left; exact Y4]. rewrite HX in Y. unfold fupd in Y.
            cbn [k3 ticked noted k_log last_sent] in YL. rewrite (Z.eqb_sym s x) in YL. destruct (Z.eqb_spec x s) as [->|]; [|left; split; [exact Y|rewrite YL; apply (adds_last _ _ msg), HAd2]].
            injection Y as <-. right. repeat (split; [reflexivity|]). split; [|exact YL]. apply in_or_app. right. left. reflexivity. }
          intros HFair Hle. assert (HFl : fair (ticked k3) msg) by (apply (fair_later k _ _ HFair); cbn [ticked k_tick]; pose proof (proj1 HAd3); lia). destruct (X10 HFl ltac:(lia)) as (Z1 & Z2 & Z3). split; [lia|]. split; [lia|]. intros x e Hx. destruct (Z.eq_dec x s) as [->|N].
          { right. apply in_or_app. right. left. congruence. }
          destruct (Z3 x e) as [Y|Y]; [rewrite HX, fupd_ne by exact N; exact Hx|left; exact Y|right; apply in_or_app; left; exact Y]. }
      assert (D : nproxies = None \/ exists np, nproxies = Some np) by (case nproxies; eauto). destruct D as [Enp|(np & Enp)].
      * rewrite Enp in HV |- *. destruct HV as (-> & ->). cbn [bind negb]. rewrite <- Enp. apply (HSend (ticked k)); [intros ms; apply adds_tick|exact HL1|exact Hst].
      * rewrite Enp in HV |- *. destruct HV as (HV1 & HV2). destruct via as [j|]; [|congruence]. destruct (Z.eqb_spec (tc_queried d) 0) as [Eq|Nq].
        -- assert (srv = None) as -> by (destruct HV2 as [(_ & HV2)|(HV2 & _)]; [exact HV2|lia]). destruct (nth_error targets (tc_srv d)) as [[text port]|] eqn:ET; [|apply nth_error_None in ET; lia].
           destruct (v_prep v (k_tick (ticked k))) as [[s1 s2] c]. destruct (prep_total s1 s2 c text port) as (ok & out & c' & ->). cbn [bind]. set (k2 := noted (TPrep s (tc_srv d) ok) (ticked (ticked k))).
           assert (HAd2 : forall ms, adds k k2 [] ms) by (intros ms; eapply (adds_trans _ _ _ [] []); [eapply (adds_trans _ _ _ [] []); apply adds_tick|apply adds_prep]).
           assert (HSt2 : state_of (k_log k2) s = Some (Conn (Some j) (Some (tc_srv d)) false)) by (cbn [k2 noted ticked k_log state_of]; rewrite Z.eqb_refl, Hst; reflexivity).
           assert (HL2 : linv w1 (k_log k2)).
           { assert (HLx : linv (fupd w1 s (Some (PHand, d))) (k_log k2)). { apply (linv_event w1 (k_log k) (TPrep s (tc_srv d) ok) (Some (PHand, d)) HL1); cbn [legal subject]; [eauto|exact I|]. split; [exact Hs|]. eexists. split; [exact HSt2|discriminate]. }
             destruct HLx as (Y1 & Y2 & Y3). split; [exact Y1|]. split; [|exact Y3]. intros x. specialize (Y2 x). replace (w1 x) with (fupd w1 s (Some (PHand, d)) x); [exact Y2|]. unfold w1, fupd. destruct (x =? s); reflexivity. }
           destruct ok; cbn [negb].
           ++ rewrite <- Enp. apply (HSend k2 HAd2 HL2 HSt2).
           ++ destruct (HClose k2 HAd2 HL2) as (w2 & HL3 & HP2 & HW2 & HS2 & HWs). destruct (IH (noted (TClose s) k2) p1 wp w2 m1 HP2 HW2 HL3) as (k' & p' & wp' & w' & ss & m' & ER & X1 & X2 & X3 & X4 & X5 & X6 & X7 & X8 & X9 & X10).
              rewrite Enp in ER. exists k', p', wp', w', ss, m'. split; [exact ER|]. split; [exact X1|]. split; [exact X2|]. split; [exact X3|]. split; [eapply same_trans; eauto|].
              split; [rewrite <- (app_nil_r ss); eapply adds_trans; [|exact X5]; eapply (adds_trans _ _ _ [] []); [apply HAd2|apply adds_close]|]. split; [lia|]. split; [exact X7|].
              split; [intros x e Hx; apply X8, HWs, Hx|]. split; [intros x e Hx; destruct (X9 x e Hx) as [(Y & YL)|Y]; [left; split; [apply HWs; exact Y|rewrite YL; exact (adds_last _ _ msg x (HAd2 msg))]|right; exact Y]|]. intros (F1 & _). congruence.
        -- assert (srv = Some (tc_srv d)) as -> by (destruct HV2 as [(HV2 & _)|(_ & HV2)]; [contradiction|exact HV2]). cbn [bind negb]. rewrite <- Enp. apply (HSend (ticked k)); [intros ms; apply adds_tick|exact HL1|exact Hst].
    + destruct HO as (-> & HFv). destruct (negb (err =? 0) && negb (void_error err)) eqn:EB.
      * exists (ticked k), p, wp, w, [], m. split; [reflexivity|]. split; [exact HP|]. split; [exact HW|]. split; [exact HL|]. split; [apply same_refl|]. split; [apply adds_tick|]. split; [cbn; lia|]. split; [intros o []|]. split; [auto|]. split; [auto|].
        intros (_ & F2 & _) _. destruct (HFv _ (F2 _ (le_n _))) as (-> & _). discriminate.
      * destruct (IH (ticked k) p wp w m HP HW HL) as (k' & p' & wp' & w' & ss & m' & ER & X1 & X2 & X3 & X4 & X5 & X6 & X7 & X8 & X9 & X10).
        exists k', p', wp', w', ss, m'. split; [exact ER|]. split; [exact X1|]. split; [exact X2|]. split; [exact X3|]. split; [exact X4|]. split; [rewrite <- (app_nil_r ss); eapply adds_trans; [apply adds_tick|exact X5]|].
        split; [lia|]. split; [exact X7|]. split; [exact X8|]. split; [exact X9|]. intros (_ & F2 & _) Hle. exfalso. destruct (HFv _ (F2 _ (le_n _))) as (_ & HN). destruct m as [|m]; [lia|]. destruct (holds_some _ _ _ HP) as (s & d & Hsd). apply at_some in Hsd. specialize (HN s d Hsd). discriminate.
Qed.

Context (par : bool).

Lemma send_actual_ok fuel a c one k q wp w content : (1024 < fuel)%nat -> (forall i, one = Some i -> (i < nservers)%nat) -> pinv q w -> holds wp (at_ w PWait) -> linv w (k_log k) ->
  0 <= h_len (c_h c) -> slice (c_entity c) 0 (Z.to_nat (h_len (c_h c))) = Some content ->
  let msg := be16 (h_len (c_h c) mod 65536) ++ content in
  exists k' q' wp' w' ss, send_actual v targets nproxies par keep stale fuel a c one k q wp = Ret (k', q', wp') /\ pinv q' w' /\ holds wp' (at_ w' PWait) /\ linv w' (k_log k') /\
    (forall s, at_ w' PHand s = at_ w PHand s) /\ adds k k' ss msg /\ (length ss <= match one with None => if par then nservers else 1 | Some _ => 1 end)%nat /\
    (forall o, In o ss -> exists i, o = Some i /\ (i < nservers)%nat) /\ (forall s d, w s = Some (PWait, d) -> w' s = Some (PWait, d)) /\
    (forall s d, w' s = Some (PWait, d) -> w s = Some (PWait, d) /\ last_sent (k_log k') s = last_sent (k_log k) s \/ tc_qid d = ctx_id c /\ tc_hash d = h_hash (c_h c) /\ tc_msg d = Some a /\ In (Some (tc_srv d)) ss /\ last_sent (k_log k') s = Some msg) /\ lives wp wp' /\
    (fair k msg -> one = None -> (0 < nservers)%nat -> no_conn k k' \/ if par then Permutation (map Some (seq 0 nservers)) ss else exists i, ss = [Some i]).
Proof using HE.
  intros Hf Hone HP HW HL Hlen ES msg. unfold send_actual. destruct (Z.ltb_spec (h_len (c_h c)) 0); [lia|]. rewrite ES. fold msg.
  destruct (t_connect_ok fuel one k q w Hf Hone HP HL) as (cn & k1 & q1 & w1 & E1 & HP1 & HL1 & HS1 & HAd1 & HF1). rewrite E1. cbn [bind].
  assert (HW1 : holds wp (at_ w1 PWait)) by (eapply holds_ext'; [exact HW|]; apply HS1; intros (_ & X); congruence).
  assert (HWk : forall s d, w s = Some (PWait, d) <-> w1 s = Some (PWait, d)). { intros s d. rewrite <- !at_some. rewrite HS1 by (intros (_ & X); congruence). tauto. }
  assert (HPk : forall s, at_ w1 PHand s = at_ w PHand s) by (apply HS1; intros (X & _); congruence).
  destruct (Z.ltb_spec (Z.of_nat cn) 1) as [Hc|Hc].
  - exists k1, q1, wp, w1, []. split; [reflexivity|]. split; [exact HP1|]. split; [exact HW1|]. split; [exact HL1|]. split; [exact HPk|]. split; [apply HAd1|]. split; [cbn [length]; lia|]. split; [intros o []|].
    split; [intros s d; apply HWk|]. split; [intros s d Hs; left; split; [apply HWk; exact Hs|apply (adds_last _ _ msg), HAd1]|]. split; [apply lives_refl|]. intros (F1 & F2 & _) Eone HN0. destruct (HF1 F1 Eone F2) as [X|(X & _)]; [left; exact X|lia].
  - destruct HP1 as ((m & HQ1) & HAg1 & HLA1 & HPr1). set (turns := match one with None => if par then nservers else 1%nat | Some _ => 1%nat end).
    destruct (send_loop_ok a (ctx_id c) (h_hash (c_h c)) msg turns k1 (q_query q1) wp w1 m HQ1 HW1 HL1) as (k2 & p2 & wp2 & w2 & ss & m' & E2 & X1 & X2 & X3 & X4 & X5 & X6 & X7 & X8 & X9 & X10). rewrite E2. cbn [bind].
    exists k2, (mk_pools p2 (q_agents q1) (q_proxy q1) (q_proxies q1)), wp2, w2, ss. split; [reflexivity|]. split; [|split; [exact X2|split; [exact X3|split; [|split; [|split; [exact X6|split; [exact X7|split; [|split; [|split]]]]]]]]].
    + split; [exists m'; exact X1|]. cbn [q_agents q_proxy q_proxies]. split; [eapply all_hold_same; [exact HAg1|exact X4|]; intros i [Y|Y]; discriminate|]. split; [exact HLA1|]. intros np Enp. destruct (HPr1 np Enp) as (Y1 & Y2 & Y3).
      split; [eapply holds_ext'; [exact Y1|]; apply X4; intros [Y|Y]; discriminate|]. split; [|exact Y3]. eapply all_hold_same; [exact Y2|exact X4|]. intros i [Y|Y]; discriminate.
    + intros s. rewrite X4 by (intros [Y|Y]; discriminate). apply HPk.
    + rewrite <- (app_nil_r ss). eapply adds_trans; [apply HAd1|exact X5].
    + intros s d Hs. apply X8, HWk, Hs.
    + intros s d Hs. destruct (X9 s d Hs) as [(Y & YL)|Y]; [left; split; [apply HWk; exact Y|rewrite YL; apply (adds_last _ _ msg), HAd1]|right; exact Y].
    + eapply send_loop_lives; eauto.
    + intros HFair Eone HN0. assert (HFair' := HFair). destruct HFair' as (F1 & F2 & _). destruct (HF1 F1 Eone F2) as [Y|(-> & HQn & HAll)]; [left; eapply no_conn_l; [exact Y|exact X5]|right].
      assert (m = nservers) as -> by (destruct HQ1 as (l1 & P1 & G1 & L1), HQn as (l2 & P2 & G2 & L2); rewrite <- L1, <- L2; apply Permutation_length; apply NoDup_Permutation;
        [apply (NoDup_map_inv fst); eapply C68_set_partial; eauto|apply (NoDup_map_inv fst); eapply C68_set_partial; eauto|intros (x & e); rewrite G1, G2; tauto]).
      unfold turns in *. rewrite Eone in X6, X10. destruct (X10 (fair_later _ _ _ HFair (proj1 (HAd1 [])))) as (Z1 & Z2 & Z3); [destruct par; lia|]. destruct par.
      * apply NoDup_Permutation_bis; [apply NoDup_map_inj_in; [congruence|apply seq_NoDup]|rewrite map_length, seq_length; lia|].
        intros o Ho. apply in_map_iff in Ho. destruct Ho as (i & <- & Hi). apply in_seq in Hi. destruct (HAll i ltac:(lia)) as (s & d & Hsd & <-). destruct (Z3 s d Hsd) as [Y|Y]; [|exact Y].
        exfalso. assert (m' = 0%nat) as -> by lia. destruct X1 as (l & _ & G & L). apply at_some in Y. apply G in Y. destruct l; [destruct Y|discriminate].
      * destruct ss as [|o [|]]; try discriminate. destruct (X7 o (or_introl eq_refl)) as (i & -> & _). eauto.
Qed.
End Conns.
