(** Theorems about the connections of the TCP front end (C69). *)
From Verif Require Import Base BaseFacts ListFacts Bst_Model Sock_Model Sock_Spec Sock_Proofs Sock_Props Tcp_Model Tcp_Props Tfe_Model.
Require Import Permutation ZifyBool ZifyNat.
Set Default Proof Using "Type".

(** * Specification *)

(** What the kernel guarantees: accept gives a descriptor that is not in use; the network delivers bytes.  And select comes back some day, and there are less
    than 1024 descriptors. *)
Definition kernel_ok (listening : list Z) (f : tfe) (o : fop) : Prop :=
  match o with
  | FTurn rs acc c buf =>
    net_ok c /\ (forall s, acc = Some s -> 0 <= s < 1024 /\ ~ In s (map fst (f_open f)) /\ ~ In s listening) /\
    exists es r rest, rs = map SelErr es ++ r :: rest /\ Forall (fun e => fatal_error e = false) es /\ (forall e, r = SelErr e -> fatal_error e = true)
  | FReply _ _ _ => True
  end.

(** [started ls f]: the front end listens on the sockets [ls] and has no connections.  [reached ls f es]: some steps later, with the events [es]. *)
Definition started (ls : list Z) (f : tfe) : Prop := pool_of false (f_pool f) (map (fun s => (s, true)) ls) /\ f_open f = [] /\ f_next f = 0%nat.
Inductive reached (ls : list Z) : tfe -> list fevent -> Prop :=
| R_start f : started ls f -> reached ls f []
| R_step f es o e f' : reached ls f es -> kernel_ok ls f o -> front_step f o = Ret (e, f') -> reached ls f' (es ++ [e]).

(** What the first recv (of two bytes) on a connection returns. *)
Definition received (c : net) : Z := let '(st, _, _) := recv_block c 2 in st.

(** * Lemmas *)
Lemma front_none c buf r : net_ok c -> tcp_front c buf = Ret r -> (r = FBad -> 0 < received c /\ tcp_query c buf = Ret NoQuery) /\ (r = FGone -> received c <= 0 /\ tcp_query c buf = Ret NoQuery).
Proof.
  intros HC. unfold received, tcp_front, tcp_query. destruct (recv_ok c 2 HC) as (st & d & c1 & E & HC1 & Ld & Bd & HD). rewrite (recv_block_eq _ _ _ _ _ E). clear E.
  destruct (Z.ltb_spec st 0) as [N|N]; [cbn [Z.eqb Pos.eqb]; intros E; injection E as <-; split; [discriminate|split; [lia|reflexivity]]|].
  destruct (Z.eqb_spec st 2) as [->|N2].
  - destruct (from16 d <=? Z.of_nat (length buf)); [|intros E; injection E as <-; split; [split; [lia|reflexivity]|discriminate]]. destruct (recv_block c1 (Z.to_nat (from16 d))) as [[st2 d2] c2].
    destruct (write buf 0 d2); [|discriminate]. destruct (st2 =? from16 d); intros E; injection E as <-; (split; [|discriminate]); [discriminate|split; [lia|reflexivity]].
  - destruct (Z.eqb_spec st 1) as [->|N1]; intros E; injection E as <-; (split; try discriminate); (split; [|reflexivity]); [lia|]. destruct HD as [(Hst & _)|(Hst & _)]; lia.
Qed.
Lemma front_query c buf b n : tcp_front c buf = Ret (FQuery b n) <-> exists c', tcp_query c buf = Ret (Query b n c').
Proof.
  unfold tcp_front, tcp_query. destruct (recv_block c 2) as [[st d] c1]. destruct (Z.eqb_spec st 2).
  - destruct (from16 d <=? Z.of_nat (length buf)); [|split; [discriminate|intros (? & ?); discriminate]]. destruct (recv_block c1 (Z.to_nat (from16 d))) as [[st2 d2] c2].
    destruct (write buf 0 d2) as [buf'|]; [|split; [discriminate|intros (? & ?); discriminate]]. destruct (st2 =? from16 d); [|split; [discriminate|intros (? & ?); discriminate]].
    split; [intros E; injection E as <- <-; eauto|intros (? & E); injection E as <- <- _; reflexivity].
  - destruct (st =? 1); (split; [discriminate|intros (? & ?); discriminate]).
Qed.
Lemma front_ret c buf : net_ok c -> exists r, tcp_front c buf = Ret r.
Proof.
  intros HC. destruct (C57_sound c buf HC) as (q & Eq & _). revert Eq. unfold tcp_front, tcp_query. destruct (recv_block c 2) as [[st d] c1]. destruct (Z.eqb_spec st 2).
  - destruct (from16 d <=? Z.of_nat (length buf)); [|eauto]. destruct (recv_block c1 (Z.to_nat (from16 d))) as [[st2 d2] c2]. destruct (write buf 0 d2); [|discriminate]. destruct (st2 =? from16 d); eauto.
  - intros _. destruct (st =? 1); eauto.
Qed.

Lemma owner_in o s k : NoDup (map fst o) -> (owner o s = Some k <-> In (s, k) o).
Proof.
  unfold owner. induction o as [|[x j] o IH]; cbn [find map fst In]; intros ND; [split; [discriminate|tauto]|]. inversion_clear ND as [|? ? Hn ND']. destruct (Z.eqb_spec x s) as [->|N].
  - cbn [option_map snd]. split; [intros E; injection E as ->; auto|]. intros [E|H]; [congruence|]. exfalso. apply Hn. apply in_map_iff. exists (s, k). auto.
  - rewrite (IH ND'). split; [auto|]. intros [E|H]; [congruence|exact H].
Qed.
Lemma owner_none o s : owner o s = None <-> ~ In s (map fst o).
Proof.
  unfold owner. induction o as [|[x j] o IH]; cbn [find map fst In]; [tauto|]. destruct (Z.eqb_spec x s) as [->|N]; [cbn; split; [discriminate|tauto]|]. rewrite IH. intuition.
Qed.
Lemma in_closed o s x k : In (x, k) (closed o s) <-> In (x, k) o /\ x <> s.
Proof. unfold closed. rewrite filter_In. cbn [fst]. destruct (Z.eqb_spec x s); cbn; intuition congruence. Qed.
Lemma in_closed_fst o s x : In x (map fst (closed o s)) <-> In x (map fst o) /\ x <> s.
Proof.
  rewrite !in_map_iff. split.
  - intros ((y & d) & <- & H). apply in_closed in H. cbn [fst]. split; [exists (y, d); tauto|tauto].
  - intros (((y & d) & <- & H) & N). exists (y, d). split; [reflexivity|]. apply in_closed. auto.
Qed.
Lemma nodup_filter_map {A B} (f : A -> B) (g : A -> bool) l : NoDup (map f l) -> NoDup (map f (filter g l)).
Proof.
  induction l as [|x l IH]; cbn [map filter]; intros H; [constructor|]. inversion_clear H as [|? ? Hn H']. destruct (g x); [|auto]. cbn [map]. constructor; [|auto]. intros A0. apply Hn.
  apply in_map_iff in A0. destruct A0 as (y & E & Hy). apply filter_In in Hy. apply in_map_iff. exists y. tauto.
Qed.
Lemma nodup_snd {A B} (l : list (A * B)) x y k : NoDup (map snd l) -> In (x, k) l -> In (y, k) l -> x = y.
Proof.
  induction l as [|[z j] l IH]; cbn [map snd In]; intros ND H1 H2; [tauto|]. inversion_clear ND as [|? ? Hn ND']. destruct H1 as [E1|H1], H2 as [E2|H2]; [congruence| | |eauto];
    exfalso; apply Hn; [injection E1 as -> ->|injection E2 as -> ->]; apply in_map_iff; [exists (y, k)|exists (x, k)]; auto.
Qed.

(** The numbers of the connections that were closed. *)
Fixpoint closes (es : list fevent) : list nat :=
  match es with [] => [] | EClosed _ k :: es' => k :: closes es' | _ :: es' => closes es' end.
Lemma closes_app es es' : closes (es ++ es') = closes es ++ closes es'.
Proof. induction es as [|e es IH]; [reflexivity|]. destruct e; cbn [app closes]; congruence. Qed.
Lemma in_closes es k : In k (closes es) <-> exists s, In (EClosed s k) es.
Proof.
  induction es as [|e es IH]; cbn [closes In]; [split; [tauto|intros (? & [])]|]. destruct e; cbn [In]; rewrite ?IH; split; intros H; try (destruct H as (s' & H); exists s'; tauto); try (destruct H as (s' & [H|H]); [discriminate|eauto]).
  - destruct H as [->|(s' & H)]; eauto.
  - destruct H as (s' & [H|H]); [left; congruence|eauto].
Qed.

Record finv (ls : list Z) (f : tfe) (es : list fevent) (live : list (Z * bool)) : Prop := {
  fi_pool : pool_of false (f_pool f) live;
  fi_ls : forall s, In (s, true) live <-> In s ls;
  fi_conn : forall s, In (s, false) live -> In s (map fst (f_open f));
  fi_nd : NoDup (map fst (f_open f));
  fi_range : forall s, In s (map fst (f_open f)) -> ~ In s ls /\ 0 <= s < 1024;
  fi_next : forall s k, In (s, k) (f_open f) -> (k < f_next f)%nat;
  fi_ndk : NoDup (map snd (f_open f));
  fi_closed : forall k, In k (closes es) -> ~ In k (map snd (f_open f)) /\ (k < f_next f)%nat;
  fi_once : NoDup (closes es);
  fi_gone : forall s k, In (EGone s k) es -> In (s, k) (f_open f) /\ ~ In (s, false) live;
  fi_asked : forall s k b n, In (EQuery s k b n) es -> (k < f_next f)%nat }.

Lemma live_fun {D} (zero : D) p live s d d' : pool_of zero p live -> In (s, d) live -> In (s, d') live -> d = d'.
Proof.
  intros HP H1 H2. destruct (C68_set_partial D zero p live HP) as (ND & _). clear HP. induction live as [|[x e] l IH]; cbn [map fst In] in *; [tauto|]. inversion_clear ND as [|? ? Hn ND'].
  destruct H1 as [E1|H1], H2 as [E2|H2]; [congruence| | |auto]; exfalso; apply Hn; [injection E1 as -> ->|injection E2 as -> ->]; apply in_map_iff; [exists (s, d')|exists (s, d)]; auto.
Qed.

(** What a turn does from the recv on. *)
Definition rest_spec (ls : list Z) (f : tfe) (s : Z) (new : bool) (c : net) (buf : list Z) (e : fevent) (f' : tfe) (live live' : list (Z * bool)) : Prop :=
  exists k, In (s, k) (f_open f) /\ f_next f' = f_next f /\
  match e with
  | EQuery s' k' b n => s' = s /\ k' = k /\ (exists c', tcp_query c buf = Ret (Query b n c')) /\ f_open f' = f_open f /\ live' = if new then (s, false) :: live else live
  | EClosed s' k' => s' = s /\ k' = k /\ tcp_front c buf = Ret FBad /\ f_open f' = closed (f_open f) s /\ live' = if new then live else without s live
  | EGone s' k' => s' = s /\ k' = k /\ tcp_front c buf = Ret FGone /\ f_open f' = f_open f /\ live' = if new then live else without s live
  | _ => False
  end.
Lemma front_rest_ok ls f s (new : bool) c buf live : net_ok c -> pool_of false (f_pool f) live -> NoDup (map fst (f_open f)) -> In s (map fst (f_open f)) -> 0 <= s < 1024 ->
  (new = true -> ~ In s (map fst live)) -> exists e f' live', front_rest f s new c buf = Ret (e, f') /\ pool_of false (f_pool f') live' /\ rest_spec ls f s new c buf e f' live live'.
Proof.
  intros HC HP ND HI Hs Hn. unfold front_rest, rest_spec. apply in_map_iff in HI. destruct HI as ((s' & k) & E & HI). cbn [fst] in E. subst s'. rewrite (proj2 (owner_in _ s k ND) HI).
  destruct (C68_set_partial _ _ _ _ HP) as (NDl & _ & HA & HD & _).
  destruct (front_ret c buf HC) as (r & Er). rewrite Er. cbn [bind]. destruct r as [b n| |].
  - destruct new.
    + destruct (HA s false Hs (Hn eq_refl)) as (p' & -> & HP'). cbn [bind snd]. eexists _, _, _. split; [reflexivity|]. cbn [f_pool f_open f_next]. split; [exact HP'|]. exists k. split; [exact HI|]. split; [reflexivity|].
      split; [reflexivity|]. split; [reflexivity|]. split; [apply front_query; exact Er|]. auto.
    + eexists _, _, _. split; [reflexivity|]. split; [exact HP|]. exists k. split; [exact HI|]. split; [reflexivity|]. split; [reflexivity|]. split; [reflexivity|]. split; [apply front_query; exact Er|]. auto.
  - destruct new.
    + cbn [bind]. eexists _, _, _. split; [reflexivity|]. cbn [f_pool f_open f_next]. split; [exact HP|]. exists k. split; [exact HI|]. auto 8.
    + destruct (HD s Hs) as (p' & -> & HP'). cbn [bind]. eexists _, _, _. split; [reflexivity|]. cbn [f_pool f_open f_next]. split; [exact HP'|]. exists k. split; [exact HI|]. auto 8.
  - destruct new.
    + cbn [bind]. eexists _, _, _. split; [reflexivity|]. cbn [f_pool f_open f_next]. split; [exact HP|]. exists k. split; [exact HI|]. auto 8.
    + destruct (HD s Hs) as (p' & -> & HP'). cbn [bind]. eexists _, _, _. split; [reflexivity|]. cbn [f_pool f_open f_next]. split; [exact HP'|]. exists k. split; [exact HI|]. auto 8.
Qed.

Lemma rest_inv ls f es live s (new : bool) c buf e f' live' : finv ls f es live -> ~ In s ls -> (new = false -> In (s, false) live) -> (new = true -> ~ In s (map fst live)) ->
  (forall k, In (EGone s k) es -> False) ->
  pool_of false (f_pool f') live' -> rest_spec ls f s new c buf e f' live live' -> finv ls f' (es ++ [e]) live'.
Proof.
  intros [IP IL IC IN IR IX IK ID IO IG IA] Hs H0 H1 HG HP' (k & HI & EN & HE).
  assert (Hfst : In s (map fst (f_open f))) by (apply in_map_iff; exists (s, k); auto).
  assert (L1 : forall x, In (x, true) live -> x <> s) by (intros x Hx ->; apply Hs, IL; exact Hx).
  destruct e as [s' k' b n|s' k'|s' k'| | |]; try tauto.
  - destruct HE as (-> & -> & _ & EO & EL). constructor; rewrite ?EO, ?EN; auto.
    + intros x. rewrite EL. destruct new; [|apply IL]. cbn [In]. rewrite <- IL. intuition congruence.
    + intros x. rewrite EL. destruct new; [|apply IC]. intros [E|H]; [injection E as <-; exact Hfst|auto].
    + intros j. rewrite closes_app. cbn [closes]. rewrite app_nil_r. apply ID.
    + rewrite closes_app. cbn [closes]. rewrite app_nil_r. exact IO.
    + intros x j H. apply in_app_iff in H. destruct H as [H|[H|[]]]; [|discriminate]. destruct (IG x j H) as (G1 & G2). split; [exact G1|]. rewrite EL. destruct new; [|exact G2]. intros [E|A]; [|tauto]. injection E as ->. eauto.
    + intros x j b' n' H. apply in_app_iff in H. destruct H as [H|[H|[]]]; [eauto|]. injection H as <- <- _ _. eauto.
  - destruct HE as (-> & -> & _ & EO & EL). constructor; rewrite ?EO, ?EN; auto.
    + intros x. rewrite EL. destruct new; [apply IL|]. rewrite in_without, IL. split; [tauto|]. intros H. split; [exact H|]. intros ->. tauto.
    + intros x. rewrite EL. rewrite in_closed_fst. destruct new.
      * intros H. split; [auto|]. intros ->. apply (H1 eq_refl). apply in_map_iff. exists (s, false). auto.
      * rewrite in_without. intros (H & N). auto.
    + unfold closed. apply nodup_filter_map. exact IN.
    + intros x H. apply in_closed_fst in H. apply IR. tauto.
    + intros x j H. apply in_closed in H. eapply IX. apply H.
    + unfold closed. apply nodup_filter_map. exact IK.
    + intros j. rewrite closes_app. cbn [closes]. rewrite in_app_iff. intros [H|[<-|[]]].
      * destruct (ID j H) as (D1 & D2). split; [|exact D2]. intros A. apply D1. apply in_map_iff in A. destruct A as ((y & i) & Ei & A). apply in_closed in A. apply in_map_iff. exists (y, i). tauto.
      * split; [|eauto]. intros A. apply in_map_iff in A. destruct A as ((y & i) & Ei & A). cbn [snd] in Ei. subst i. apply in_closed in A. destruct A as (A & N). apply N. eapply nodup_snd; eauto.
    + rewrite closes_app. cbn [closes]. eapply Permutation_NoDup; [apply Permutation_cons_append|]. constructor; [|exact IO]. intros A. apply ID in A. apply (proj1 A). apply in_map_iff. exists (s, k). auto.
    + intros x j H. apply in_app_iff in H. destruct H as [H|[H|[]]]; [|discriminate]. destruct (IG x j H) as (G1 & G2). split.
      * apply in_closed. split; [exact G1|]. intros ->. eauto.
      * rewrite EL. destruct new; [exact G2|]. rewrite in_without. tauto.
    + intros x j b' n' H. apply in_app_iff in H. destruct H as [H|[H|[]]]; [eauto|discriminate].
  - destruct HE as (-> & -> & _ & EO & EL). constructor; rewrite ?EO, ?EN; auto.
    + intros x. rewrite EL. destruct new; [apply IL|]. rewrite in_without, IL. split; [tauto|]. intros H. split; [exact H|]. intros ->. tauto.
    + intros x. rewrite EL. destruct new; [auto|]. rewrite in_without. intros (H & N). auto.
    + intros j. rewrite closes_app. cbn [closes]. rewrite app_nil_r. apply ID.
    + rewrite closes_app. cbn [closes]. rewrite app_nil_r. exact IO.
    + intros x j H. apply in_app_iff in H. destruct H as [H|[H|[]]].
      * destruct (IG x j H) as (G1 & G2). split; [exact G1|]. rewrite EL. destruct new; [exact G2|]. rewrite in_without. tauto.
      * injection H as <- <-. split; [exact HI|]. rewrite EL. destruct new; [|rewrite in_without; tauto]. intros A. apply (H1 eq_refl). apply in_map_iff. exists (s, false). auto.
    + intros x j b' n' H. apply in_app_iff in H. destruct H as [H|[H|[]]]; [eauto|discriminate].
Qed.

Lemma inv_nothing ls f es live e : finv ls f es live -> (forall s k, e <> EClosed s k) -> (forall s k, e <> EGone s k) -> (forall s k b n, e <> EQuery s k b n) -> finv ls f (es ++ [e]) live.
Proof.
  intros [IP IL IC IN IR IX IK ID IO IG IA] H1 H2 H3. assert (EC : closes (es ++ [e]) = closes es). { rewrite closes_app. destruct e; cbn [closes]; rewrite ?app_nil_r; try reflexivity. exfalso. eapply H1. reflexivity. }
  constructor; rewrite ?EC; auto.
  - intros s k H. apply in_app_iff in H. destruct H as [H|[H|[]]]; [auto|]. exfalso. eapply H2. exact H.
  - intros s k b n H. apply in_app_iff in H. destruct H as [H|[H|[]]]; [eauto|]. exfalso. eapply H3. exact H.
Qed.

(** One step: it is defined, and what it does. *)
Definition turn_spec (ls : list Z) (f : tfe) (acc : option Z) (c : net) (buf : list Z) (live : list (Z * bool)) (e : fevent) (f' : tfe) (live' : list (Z * bool)) : Prop :=
  (e = EFatal /\ f' = f /\ live' = live) \/
  (e = ENothing /\ f' = f /\ live' = live /\ acc = None) \/
  (exists s, acc = Some s /\ rest_spec ls (mk_tfe (f_pool f) ((s, f_next f) :: f_open f) (S (f_next f))) s true c buf e f' live live') \/
  (exists s, In (s, false) live /\ rest_spec ls f s false c buf e f' live live').

Lemma step_ok ls f es live o : finv ls f es live -> kernel_ok ls f o -> exists e f' live', front_step f o = Ret (e, f') /\ finv ls f' (es ++ [e]) live' /\
  match o with FTurn rs acc c buf => turn_spec ls f acc c buf live e f' live' | FReply s n msg => f' = f /\ live' = live /\ e = front_reply f s n msg end.
Proof.
  intros HI HK. destruct o as [rs acc c buf|s n msg]; cbn [front_step].
  - destruct HK as (HC & HA & es0 & r & rest & -> & HE & HR). unfold front_turn.
    pose proof HI as [IP IL IC IN IR IX IK ID IO IG IA].
    assert (HS : exists o err, pl_select (f_pool f) (map SelErr es0 ++ r :: rest) 0 = Ret (o, err) /\ match o with Some (s, a) => exists d, In (s, d) live /\ pl_data (f_pool f) a = Ret d | None => True end).
    { assert (T0 : forall e0, fatal_error e0 = true \/ r = SelTimeout -> True) by auto. destruct r as [e0| |ready].
      - destruct (C68_no_socket _ (f_pool f) es0 (SelErr e0) rest HE (or_intror (ex_intro _ e0 (conj eq_refl (HR e0 eq_refl))))) as (err & E & _). eexists _, _. split; [exact E|exact I].
      - destruct (C68_no_socket _ (f_pool f) es0 SelTimeout rest HE (or_introl eq_refl)) as (err & E & _). eexists _, _. split; [exact E|exact I].
      - destruct (C68_select _ _ _ _ IP es0 ready HE) as (o & err & E & _ & HO). exists o, err. split.
        + rewrite <- E. generalize 0. clear - HE. induction HE as [|x es0 Hx HE IH]; intros z; cbn [map app pl_select]; [reflexivity|]. rewrite Hx. apply IH.
        + destruct o as [[s a]|]; [|exact I]. destruct HO as (_ & d & H1 & H2 & _). eauto. }
    destruct HS as (o & err & -> & HO). cbn [bind fst]. destruct o as [[s a]|].
    2:{ exists EFatal, f, live. split; [reflexivity|]. split; [apply inv_nothing; [exact HI| | |]; discriminate|]. left. auto. }
    destruct HO as (listening & HL & ->). cbn [bind]. destruct listening.
    + destruct acc as [s'|].
      2:{ exists ENothing, f, live. split; [reflexivity|]. split; [apply inv_nothing; [exact HI| | |]; discriminate|]. right. left. auto. }
      destruct (HA s' eq_refl) as (Hs & Hn & Hl). set (f1 := mk_tfe (f_pool f) ((s', f_next f) :: f_open f) (S (f_next f))) in *.
      assert (Hlive : ~ In s' (map fst live)).
      { intros A. apply in_map_iff in A. destruct A as ((y & d) & Ey & A). cbn [fst] in Ey. subst y. destruct d; [apply Hl, IL; exact A|apply Hn, IC; exact A]. }
      assert (HI1 : finv ls f1 es live).
      { constructor; cbn [f1 f_pool f_open f_next map fst snd]; auto.
        - intros x Hx. right. auto.
        - constructor; auto.
        - intros x [<-|Hx]; auto.
        - intros x k [E|H]; [injection E as <- <-; lia|]. specialize (IX x k H). lia.
        - constructor; [|exact IK]. intros A. apply in_map_iff in A. destruct A as ((y & k) & Ek & A). cbn [snd] in Ek. subst k. specialize (IX _ _ A). lia.
        - intros k Hk. destruct (ID k Hk) as (D1 & D2). split; [|lia]. cbn [In]. intros [E|A]; [lia|tauto].
        - intros x k H. destruct (IG x k H). split; [right; assumption|assumption].
        - intros x k b n H. specialize (IA x k b n H). lia. }
      destruct (front_rest_ok ls f1 s' true c buf live HC) as (e & f' & live' & E & HP' & HRS); [exact IP|apply (fi_nd _ _ _ _ HI1)|left; reflexivity|exact Hs|intros _; exact Hlive|].
      exists e, f', live'. split; [exact E|]. split.
      * refine (rest_inv ls f1 es live s' true c buf e f' live' HI1 Hl _ (fun _ => Hlive) _ HP' HRS); [discriminate|]. intros k Hk. apply IG in Hk. apply Hn. apply in_map_iff. exists (s', k). tauto.
      * right. right. left. exists s'. split; [reflexivity|exact HRS].
    + assert (Hfst := IC s HL). destruct (IR s Hfst) as (Hns & Hs).
      destruct (front_rest_ok ls f s false c buf live HC IP IN Hfst Hs ltac:(discriminate)) as (e & f' & live' & E & HP' & HRS). exists e, f', live'. split; [exact E|]. split.
      * refine (rest_inv ls f es live s false c buf e f' live' HI Hns (fun _ => HL) _ _ HP' HRS); [discriminate|]. intros k Hk. apply IG in Hk. tauto.
      * right. right. right. exists s. auto.
  - exists (front_reply f s n msg), f, live. split; [reflexivity|]. split; [|auto]. apply inv_nothing; [exact HI| | |]; unfold front_reply; intros; destruct (owner (f_open f) s); discriminate.
Qed.

Lemma reached_inv ls f es : reached ls f es -> exists live, finv ls f es live.
Proof.
  induction 1 as [f (HP & HO & HN)|f es o e f' HR (live & HI) HK HE].
  - exists (map (fun s => (s, true)) ls). constructor; rewrite ?HO; cbn [map closes In]; auto; try (intros; tauto); try constructor.
    + intros H. apply in_map_iff in H. destruct H as (x & E & H). congruence.
    + intros H. apply in_map_iff. eauto.
    + intros s H. apply in_map_iff in H. destruct H as (x & E & H). congruence.
  - destruct (step_ok ls f es live o HI HK) as (e2 & f2 & live' & E2 & HI' & _). rewrite HE in E2. injection E2 as <- <-. eauto.
Qed.

(** * C69 *)

(** Every turn of the front end is defined (no access outside of the buffers and sets).  A query is one message of its connection, and the connection stays
    watched; on bad data the connection is closed and not watched any more; new connections have new numbers. *)
Theorem C69_turn ls f es rs acc c buf : reached ls f es -> kernel_ok ls f (FTurn rs acc c buf) ->
  exists e f', front_step f (FTurn rs acc c buf) = Ret (e, f') /\ reached ls f' (es ++ [e]) /\
    (forall s, In s ls -> watched (f_pool f') s) /\
    match e with
    | EQuery s k b n =>
        (exists msg rest, stream c = framed msg ++ rest /\ n = Z.of_nat (length msg) /\ firstn (length msg) b = msg) /\
        ((acc = Some s /\ k = f_next f) \/ (watched (f_pool f) s /\ owner (f_open f) s = Some k)) /\ owner (f_open f') s = Some k /\ watched (f_pool f') s
    | EClosed s k =>
        0 < received c /\ tcp_query c buf = Ret NoQuery /\
        ((acc = Some s /\ k = f_next f) \/ (watched (f_pool f) s /\ owner (f_open f) s = Some k)) /\ owner (f_open f') s = None /\ ~ watched (f_pool f') s
    | EGone s k =>
        received c <= 0 /\ tcp_query c buf = Ret NoQuery /\
        ((acc = Some s /\ k = f_next f) \/ (watched (f_pool f) s /\ owner (f_open f) s = Some k)) /\ owner (f_open f') s = Some k /\ ~ watched (f_pool f') s
    | EReply _ _ => False
    | ENothing | EFatal => f' = f
    end.
Proof.
  intros HR HK. destruct (reached_inv ls f es HR) as (live & HI). destruct (step_ok ls f es live _ HI HK) as (e & f' & live' & E & HI' & HT). exists e, f'. split; [exact E|]. split; [eapply R_step; eauto|].
  destruct (C68_set_partial _ _ _ _ (fi_pool _ _ _ _ HI')) as (_ & HW & _). destruct (C68_set_partial _ _ _ _ (fi_pool _ _ _ _ HI)) as (_ & HW0 & _). split.
  { intros s Hs. apply HW. apply in_map_iff. exists (s, true). split; [reflexivity|]. apply (fi_ls _ _ _ _ HI'). exact Hs. }
  pose proof (fi_nd _ _ _ _ HI) as ND. pose proof (fi_nd _ _ _ _ HI') as ND'.
  assert (HQ : forall b n c', tcp_query c buf = Ret (Query b n c') -> exists msg rest, stream c = framed msg ++ rest /\ n = Z.of_nat (length msg) /\ firstn (length msg) b = msg).
  { intros b n c' Eq. destruct HK as (HC & _). destruct (C57_sound c buf HC) as (q & Eq' & HS). rewrite Eq in Eq'. injection Eq' as <-. destruct HS as (msg & S1 & S2 & S3 & S4 & _). exists msg, (stream c'). split; [exact S1|]. split; [exact S2|]. rewrite S4, firstn_app, firstn_all, Nat.sub_diag. cbn [firstn]. apply app_nil_r. }
  assert (HGo : forall r, tcp_front c buf = Ret r -> (r = FBad -> 0 < received c /\ tcp_query c buf = Ret NoQuery) /\ (r = FGone -> received c <= 0 /\ tcp_query c buf = Ret NoQuery)).
  { intros r. apply front_none. apply HK. }
  assert (HNl : forall s d, In (s, d) live' -> ~ In s ls -> d = false). { intros s d H1 H2. destruct d; [|reflexivity]. exfalso. apply H2. apply (fi_ls _ _ _ _ HI'). exact H1. }
  destruct HT as [(-> & -> & _)|[(-> & -> & _)|[(s & -> & HS)|(s & HL & HS)]]]; [reflexivity|reflexivity| |].
  - destruct HS as (k & Hk & _ & HE). cbn [f_open f_next f_pool] in *. assert (k = f_next f) as ->.
    { destruct Hk as [Ek|Hk]; [congruence|]. destruct HK as (_ & HA & _). destruct (HA s eq_refl) as (_ & Hn & _). exfalso. apply Hn. apply in_map_iff. exists (s, k). auto. }
    destruct e as [s' k' b n|s' k'|s' k'| | |]; try tauto.
    + destruct HE as (-> & -> & (c' & Eq) & EO & EL). split; [eauto|]. split; [left; auto|]. split; [apply owner_in; [exact ND'|]; rewrite EO; left; reflexivity|]. apply HW. rewrite EL. left. reflexivity.
    + destruct HE as (-> & -> & Eb & EO & EL). split; [apply (proj1 (HGo _ Eb) eq_refl)|]. split; [apply (proj1 (HGo _ Eb) eq_refl)|]. split; [left; auto|]. split.
      * apply owner_none. rewrite EO. rewrite in_closed_fst. tauto.
      * intros A. apply HW in A. apply in_map_iff in A. destruct A as ((y & d) & Ey & A). cbn [fst] in Ey. subst y.
        assert (B : In s (map fst (f_open f'))). { destruct d; [|apply (fi_conn _ _ _ _ HI'); exact A]. exfalso. apply (fi_ls _ _ _ _ HI') in A. destruct HK as (_ & HA & _). destruct (HA s eq_refl) as (_ & _ & Hl). tauto. }
        rewrite EO in B. apply in_closed_fst in B. tauto.
    + destruct HE as (-> & -> & Eg & EO & EL). split; [apply (proj2 (HGo _ Eg) eq_refl)|]. split; [apply (proj2 (HGo _ Eg) eq_refl)|]. split; [left; auto|]. split; [apply owner_in; [exact ND'|]; rewrite EO; left; reflexivity|].
      intros A. apply HW in A. rewrite EL in A. destruct HK as (_ & HA & _). destruct (HA s eq_refl) as (_ & Hn & Hl). apply in_map_iff in A. destruct A as ((y & d) & Ey & A). cbn [fst] in Ey. subst y.
      assert (d = false) as -> by (apply (HNl s); [rewrite EL; exact A|exact Hl]). apply (fi_conn _ _ _ _ HI) in A. tauto.
  - destruct HS as (k & Hk & _ & HE). assert (Ow : owner (f_open f) s = Some k) by (apply owner_in; auto). assert (Wa : watched (f_pool f) s) by (apply HW0, in_map_iff; exists (s, false); auto).
    destruct e as [s' k' b n|s' k'|s' k'| | |]; try tauto.
    + destruct HE as (-> & -> & (c' & Eq) & EO & EL). split; [eauto|]. split; [right; auto|]. split; [rewrite EO; exact Ow|]. apply HW. rewrite EL. apply in_map_iff. exists (s, false). auto.
    + destruct HE as (-> & -> & Eb & EO & EL). split; [apply (proj1 (HGo _ Eb) eq_refl)|]. split; [apply (proj1 (HGo _ Eb) eq_refl)|]. split; [right; auto|]. split.
      * apply owner_none. rewrite EO. rewrite in_closed_fst. tauto.
      * intros A. apply HW in A. rewrite EL in A. apply in_without_fst in A. tauto.
    + destruct HE as (-> & -> & Eg & EO & EL). split; [apply (proj2 (HGo _ Eg) eq_refl)|]. split; [apply (proj2 (HGo _ Eg) eq_refl)|]. split; [right; auto|]. split; [rewrite EO; exact Ow|].
      intros A. apply HW in A. rewrite EL in A. apply in_without_fst in A. tauto.
Qed.
Print Assumptions C69_turn.

(** No connection is closed twice, and none that was closed is read again or watched. *)
Theorem C69_closed ls f es : reached ls f es ->
  NoDup (closes es) /\ (forall s k, In (EClosed s k) es -> forall s', owner (f_open f) s' <> Some k) /\
  (forall s, watched (f_pool f) s -> In s ls \/ exists k, owner (f_open f) s = Some k).
Proof.
  intros HR. destruct (reached_inv ls f es HR) as (live & HI). pose proof HI as [IP IL IC IN IR IX IK ID IO IG IA]. split; [exact IO|]. split.
  - intros s k H s' Ow. apply owner_in in Ow; [|exact IN]. destruct (ID k) as (D1 & _); [apply in_closes; eauto|]. apply D1. apply in_map_iff. exists (s', k). auto.
  - destruct (C68_set_partial _ _ _ _ IP) as (_ & HW & _). intros s Hs. apply HW in Hs. apply in_map_iff in Hs. destruct Hs as ((y & d) & Ey & Hs). cbn [fst] in Ey. subst y. destruct d; [left; apply IL; exact Hs|right].
    apply IC in Hs. apply in_map_iff in Hs. destruct Hs as ((y & k) & Ey & Hs). cbn [fst] in Ey. subst y. exists k. apply owner_in; auto.
Qed.
Print Assumptions C69_closed.

(** A reply goes to the connection that the query came from, as long as the front end has not closed that socket. *)
Theorem C69_own_partial ls f es1 s k b n es2 m msg : reached ls f (es1 ++ EQuery s k b n :: es2) -> (forall k', ~ In (EClosed s k') es2) ->
  front_step f (FReply s m msg) = Ret (EReply (Some k) (firstn m (framed msg)), f).
Proof.
  intros HR HN. enough (Ow : owner (f_open f) s = Some k). { cbn [front_step]. unfold front_reply. rewrite Ow. reflexivity. }
  remember (es1 ++ EQuery s k b n :: es2) as es eqn:Ees. revert es1 es2 Ees HN. induction HR as [f HS|f es o e f' HR IH HK HE]; intros es1 es2 Ees HN; [destruct es1; discriminate|].
  destruct (reached_inv ls f es HR) as (live & HI). destruct (step_ok ls f es live o HI HK) as (e2 & f2 & live' & E2 & HI' & HT). rewrite HE in E2. injection E2 as <- <-.
  pose proof (fi_nd _ _ _ _ HI) as ND. pose proof (fi_nd _ _ _ _ HI') as ND'.
  destruct es2 as [|x es2] using rev_ind.
  - apply app_inj_tail in Ees. destruct Ees as (_ & ->). apply owner_in; [exact ND'|]. destruct o as [rs acc c buf|s0 m0 msg0].
    + destruct HT as [(Ee & _)|[(Ee & _)|[(s' & -> & HS)|(s' & HL & HS)]]]; try discriminate; destruct HS as (k' & Hk & _ & (-> & -> & _ & EO & _)); rewrite EO; exact Hk.
    + destruct HT as (_ & _ & Ee). unfold front_reply in Ee. destruct (owner (f_open f) s0); discriminate.
  - clear IHes2. rewrite app_comm_cons, app_assoc in Ees. apply app_inj_tail in Ees. destruct Ees as (Ees & <-). assert (Ow : owner (f_open f) s = Some k).
    { apply (IH es1 es2 Ees). intros k' A. apply (HN k'). apply in_app_iff. auto. }
    assert (HI1 : In (s, k) (f_open f)) by (apply owner_in; auto). apply owner_in; [exact ND'|].
    assert (HNe : forall k', e <> EClosed s k') by (intros k' ->; apply (HN k'); apply in_app_iff; cbn; auto).
    destruct o as [rs acc c buf|s0 m0 msg0].
    + destruct HT as [(_ & -> & _)|[(_ & -> & _)|[(s' & Eacc & HS)|(s' & HL & HS)]]]; auto; destruct HS as (k' & Hk & _ & HS); cbn [f_open f_pool f_next] in *; destruct e as [s1 k1 b1 n1|s1 k1|s1 k1| | |]; try tauto.
      * destruct HS as (-> & -> & _ & -> & _). right. exact HI1.
      * destruct HS as (-> & -> & _ & -> & _). apply in_closed. split; [right; exact HI1|]. intros <-. eapply HNe. reflexivity.
      * destruct HS as (-> & -> & _ & -> & _). right. exact HI1.
      * destruct HS as (-> & -> & _ & -> & _). exact HI1.
      * destruct HS as (-> & -> & _ & -> & _). apply in_closed. split; [exact HI1|]. intros <-. eapply HNe. reflexivity.
      * destruct HS as (-> & -> & _ & -> & _). exact HI1.
    + destruct HT as (-> & _). exact HI1.
Qed.
Print Assumptions C69_own_partial.

(** When a client closes its connection, the front end's socket is not closed, and never will be: it is not watched any more. *)
Theorem C69_leak_refuted ls f es s k : reached ls f es -> In (EGone s k) es -> owner (f_open f) s = Some k /\ ~ watched (f_pool f) s /\ (forall s', ~ In (EClosed s' k) es).
Proof.
  intros HR HG. destruct (reached_inv ls f es HR) as (live & HI). pose proof HI as [IP IL IC IN IR IX IK ID IO IG IA]. destruct (IG s k HG) as (G1 & G2). split; [apply owner_in; auto|]. split.
  - destruct (C68_set_partial _ _ _ _ IP) as (_ & HW & _). intros A. apply HW in A. apply in_map_iff in A. destruct A as ((y & d) & Ey & A). cbn [fst] in Ey. subst y. destruct d; [|tauto].
    apply IL in A. destruct (IR s) as (R1 & _); [apply in_map_iff; exists (s, k); auto|tauto].
  - intros s' A. destruct (ID k) as (D1 & _); [apply in_closes; eauto|]. apply D1. apply in_map_iff. exists (s, k). auto.
Qed.
Print Assumptions C69_leak_refuted.

(** Examples: listening on socket 3; a client (connection 0, socket 7) sends the message 1 2, then a single byte; another one (connection 1) gets socket 7. *)
Definition tf_start : tfe := mk_tfe (match pl_add pl_init 3 true with Ret (_, p) => p | _ => pl_init end) [] 0.
Definition tf_ops : list fop :=
  [FTurn [SelReady (fun s => s =? 3)] (Some 7) [Seg [0; 2; 1; 2]] (repeat 0 8); FTurn [SelReady (fun s => s =? 7)] None [Seg [9]] (repeat 0 8);
   FTurn [SelReady (fun s => s =? 3)] (Some 7) [Seg [0; 3; 5; 6; 7]] (repeat 0 8)].
Definition tf_close : list fop := firstn 1 tf_ops ++ [FTurn [SelReady (fun s => s =? 7)] None [Closed] (repeat 0 8)].
Lemma tf_started : started [3] tf_start.
Proof.
  split; [|split; reflexivity]. destruct (pl_add (@pl_init bool) 3 true) as [[c p]| | |] eqn:E; try (vm_compute in E; discriminate). unfold tf_start. rewrite E. cbn [f_pool map]. eapply PO_add; [apply PO_init|lia|intros []|exact E].
Qed.
Lemma net_one l : l <> [] -> Forall is_byte l -> net_ok [Seg l].
Proof. intros N B e [<-|[]]. auto. Qed.
Lemma tf_kernel f acc l r buf : l <> [] -> Forall is_byte l -> (forall s, acc = Some s -> 0 <= s < 1024 /\ ~ In s (map fst (f_open f)) /\ ~ In s [3]) -> kernel_ok [3] f (FTurn [SelReady r] acc [Seg l] buf).
Proof. intros N B HA. split; [apply net_one; assumption|]. split; [exact HA|]. exists [], (SelReady r), []. split; [reflexivity|]. split; [constructor|]. discriminate. Qed.

(** After that the first client's reply goes to the second client. *)
Theorem C69_other_refuted : exists es f, reached [3] f es /\ (exists b n, In (EQuery 7 0 b n) es) /\ exists m, front_step f (FReply 7 6 [1; 2; 3; 4]) = Ret (EReply (Some 1%nat) m, f).
Proof.
  destruct (front_run tf_start tf_ops) as [[es f]| | |] eqn:E; try (vm_compute in E; discriminate). exists es, f.
  unfold tf_ops in E. cbn [front_run] in E. apply bind_ret in E. destruct E as ((e1 & f1) & E1 & E). cbn [snd fst] in E. apply bind_ret in E. destruct E as ((es2 & f2') & E2' & E). cbn [snd fst] in E. injection E as <- <-.
  apply bind_ret in E2'. destruct E2' as ((e2 & f2) & E2 & E). cbn [snd fst] in E. apply bind_ret in E. destruct E as ((es3 & f3') & E3' & E). cbn [snd fst] in E. injection E as <- <-.
  apply bind_ret in E3'. destruct E3' as ((e3 & f3) & E3 & E). cbn [snd fst bind] in E. injection E as <- <-.
  assert (O1 : f_open f1 = [(7, 0%nat)] /\ e1 = EQuery 7 0 [1; 2; 0; 0; 0; 0; 0; 0] 2) by (vm_compute in E1; injection E1 as <- <-; split; reflexivity).
  assert (O2 : f_open f2 = [] /\ e2 = EClosed 7 0) by (vm_compute in E1; injection E1 as _ <-; vm_compute in E2; injection E2 as <- <-; split; reflexivity).
  assert (O3 : f_open f3 = [(7, 1%nat)]) by (vm_compute in E1; injection E1 as _ <-; vm_compute in E2; injection E2 as _ <-; vm_compute in E3; injection E3 as _ <-; reflexivity).
  destruct O1 as (O1 & ->). destruct O2 as (O2 & ->). split; [|split].
  - change ([EQuery 7 0 [1; 2; 0; 0; 0; 0; 0; 0] 2; EClosed 7 0; e3]) with ((([] ++ [EQuery 7 0 [1; 2; 0; 0; 0; 0; 0; 0] 2]) ++ [EClosed 7 0]) ++ [e3]).
    eapply R_step; [eapply R_step; [eapply R_step; [apply R_start, tf_started| |exact E1]| |exact E2]| |exact E3]; apply tf_kernel; try discriminate; try (repeat constructor; lia).
    + intros s Es. injection Es as <-. cbn. intuition lia.
    + intros s Es. injection Es as <-. rewrite O2. cbn. intuition lia.
  - eexists _, _. left. reflexivity.
  - eexists. cbn [front_step]. unfold front_reply. rewrite O3. reflexivity.
Qed.
Print Assumptions C69_other_refuted.

(** The first client's query, and then its disconnection. *)
Example C69_nonvacuous : exists f1 f2 b, reached [3] f1 [EQuery 7 0 b 2] /\ front_step f1 (FReply 7 6 [1; 2; 3; 4]) = Ret (EReply (Some 0%nat) [0; 4; 1; 2; 3; 4], f1) /\
  reached [3] f2 [EQuery 7 0 b 2; EGone 7 0] /\ owner (f_open f2) 7 = Some 0%nat /\ ~ watched (f_pool f2) 7.
Proof.
  destruct (front_run tf_start tf_close) as [[es f]| | |] eqn:E; try (vm_compute in E; discriminate).
  unfold tf_close, tf_ops in E. cbn [front_run firstn app] in E. apply bind_ret in E. destruct E as ((e1 & f1) & E1 & E). cbn [snd fst] in E. apply bind_ret in E. destruct E as ((es2 & f2') & E2' & E). cbn [snd fst] in E. injection E as <- <-.
  apply bind_ret in E2'. destruct E2' as ((e2 & f2) & E2 & E). cbn [snd fst bind] in E. injection E as <- <-.
  assert (O1 : e1 = EQuery 7 0 [1; 2; 0; 0; 0; 0; 0; 0] 2) by (vm_compute in E1; injection E1 as <- <-; reflexivity).
  assert (O2 : e2 = EGone 7 0) by (vm_compute in E1; injection E1 as _ <-; vm_compute in E2; injection E2 as <- _; reflexivity). subst e1 e2.
  assert (H1 : reached [3] f1 ([] ++ [EQuery 7 0 [1; 2; 0; 0; 0; 0; 0; 0] 2])).
  { eapply R_step; [apply R_start, tf_started| |exact E1]. apply tf_kernel; try discriminate; try (repeat constructor; lia). intros s Es. injection Es as <-. cbn. intuition lia. }
  assert (H2 : reached [3] f2 (([] ++ [EQuery 7 0 [1; 2; 0; 0; 0; 0; 0; 0] 2]) ++ [EGone 7 0])).
  { eapply R_step; [exact H1| |exact E2]. split; [intros e [<-|[]]; exact I|]. split; [discriminate|]. eexists [], _, []. split; [reflexivity|]. split; [constructor|]. discriminate. }
  exists f1, f2, [1; 2; 0; 0; 0; 0; 0; 0]. split; [exact H1|]. split; [apply (C69_own_partial [3] f1 [] 7 0%nat _ 2 [] 6%nat [1; 2; 3; 4] H1); intros k []|]. split; [exact H2|].
  destruct (C69_leak_refuted [3] f2 _ 7 0%nat H2) as (A & B & _); [right; left; reflexivity|]. auto.
Qed.
