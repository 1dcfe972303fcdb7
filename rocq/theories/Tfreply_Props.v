(** C69: replies on the sockets of the TCP front end, whatever became of the connection. *)
From Verif Require Import Base BaseFacts ListFacts Bst_Model Sock_Model Sock_Spec Sock_Proofs Sock_Props Tcp_Model Tcp_Props Tfe_Model Tfe_Props.
Require Import Permutation ZifyBool ZifyNat.

(** A reply is sent to nobody, or to a connection that the front end has not closed, and then all of it that is taken is the message with its length. *)
Theorem C69_reply ls f es s m msg : reached ls f es -> exists r, front_step f (FReply s m msg) = Ret (r, f) /\
  (r = EReply None [] \/ exists k, r = EReply (Some k) (firstn m (framed msg)) /\ forall s', ~ In (EClosed s' k) es).
Proof.
  intros HR. cbn [front_step]. eexists. split; [reflexivity|]. unfold front_reply. destruct (owner (f_open f) s) as [k|] eqn:Ow; [|left; reflexivity]. right. exists k. split; [reflexivity|].
  intros s' H. destruct (C69_closed ls f es HR) as (_ & X & _). exact (X s' k H s Ow).
Qed.
Print Assumptions C69_reply.
(** After the front end closed a socket, and until it has a new connection on a socket of that number, replies on it are sent to nobody. *)
Theorem C69_reply_closed ls f es1 s k es2 m msg : reached ls f (es1 ++ EClosed s k :: es2) -> (forall k' b n, ~ In (EQuery s k' b n) es2) -> (forall k', ~ In (EGone s k') es2) ->
  front_step f (FReply s m msg) = Ret (EReply None [], f).
Proof.
  intros HR HQ HN. enough (Ow : owner (f_open f) s = None). { cbn [front_step]. unfold front_reply. rewrite Ow. reflexivity. }
  remember (es1 ++ EClosed s k :: es2) as es eqn:Ees. revert es1 es2 Ees HQ HN. induction HR as [f HS|f es o e f' HR IH HK HE]; intros es1 es2 Ees HQ HN; [destruct es1; discriminate|].
  destruct (reached_inv ls f es HR) as (live & HI). destruct (step_ok ls f es live o HI HK) as (e2 & f2 & live' & E2 & HI' & HT). rewrite HE in E2. injection E2 as <- <-. apply owner_none.
  assert (HCl : forall o', ~ In s (map fst (closed o' s))) by (intros o' X; apply in_map_iff in X; destruct X as ((y & j) & Ey & X); cbn [fst] in Ey; subst y; apply in_closed in X; tauto).
  destruct es2 as [|x es2] using rev_ind.
  - apply app_inj_tail in Ees. destruct Ees as (_ & ->). destruct o as [rs acc c buf|s0 m0 msg0].
    + destruct HT as [(Ee & _)|[(Ee & _)|[(s' & -> & HS)|(s' & HL & HS)]]]; try discriminate; destruct HS as (k' & Hk & _ & (-> & -> & _ & EO & _)); rewrite EO; apply HCl.
    + destruct HT as (_ & _ & Ee). unfold front_reply in Ee. destruct (owner (f_open f) s0); discriminate.
  - clear IHes2. rewrite app_comm_cons, app_assoc in Ees. apply app_inj_tail in Ees. destruct Ees as (Ees & <-). assert (Ow : owner (f_open f) s = None).
    { apply (IH es1 es2 Ees); [intros k' b n A; apply (HQ k' b n), in_app_iff; auto|intros k' A; apply (HN k'), in_app_iff; auto]. }
    apply owner_none in Ow.
    assert (HQe : forall k' b n, e <> EQuery s k' b n) by (intros k' b n ->; apply (HQ k' b n); apply in_app_iff; cbn; auto).
    assert (HNe : forall k', e <> EGone s k') by (intros k' ->; apply (HN k'); apply in_app_iff; cbn; auto).
    assert (HC2 : forall o' s', ~ In s (map fst o') -> ~ In s (map fst (closed ((s', f_next f) :: o') s'))). { intros o' s' H X. apply in_map_iff in X. destruct X as ((y & j) & Ey & X). cbn [fst] in Ey. subst y. apply in_closed in X. destruct X as ([X|X] & N); [congruence|]. apply H. apply in_map_iff. exists (s, j). auto. }
    assert (HC3 : forall o' s', ~ In s (map fst o') -> ~ In s (map fst (closed o' s'))). { intros o' s' H X. apply in_map_iff in X. destruct X as ((y & j) & Ey & X). cbn [fst] in Ey. subst y. apply in_closed in X. apply H. apply in_map_iff. exists (s, j). tauto. }
    destruct o as [rs acc c buf|s0 m0 msg0].
    + destruct HT as [(_ & -> & _)|[(_ & -> & _)|[(s' & Eacc & HS)|(s' & HL & HS)]]]; auto; destruct HS as (k' & Hk & _ & HS); cbn [f_open f_pool f_next] in *; destruct e as [s1 k1 b1 n1|s1 k1|s1 k1| | |]; try tauto.
      * destruct HS as (-> & -> & _ & -> & _). cbn [map fst In]. intros [X|X]; [subst s'; eapply HQe; reflexivity|auto].
      * destruct HS as (-> & -> & _ & -> & _). apply HC2, Ow.
      * destruct HS as (-> & -> & _ & -> & _). cbn [map fst In]. intros [X|X]; [subst s'; eapply HNe; reflexivity|auto].
      * destruct HS as (-> & -> & _ & -> & _). exact Ow.
      * destruct HS as (-> & -> & _ & -> & _). apply HC3, Ow.
      * destruct HS as (-> & -> & _ & -> & _). exact Ow.
    + destruct HT as (-> & _). exact Ow.
Qed.
Print Assumptions C69_reply_closed.
(** A query from connection 0 on socket 7, and then two bytes that are no query: the front end closes the socket, and the reply is sent to nobody. *)
Example C69_reply_nonvacuous : exists f b, reached [3] f [EQuery 7 0 b 2; EClosed 7 0] /\ front_step f (FReply 7 6 [1; 2; 3; 4]) = Ret (EReply None [], f).
Proof.
  destruct (front_run tf_start tf_ops) as [[es f]| | |] eqn:E; try (vm_compute in E; discriminate).
  unfold tf_ops in E. cbn [front_run] in E. apply bind_ret in E. destruct E as ((e1 & f1) & E1 & E). cbn [snd fst] in E. apply bind_ret in E. destruct E as ((es2 & f2') & E2' & E). cbn [snd fst] in E. injection E as <- <-.
  apply bind_ret in E2'. destruct E2' as ((e2 & f2) & E2 & _). cbn [snd fst] in E2.
  assert (O1 : f_open f1 = [(7, 0%nat)] /\ e1 = EQuery 7 0 [1; 2; 0; 0; 0; 0; 0; 0] 2) by (vm_compute in E1; injection E1 as <- <-; split; reflexivity).
  assert (O2 : f_open f2 = [] /\ e2 = EClosed 7 0) by (vm_compute in E1; injection E1 as _ <-; vm_compute in E2; injection E2 as <- <-; split; reflexivity).
  destruct O1 as (O1 & ->). destruct O2 as (O2 & ->). exists f2, [1; 2; 0; 0; 0; 0; 0; 0]. split.
  - change ([EQuery 7 0 [1; 2; 0; 0; 0; 0; 0; 0] 2; EClosed 7 0]) with (([] ++ [EQuery 7 0 [1; 2; 0; 0; 0; 0; 0; 0] 2]) ++ [EClosed 7 0]).
    eapply R_step; [eapply R_step; [apply R_start, tf_started| |exact E1]| |exact E2]; apply tf_kernel; try discriminate; try (repeat constructor; lia).
    intros s Es. injection Es as <-. cbn. intuition lia.
  - cbn [front_step]. unfold front_reply. rewrite O2. reflexivity.
Qed.
