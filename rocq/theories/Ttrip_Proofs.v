(** A query stays pending in the TCP upstream module until a reply goes to its client or two seconds have passed. *)
From Verif Require Import Base BaseFacts ListFacts Hash_Model Bst_Model Bst_Spec Bst_Proofs Cht_Model Cache_Model Parser_Spec Iheader_Model Iheader_Spec Ip_Model Mctx_Model Mctx_Spec Mctx_Proofs Sock_Model Tcp_Model Udpm_Model Udpm_Spec Udpm_Proofs
  Tcpm_Model Tcpm_Spec Tcpm_Proofs Tcpm2_Proofs.
Require Import Permutation ZifyBool ZifyNat.
Set Default Proof Using "Type".

Ltac opened H :=
  repeat (match type of H with
  | bind ?e _ = Ret _ => let E := fresh "E" in destruct e as [?| | |] eqn:E; [|discriminate H..]; cbn [bind fst snd] in H
  | context [let '(_, _) := ?p in _] => is_var p; destruct p
  | (match ?e with _ => _ end) = Ret _ => let E := fresh "E" in destruct e eqn:E; try discriminate H
  end; cbn [bind fst snd] in H).

Section T.
Context (v : tenv) (targets : list (list Z * list Z)) (nproxies : option nat) (par : bool) (keep incoming : Z) (stale : tctx).
Definition onward (k k' : kst) : Prop := (k_tick k <= k_tick k')%nat.
Lemma onward_refl k : onward k k. Proof. unfold onward. lia. Qed.
Lemma onward_trans k1 k2 k3 : onward k1 k2 -> onward k2 k3 -> onward k1 k3. Proof. unfold onward. lia. Qed.
Lemma onward_ticked k k' : onward (ticked k) k' -> onward k k'. Proof. unfold onward. cbn. lia. Qed.
Lemma onward_noted e k k' : onward (noted e k) k' -> onward k k'. Proof. unfold onward. cbn. lia. Qed.

Lemma take_onward k p o err k' p' : take v k p = Ret (o, err, k', p') -> onward k k'.
Proof. intros H. unfold take in H. opened H; (assert (k' = ticked k) as -> by congruence); unfold onward; cbn; lia. Qed.
Lemma recycle_onward fuel : forall k p ps k' p' ps', recycle v fuel k p ps = Ret (k', p', ps') -> onward k k'.
Proof.
  induction fuel as [|fuel IH]; intros k p ps k' p' ps' H; cbn [recycle] in H; [discriminate|]. opened H; match goal with E : take _ _ _ = _ |- _ => apply take_onward in E; rename E into HT end.
  - apply IH in H. eapply onward_trans; eauto.
  - congruence.
Qed.
Lemma get_avail_onward fuel : forall k p o k' p', get_avail v keep fuel k p = Ret (o, k', p') -> onward k k'.
Proof.
  induction fuel as [|fuel IH]; intros k p o k' p' H; cbn [get_avail] in H; [discriminate|]. opened H; match goal with E : take _ _ _ = _ |- _ => apply take_onward in E; rename E into HT end.
  - apply IH, onward_noted, onward_ticked in H. eapply onward_trans; eauto.
  - assert (k' = ticked k0) as -> by congruence. unfold onward in *. cbn. lia.
  - congruence.
Qed.
Lemma connect_direct_onward fuel proxy idxs : forall k p ps n n' k' p' ps', connect_direct v keep stale fuel proxy idxs k p ps n = Ret (n', k', p', ps') -> onward k k'.
Proof.
  induction idxs as [|i idxs IH]; intros k p ps n n' k' p' ps' H; cbn [connect_direct] in H; [assert (k' = k) as -> by congruence; apply onward_refl|].
  opened H; match goal with E : get_avail _ _ _ _ _ = _ |- _ => apply get_avail_onward in E; rename E into HT end; apply IH in H; clear - H HT; unfold onward, ticked, noted in *; cbn [k_tick k_log] in *; lia.
Qed.
Lemma connect_proxies_onward fuel np k q n k' q' : connect_proxies v keep stale fuel np k q = Ret (n, k', q') -> onward k k'.
Proof.
  intros H. unfold connect_proxies in H. opened H. match goal with E : recycle _ _ _ _ _ = _ |- _ => apply recycle_onward in E; rename E into HT end.
  match goal with E : connect_direct _ _ _ _ _ _ _ _ _ _ = _ |- _ => apply connect_direct_onward, onward_ticked in E; rename E into HT2 end. assert (k' = k1) as -> by congruence. eapply onward_trans; eauto.
Qed.
Lemma connect_via_onward fuel np idxs : forall k q n n' k' q', connect_via v keep stale fuel np idxs k q n = Ret (n', k', q') -> onward k k'.
Proof.
  induction idxs as [|i idxs IH]; intros k q n n' k' q' H; cbn [connect_via] in H; [assert (k' = k) as -> by congruence; apply onward_refl|].
  opened H; apply IH in H;
  repeat match goal with E : get_avail _ _ _ _ _ = _ |- _ => apply get_avail_onward in E | E : connect_proxies _ _ _ _ _ _ _ = _ |- _ => apply connect_proxies_onward in E end; unfold onward in *; lia.
Qed.
Lemma t_connect_onward fuel one k q n k' q' : t_connect v targets nproxies keep stale fuel one k q = Ret (n, k', q') -> onward k k'.
Proof.
  intros H. unfold t_connect in H. opened H; match goal with E : recycle _ _ _ _ _ = _ |- _ => apply recycle_onward in E; rename E into HT end.
  - apply connect_via_onward, onward_ticked in H. eapply onward_trans; eauto.
  - match goal with E : connect_direct _ _ _ _ _ _ _ _ _ _ = _ |- _ => apply connect_direct_onward, onward_ticked in E; rename E into HT2 end. assert (k' = k1) as -> by congruence. eapply onward_trans; eauto.
Qed.
Lemma send_loop_onward n a qid hash msg : forall k p w k' p' w', send_loop v targets nproxies n a qid hash msg k p w = Ret (k', p', w') -> onward k k'.
Proof.
  induction n as [|n IH]; intros k p w k' p' w' H; cbn [send_loop] in H; [assert (k' = k) as -> by congruence; apply onward_refl|].
  destruct (take v k p) as [[[[o err] k1] p1]| | |] eqn:ET; try discriminate. cbn [bind] in H. apply take_onward in ET. destruct o as [[s d]|].
  2:{ destruct (negb (err =? 0) && negb (void_error err)); [assert (k' = k1) as -> by congruence; exact ET|]. apply IH in H. eapply onward_trans; eauto. }
  match type of H with bind ?e _ = _ => destruct e as [[ready k2]| | |] eqn:ER; try discriminate end. cbn [bind] in H.
  assert (H2 : onward k1 k2).
  { opened ER; first [assert (k2 = k1) as -> by congruence; apply onward_refl|match type of ER with Ret (_, ?y) = _ => assert (k2 = y) as -> by congruence end; unfold onward; cbn; lia]. }
  assert (H12 : onward k k2) by (eapply onward_trans; eauto). destruct (negb ready); [apply IH, onward_noted in H; eapply onward_trans; eauto|].
  destruct (send_wrapper _ _) as [ok out]. destruct (negb _); [apply IH in H; clear - H H12; unfold onward, ticked, noted in *; cbn [k_tick k_log] in *; lia|].
  destruct (pl_add _ _ _) as [r| | |]; try discriminate. cbn [bind] in H. apply IH in H. clear - H H12. unfold onward, ticked, noted in *. cbn [k_tick k_log] in *. lia.
Qed.
Lemma send_actual_onward fuel a c one k q w k' q' w' : send_actual v targets nproxies par keep stale fuel a c one k q w = Ret (k', q', w') -> onward k k'.
Proof.
  intros H. unfold send_actual in H. destruct (if h_len (c_h c) <? 0 then None else _); try discriminate. cbv zeta in H.
  destruct (t_connect _ _ _ _ _ _ _ _ _) as [[[n k1] q1]| | |] eqn:ET; try discriminate. cbn [bind] in H. apply t_connect_onward in ET. destruct (n <? 1); [assert (k' = k1) as -> by congruence; exact ET|].
  destruct (send_loop _ _ _ _ _ _ _ _ _ _ _) as [[[k2 p2] w2]| | |] eqn:ES; try discriminate. cbn [bind] in H. apply send_loop_onward in ES. assert (k' = k2) as -> by congruence. eapply onward_trans; eauto.
Qed.

Context (ap : bool) (misc : option (ipchunk * bool)) (raw : list Z -> list cnode -> nat -> Z) (ignore parallel : bool) (get : list Z -> option ctrl).
Context (hdr : iheader -> list Z) (arr : list Z -> list Z) (fuel nf : nat).
Notation turn := (t_turn v targets nproxies par keep incoming stale ap misc raw ignore parallel get hdr arr fuel nf).
Notation run := (t_run v targets nproxies par keep incoming stale ap misc raw ignore parallel get hdr arr fuel nf).
Notation handle := (u_handle ap misc raw ignore parallel get hdr arr fuel nf).

(** Time goes on, and what times out is old. *)
Definition late (k k' : kst) (es : list (@uev unit)) : Prop :=
  onward k k' /\ forall l, In (VTimeouts l) es -> exists b, (k_tick k <= b <= k_tick k')%nat /\ Forall (expired (v_time v b)) (map fst l).
Lemma late_app k1 k2 k3 es1 es2 : late k1 k2 es1 -> late k2 k3 es2 -> late k1 k3 (es1 ++ es2).
Proof.
  intros (O1 & H1) (O2 & H2). unfold late, onward in *. split; [lia|]. intros l Hl. apply in_app_or in Hl. destruct Hl as [Hl|Hl]; [destruct (H1 l Hl) as (b & Hb & HF)|destruct (H2 l Hl) as (b & Hb & HF)]; exists b; (split; [lia|exact HF]).
Qed.
Lemma sweep_late (u : @udpm unit) t now e u' : known u t -> t_sweep u now = Ret (e, u') -> exists l, e = VTimeouts l /\ Forall (expired now) (map fst l).
Proof.
  intros ((fl & HB) & _) H. unfold t_sweep in H. destruct (mc_sweep_ok _ t fl now HB) as (out & b' & t' & fl' & E & _ & _ & HE & _). rewrite E in H. cbn [bind fst snd] in H. exists out. split; [congruence|exact HE].
Qed.
Lemma no_timeouts (s : @udpm unit) mem n x e s' l : handle s mem n x = Ret (e, s') -> e <> VTimeouts l.
Proof.
  intros H. unfold u_handle in H. cbv zeta in H.
  repeat match type of H with bind ?e _ = _ => destruct e as [?| | |]; [|discriminate H..]; cbn [bind] in H | context [let '(_, _) := ?p in _] => is_var p; destruct p | (if ?b then _ else _) = _ => destruct b end; congruence.
Qed.
Lemma turn_late m i t es m' : known (t_u m) t -> turn m i = Ret (es, m') -> late (t_k m) (t_k m') es.
Proof.
  intros HK H. unfold t_turn in H. destruct (negb (t_alive m)). { assert (es = [] /\ m' = m) as (-> & ->) by (split; congruence). split; [apply onward_refl|intros l []]. }
  destruct (pl_select _ _ _) as [[o err]| | |]; try discriminate. cbn [bind fst snd] in H. destruct o as [[s a]|].
  - destruct (s =? incoming).
    + unfold t_incoming in H. cbv zeta in H. destruct (if 1024 <? t_cum m then _ else _) as [[[es1 u1] cum1]| | |] eqn:E1; try discriminate. cbn [bind] in H.
      assert (HL1 : forall l, In (VTimeouts l) es1 -> Forall (expired (v_time v (k_tick (ticked (t_k m))))) (map fst l)).
      { destruct (1024 <? t_cum m); [|assert (es1 = []) as -> by congruence; intros l []]. destruct (t_sweep _ _) as [[e u2]| | |] eqn:ES; try discriminate. cbn [bind fst snd] in E1. destruct (sweep_late _ _ _ _ _ HK ES) as (l0 & -> & HF).
        assert (es1 = [VTimeouts l0]) as -> by congruence. intros l [Hl|[]]. assert (l = l0) as -> by congruence. exact HF. }
      match type of H with bind ?e _ = _ => destruct e as [[[[[[es2 u2] k2] q2] w2] cum2]| | |] eqn:E2; try discriminate end. cbn [bind] in H.
      assert (H2 : onward (ticked (ticked (t_k m))) k2 /\ forall l, ~ In (VTimeouts l) es2).
      { destruct (i_query i) as [[h bytes]|]; [|assert (es2 = [] /\ k2 = ticked (ticked (t_k m))) as (-> & ->) by (split; congruence); split; [apply onward_refl|intros l []]].
        destruct (mc_add _ _ _) as [r| | |]; try discriminate. cbn [bind] in E2. destruct (deref _ _) as [n| | |]; try discriminate. cbn [bind] in E2. destruct (send_actual _ _ _ _ _ _ _ _ _ _ _ _ _) as [[[k3 q3] w3]| | |] eqn:ES; try discriminate. cbn [bind] in E2.
        apply send_actual_onward, onward_ticked in ES. assert (es2 = [VQueued [] 0] /\ k2 = k3) as (-> & ->) by (split; congruence). split; [exact ES|]. intros l [Hl|[]]. discriminate. }
      destruct H2 as (H2 & HN2). opened H. assert (es = es1 ++ es2 /\ t_k m' = k2) as (-> & ->) by (split; [congruence|match type of H with Ret (_, ?y) = _ => assert (m' = y) as -> by congruence end; reflexivity]).
      split; [apply onward_ticked, onward_ticked; exact H2|]. intros l Hl. apply in_app_or in Hl. destruct Hl as [Hl|Hl]; [|destruct (HN2 l Hl)]. exists (k_tick (ticked (t_k m))). split; [|apply HL1, Hl]. unfold onward in H2. cbn in H2 |- *. lia.
    + unfold t_reply in H. cbv zeta in H. destruct (pl_del _ _ _) as [w1| | |]; try discriminate. cbn [bind] in H. destruct (pl_data _ _) as [d| | |]; try discriminate. cbn [bind] in H. destruct (tcp_reply _ _ _) as [r| | |]; try discriminate. cbn [bind] in H.
      destruct r as [buf n c'|retry buf].
      * destruct (put_at _ _ _ _) as [ags| | |]; try discriminate. cbn [bind] in H. destruct (handle _ _ _ _) as [[e u2]| | |] eqn:EH; try discriminate. cbn [bind] in H.
        assert (es = [e] /\ t_k m' = noted (TGot s) (ticked (ticked (t_k m)))) as (-> & ->) by (split; [congruence|match type of H with Ret (_, ?y) = _ => assert (m' = y) as -> by congruence end; reflexivity]).
        split; [unfold onward; cbn; lia|]. intros l [Hl|[]]. destruct (no_timeouts _ _ _ _ _ _ l EH Hl).
      * match type of H with bind ?e _ = _ => destruct e as [[[k2 q2] w2]| | |] eqn:E2; try discriminate end. cbn [bind] in H.
        assert (es = [VNothing] /\ t_k m' = noted (TClose s) k2) as (-> & ->) by (split; [congruence|match type of H with Ret (_, ?y) = _ => assert (m' = y) as -> by congruence end; reflexivity]).
        assert (H2 : onward (ticked (t_k m)) k2).
        { destruct (tc_msg d) as [x|]; [|assert (k2 = ticked (t_k m)) as -> by congruence; apply onward_refl]. destruct (retry && _); [|assert (k2 = ticked (t_k m)) as -> by congruence; apply onward_refl].
          destruct (deref _ _) as [n| | |]; try discriminate. cbn [bind] in E2. match type of E2 with (if ?b then _ else _) = _ => destruct b end; [|assert (k2 = ticked (t_k m)) as -> by congruence; apply onward_refl]. eapply send_actual_onward; exact E2. }
        split; [unfold onward in *; cbn in *; lia|]. intros l [Hl|[]]. discriminate.
  - destruct (negb (err =? 0)).
    + destruct (t_cleanup _ _ _) as [m2| | |] eqn:EC; try discriminate. cbn [bind] in H. assert (es = [] /\ m' = m2) as (-> & ->) by (split; congruence). unfold t_cleanup in EC.
      repeat match type of EC with bind ?e _ = _ => destruct e as [?| | |]; [|discriminate EC..]; cbn [bind] in EC end.
      assert (HF : forall l k, k_tick (fold_left (fun k0 s0 => noted (TClose s0) k0) l k) = k_tick k). { intros l. induction l as [|x l IH]; intros k; cbn [fold_left]; [reflexivity|]. rewrite IH. reflexivity. }
      match type of EC with Ret ?y = _ => assert (m2 = y) as -> by congruence end. split; [|intros l []]. unfold onward. cbn [t_k]. rewrite HF. cbn. lia.
    + destruct (t_sweep _ _) as [[e u2]| | |] eqn:ES; try discriminate. cbn [bind fst snd] in H. destruct (sweep_late _ _ _ _ _ HK ES) as (l0 & -> & HF).
      assert (es = [VTimeouts l0] /\ t_k m' = ticked (ticked (t_k m))) as (-> & ->) by (split; [congruence|match type of H with Ret (_, ?y) = _ => assert (m' = y) as -> by congruence end; reflexivity]).
      split; [unfold onward; cbn; lia|]. intros l [Hl|[]]. assert (l = l0) as -> by congruence. exists (k_tick (ticked (t_k m))). split; [cbn; lia|exact HF].
Qed.
Lemma run_late (HE : env_ok v (length targets) nproxies) room is : (room <= 4096)%nat -> forall m w t es m', tinv targets nproxies incoming room m w t -> Forall (tin_ok room) is -> run m is = Ret (es, m') -> late (t_k m) (t_k m') es.
Proof.
  intros Hroom. induction is as [|i is IH]; intros m w t es m' HT HF HR; cbn [t_run] in HR.
  - assert (es = [] /\ m' = m) as (-> & ->) by (split; congruence). split; [apply onward_refl|intros l []].
  - inversion HF as [|? ? HI HF']; subst. destruct (turn m i) as [[es1 m1]| | |] eqn:E1; try discriminate. cbn [bind fst snd] in HR. destruct (run m1 is) as [[es2 m2]| | |] eqn:E2; try discriminate. cbn [bind fst snd] in HR.
    assert (es = es1 ++ es2 /\ m' = m2) as (-> & ->) by (split; congruence). assert (HK : known (t_u m) t) by apply HT. pose proof (turn_late m i t es1 m1 HK E1) as HL. eapply late_app; [exact HL|].
    destruct (turn_ok v targets nproxies par keep incoming stale hdr arr HE ap misc raw ignore parallel get fuel nf room m w t i Hroom HT HI) as [(es3 & m3 & w1 & t1 & qs1 & E3 & HT1 & _)|[(err & Ne & _ & E3)|(buf & n & c' & _ & _ & E3)]].
    + rewrite E1 in E3. assert (m3 = m1) as -> by congruence. eapply IH; eauto.
    + assert (HD : t_alive m1 = false).
      { rewrite E1 in E3. destruct (t_cleanup _ _ _) as [m3| | |] eqn:EC; try discriminate. cbn [bind] in E3. assert (m1 = m3) as -> by congruence. unfold t_cleanup in EC. repeat match type of EC with bind ?e _ = _ => destruct e as [?| | |]; [|discriminate EC..]; cbn [bind] in EC end.
        match type of EC with Ret ?y = _ => assert (m3 = y) as -> by congruence end. reflexivity. }
      assert (HX := dead_run v targets nproxies par keep incoming stale hdr arr ap misc raw ignore parallel get fuel nf m1 is HD). rewrite HX in E2. assert (es2 = [] /\ m2 = m1) as (-> & ->) by (split; congruence). split; [apply onward_refl|intros l []].
    + destruct (E3 _ E1).
Qed.
Lemma trun_app is1 is2 m es m' : run m (is1 ++ is2) = Ret (es, m') -> exists es1 m1 es2, run m is1 = Ret (es1, m1) /\ run m1 is2 = Ret (es2, m') /\ es = es1 ++ es2.
Proof.
  revert m es. induction is1 as [|i is1 IH]; intros m es H; cbn [app] in H.
  - exists [], m, es. auto.
  - cbn [t_run] in H |- *. destruct (turn m i) as [[e s1]| | |] eqn:E1; try discriminate. cbn [bind fst snd] in *. destruct (run s1 (is1 ++ is2)) as [[es1 s2]| | |] eqn:E2; try discriminate. cbn [bind fst snd] in H.
    assert (es = e ++ es1 /\ m' = s2) as (-> & ->) by (split; congruence). destruct (IH s1 es1 E2) as (ea & sa & eb & -> & H2 & ->). exists (e ++ ea), sa, eb. cbn [bind fst snd]. rewrite app_assoc. auto.
Qed.
End T.

Lemma fates_delivered {A} hdr (es : list (@uev A)) d t q : fates hdr es d t -> In q d -> exists r msg code, In (VReplied (to_client hdr q r msg) code) es /\ matches q r /\ forall x, get16 msg 0 = Some x -> x = ctx_id q.
Proof.
  intros HF. induction HF as [|to code es d t HF IH|es d t HF IH|why es d t HF IH|es d t HF IH|p r msg code es d t HM Hid HF IH|l es d t HF IH]; intros H; [destruct H|..]; try (destruct (IH H) as (r' & msg' & code' & H1 & H2 & H3); exists r', msg', code'; split; [right; exact H1|auto]).
  destruct H as [<-|H]; [exists r, msg, code; split; [left; reflexivity|auto]|]. destruct (IH H) as (r' & msg' & code' & H1 & H2 & H3). exists r', msg', code'. split; [right; exact H1|auto].
Qed.
Lemma fates_timeout {A} hdr (es : list (@uev A)) d t q : fates hdr es d t -> In q t -> exists l, In (VTimeouts l) es /\ In q (map fst l).
Proof.
  intros HF. induction HF as [|to code es d t HF IH|es d t HF IH|why es d t HF IH|es d t HF IH|p r msg code es d t HM Hid HF IH|l es d t HF IH]; intros H; [destruct H|..]; try (destruct (IH H) as (l' & H1 & H2); exists l'; split; [right; exact H1|exact H2]).
  apply in_app_or in H. destruct H as [H|H]; [exists l; split; [left; reflexivity|exact H]|]. destruct (IH H) as (l' & H1 & H2). exists l'. split; [right; exact H1|exact H2].
Qed.
