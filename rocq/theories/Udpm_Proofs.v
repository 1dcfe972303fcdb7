(** Lemmas about the UDP upstream module. *)
From Verif Require Import Base BaseFacts ListFacts Hash_Model Bst_Model Bst_Spec Bst_Proofs Name_Model Name_Proofs Parser_Model Gen_Model Iheader_Model Iheader_Spec Iheader_Proofs
  Ip_Model Ip_Spec Ip_Proofs Cht_Model Cache_Model Rdata_Model Arr_Model Mctx_Model Mctx_Spec Mctx_Proofs Udpm_Model Udpm_Spec.
Require Import Permutation ZifyBool ZifyNat.
Set Default Proof Using "Type".

(** ** Hashes *)
Definition word (z : Z) : Prop := 0 <= z < 4294967296.
Lemma bkdr_word s : word (bkdr s).
Proof.
  unfold bkdr. assert (H : forall h, word h -> word (fold_left (fun h c => u32 (h * 131 + schar c)) s h)).
  { induction s as [|c s IH]; intros h Hh; cbn [fold_left]; [exact Hh|]. apply IH. unfold u32, word. lia. }
  apply H. unfold word. lia.
Qed.
Lemma fill_loop_hash : forall fuel nf m len i s c s', fill_loop fuel nf m len i s = Ret (c, s') -> word (f_hash s) -> word (f_hash s').
Proof.
  induction fuel as [|fuel IH]; intros nf m len i s c s' H Hw; [discriminate|]. cbn [fill_loop] in H.
  destruct (iter_next m (Z.of_nat len) i) as [[[pos|] i']| | |]; try discriminate; cbn [bind] in *.
  2:{ injection H as <- <-. auto. }
  destruct (it_purpose i'); try (eapply IH; [exact H|exact Hw]).
  destruct (negb (it_klass i' =? 1)); [injection H as <- <-; auto|]. destruct (get_host_name nf len m pos (f_dom s)) as [n| | |]; try discriminate. cbn [bind] in *. destruct (fst n).
  - destruct (rec_type m 12) as [ty| | |]; try discriminate. cbn [bind] in *. eapply IH; [exact H|]. cbn [f_hash]. apply bkdr_word.
  - injection H as <- <-. exact Hw.
Qed.
Lemma ih_fill_hash fuel nf h dom rethdr m len back sock agent c h' dom' : ih_fill fuel nf h dom rethdr m len back sock agent = Ret (c, h', dom') -> word (h_hash h) -> word (h_hash h').
Proof.
  unfold ih_fill, parser_init. intros H Hw. destruct (Nat.ltb_spec len 12).
  - assert (h' = mk_ih None false (h_time h) (h_back h) (h_sock h) (h_domain h) (h_hash h) (h_type h) (h_rethdr h) false (h_len h) (h_agent h)) as -> by congruence. exact Hw.
  - destruct (iter_init m P_unknown 0 0 0) as [i| | |]; try discriminate. cbn [bind] in *.
    destruct (fill_loop fuel nf m len i _) as [[c0 s]| | |] eqn:E; try discriminate. cbn [bind] in H. apply fill_loop_hash in E; [|exact Hw].
    destruct (c0 =? 0); apply (f_equal (fun o => match o with Ret x => x | _ => (c, h', dom') end)) in H; rewrite !pair_equal_spec in H; destruct H as [[<- <-] <-]; exact E.
Qed.

(** ** Adding EDNS leaves the beginning of a message alone *)
Lemma bwrite_front b k l b' n : bwrite b k l = Ret b' -> (n <= k)%nat -> firstn n b' = firstn n b.
Proof.
  intros H Hn. destruct (bwrite_inv _ _ _ _ H) as (H1 & -> & _). rewrite firstn_app, firstn_length_le by lia.
  replace (n - k)%nat with 0%nat by lia. cbn [firstn]. rewrite app_nil_r, firstn_firstn. f_equal. lia.
Qed.
Definition front (n : nat) (p : part) : Prop := forall g c g', p g = Ret (c, g') -> (n <= g_itr g)%nat -> firstn n (g_buf g') = firstn n (g_buf g) /\ (g_itr g <= g_itr g')%nat /\ g_num g' = g_num g.
Lemma put_front n g l g' : put g l = Ret g' -> (n <= g_itr g)%nat -> firstn n (g_buf g') = firstn n (g_buf g) /\ (g_itr g <= g_itr g')%nat /\ g_num g' = g_num g.
Proof.
  unfold put. intros H Hn. destruct (bwrite (g_buf g) (g_itr g) l) as [b| | |] eqn:E; try discriminate. cbn [bind] in H. injection H as <-. cbn [g_buf g_itr g_num].
  split; [eapply bwrite_front; eauto|]. split; [lia|reflexivity].
Qed.
Lemma bytes_part_front n l : front n (bytes_part l).
Proof.
  intros g c g' H Hn. unfold bytes_part in H. destruct (left_length g <? Z.of_nat (length l)); [injection H as <- <-; auto|].
  destruct (put g l) as [x| | |] eqn:E; try discriminate. cbn [bind] in H. injection H as <- <-. eapply put_front; eauto.
Qed.
Lemma root_part_front n : front n (name_part []).
Proof.
  intros g c g' H Hn. unfold name_part in H. destruct (left_length g <? 1); [injection H as <- <-; auto|].
  destruct (put g [0]) as [x| | |] eqn:E; try discriminate. cbn [bind] in H. injection H as <- <-. eapply put_front; eauto.
Qed.
Lemma run_parts_front n ps : Forall (fun x => front n (snd x)) ps -> forall g c g', run_parts ps g = Ret (c, g') -> (n <= g_itr g)%nat -> (n <= g_num g)%nat -> firstn n (g_buf g') = firstn n (g_buf g).
Proof.
  induction 1 as [|[code p] ps Hp _ IH]; intros g c g' H Hi Hk; cbn [run_parts] in H.
  - unfold incr_count in H. destruct (rd16 (g_buf g) (g_num g)) as [v| | |]; try discriminate. cbn [bind] in H.
    destruct (bwrite (g_buf g) (g_num g) (be16 (v + 1))) as [b| | |] eqn:E; try discriminate. cbn [bind] in H. injection H as <- <-. cbn [g_buf]. eapply bwrite_front; eauto.
  - destruct (p g) as [[c1 g1]| | |] eqn:E; try discriminate. cbn [bind fst snd] in H. destruct (Hp g c1 g1 E Hi) as (H1 & H2 & H3).
    destruct (c1 =? 0); [|injection H as <- <-; exact H1]. rewrite <- H1. apply (IH g1 c g' H); lia.
Qed.
Lemma to_additional_same : forall fuel g g', to_additional fuel g = Ret g' -> g_buf g' = g_buf g /\ g_itr g' = g_itr g /\ cur_purpose g' = P_additional.
Proof.
  induction fuel as [|fuel IH]; intros g g' H; [discriminate|]. cbn [to_additional] in H. cbv zeta in H.
  assert (HN : g_buf (next_purpose g) = g_buf g /\ g_itr (next_purpose g) = g_itr g) by (unfold next_purpose; destruct (cur_purpose g); auto).
  destruct (purpose_eqb (cur_purpose (next_purpose g)) P_additional) eqn:E.
  - injection H as <-. destruct HN. split; [assumption|]. split; [assumption|]. destruct (cur_purpose (next_purpose g)); try discriminate; reflexivity.
  - apply IH in H. destruct HN as (<- & <-). exact H.
Qed.
Lemma fake_edns_front fuel m len l m' n : fake_edns fuel m len = Ret (Some (l, m')) -> (n <= len)%nat -> (n <= 10)%nat -> firstn n m' = firstn n m.
Proof.
  unfold fake_edns, gen_init_copy. intros H Hn H10.
  destruct (rd16 m 4) as [qd| | |]; try discriminate; cbn [bind] in H. destruct (rd16 m 6) as [an| | |]; try discriminate; cbn [bind] in H.
  destruct (rd16 m 8) as [ns| | |]; try discriminate; cbn [bind] in H. destruct (rd16 m 10) as [ar| | |]; try discriminate; cbn [bind] in H. cbv zeta in H.
  destruct (Z.of_nat len <? 0) eqn:E0; [lia|]. rewrite Nat2Z.id in H. destruct (rdn m 0 len) as [bytes| | |] eqn:ER; try discriminate. cbn [bind] in H.
  destruct (bwrite m 0 bytes) as [b1| | |] eqn:EW; try discriminate. cbn [bind] in H.
  assert (b1 = m) as ->.
  { unfold rdn in ER. destruct (slice m 0 len) as [x|] eqn:ES; try discriminate. injection ER as <-. destruct (bwrite_inv _ _ _ _ EW) as (HL & -> & _). pose proof (slice_length _ _ _ _ ES) as HX.
    apply slice_some in ES. destruct ES as (ES & ->). cbn [firstn app skipn Nat.add]. rewrite firstn_length_le by (cbn [skipn]; lia). cbn [skipn]. apply firstn_skipn. }
  set (g0 := mk_gen m len _) in H. destruct (to_additional fuel g0) as [g1| | |] eqn:ET; try discriminate. cbn [bind] in H.
  destruct (to_additional_same _ _ _ ET) as (HB & HI & HP). unfold gen_edns in H. rewrite HP in H. cbn [purpose_eqb] in H.
  destruct (run_parts _ g1) as [[c g2]| | |] eqn:EP; try discriminate. cbn [bind snd] in H. injection H as <- <-.
  replace (firstn n m) with (firstn n (g_buf g1)) by (rewrite HB; reflexivity). eapply run_parts_front; [|exact EP| |].
  - repeat (apply Forall_cons; [first [apply root_part_front|apply bytes_part_front]|]). constructor.
  - rewrite HI. cbn [g0 g_itr]. exact Hn.
  - unfold cur_purpose in HP. destruct (g_num g1) as [|[|[|[|[|[|[|[|[|[|[|k]]]]]]]]]]]; try discriminate. lia.
Qed.

(** ** What goes to a client *)
Lemma get16_firstn m n v : get16 (firstn n m) 0 = Some v -> get16 m 0 = Some v.
Proof. destruct n as [|[|n]], m as [|a [|b m]]; try discriminate; exact (fun H => H). Qed.
Lemma send_back_to_client hdr q r n s code : send_back hdr (addressed q r) n = Ret (s, code) -> exists msg, s = to_client hdr q r msg /\
  0 <= h_len (c_h r) /\ slice (c_entity r) 0 (Z.to_nat (h_len (c_h r))) = Some msg /\ (code = 0 <-> n = Z.of_nat (length (s_bytes s))).
Proof.
  unfold send_back, addressed. cbn [c_h h_len c_entity h_back h_sock h_rethdr]. cbv zeta. destruct (h_len (c_h r) <? 0) eqn:E0; [discriminate|].
  destruct (slice (c_entity r) 0 (Z.to_nat (h_len (c_h r)))) as [msg|] eqn:ES; [|discriminate]. pose proof (slice_length _ _ _ _ ES) as HL. intros H. exists msg.
  unfold to_client, addressed. cbn [c_h]. destruct (h_back (c_h q)) as [a|];
    match type of H with Ret (?x, ?y) = _ => assert (s = x /\ code = y) as (-> & ->) by (split; congruence) end; cbn [s_bytes].
  - split; [reflexivity|]. split; [lia|]. split; [reflexivity|]. destruct (n =? _) eqn:E; split; intros; try lia; discriminate.
  - split; [replace (Z.of_nat (length msg)) with (h_len (c_h r)) by lia; reflexivity|]. split; [lia|]. split; [reflexivity|]. destruct (n =? _) eqn:E; split; intros; try lia; discriminate.
Qed.

Lemma with_edns_entered ap fuel c c1 now : with_edns ap fuel c = Ret c1 -> 4 <= h_len (c_h c) -> entered ap c now (stamped c1 now) /\ h_hash (c_h c1) = h_hash (c_h c).
Proof.
  unfold with_edns, entered. intros H HL. destruct (negb ap || h_edns (c_h c)) eqn:EC.
  - injection H as <-. split; [|reflexivity]. split; [reflexivity|]. cbv zeta. exists (h_edns (c_h c)), (h_len (c_h c)), (c_entity c). split; reflexivity.
  - assert (HN : ~ (ap = false \/ h_edns (c_h c) = true)) by (destruct ap, (h_edns (c_h c)); cbn in EC; try discriminate; intuition discriminate).
    destruct (fake_edns fuel (c_entity c) (Z.to_nat (h_len (c_h c)))) as [[[l m]|]| | |] eqn:EF; try discriminate; cbn [bind] in H; cbv zeta in H; injection H as <-.
    + split; [|reflexivity]. split; [contradiction|]. cbv zeta. exists true, (Z.of_nat l), m. split; [reflexivity|]. eapply fake_edns_front; [exact EF|lia|lia].
    + split; [|reflexivity]. split; [contradiction|]. cbv zeta. exists (h_edns (c_h c)), (h_len (c_h c)), (c_entity c). split; reflexivity.
Qed.

(** ** Steps of the module and steps of its table *)
Section Steps.
Context {A : Type} (ap : bool) (misc : option (ipchunk * bool)) (par : option (list A)).
Context (raw : list Z -> list cnode -> nat -> Z) (ignore parallel : bool) (get : list Z -> option ctrl).
Context (hdr : iheader -> list Z) (arr : list Z -> list Z) (fuel nf : nat).
Notation step := (u_step ap misc par raw ignore parallel get hdr arr fuel nf).
Notation run := (u_run ap misc par raw ignore parallel get hdr arr fuel nf).

(** The step [o], with event [e], does [mo] to the table, with event [me]; or nothing. *)
Inductive table_step (s s' : @udpm A) : @uop A -> @uev A -> list mop -> Prop :=
| ts_query c now ok c1 to code : with_edns ap fuel c = Ret c1 -> mc_step (u_tab s) (MQuery c1 now) = Ret (EAdded (stamped c1 now), u_tab s') ->
    table_step s s' (UQuery c now ok) (VQueued to code) [MQuery c1 now]
| ts_nothing b x : u_tab s' = u_tab s -> table_step s s' (UTurn b x) VNothing []
| ts_discarded b x why : u_tab s' = u_tab s -> table_step s s' (UTurn b x) (VDiscarded why) []
| ts_unmatched b x r : word (h_hash (c_h r)) -> mc_step (u_tab s) (MReply r) = Ret (EIgnored, u_tab s') -> table_step s s' (UTurn b x) VUnmatched [MReply r]
| ts_replied b x r c n t code : word (h_hash (c_h r)) -> mc_step (u_tab s) (MReply r) = Ret (EDelivered c, u_tab s') -> send_back hdr c n = Ret (t, code) ->
    table_step s s' (UTurn b x) (VReplied t code) [MReply r]
| ts_sweep now l : mc_step (u_tab s) (MSweep now) = Ret (ETimeout l, u_tab s') -> table_step s s' (USweep now) (VTimeouts l) [MSweep now].

Definition rb_hash (s : @udpm A) : Prop := word (h_hash (u_h (u_rb s))).
Definition tab_hash (b : bst mctx) : Prop := exists t fl, binv b t fl /\ forall q, In q (vals t) -> hash_ok q.

Lemma answer_hash b r code c b' : tab_hash b -> word (h_hash (c_h r)) -> mc_answer b r = Ret (code, c, b') -> word (h_hash (c_h c)) /\ (code = 0 \/ code = -60).
Proof.
  intros (t & fl & HB & HH) Hr H. destruct (srch ctx_cmp r t) as [a|] eqn:ES.
  - destruct (mc_answer_some b t fl r a HB ES) as (q & b2 & t' & fl' & HI & H0 & HE & HD & HB'). rewrite HE in H.
    assert (c = addressed q r /\ code = 0) as (-> & ->) by (split; congruence). split; [|auto]. unfold addressed. cbn [c_h h_hash]. apply HH. apply in_map_iff. exists (a, q). auto.
  - rewrite (mc_answer_none b t fl r HB ES) in H. assert (c = r /\ code = -60) as (-> & ->) by (split; congruence). auto.
Qed.
Lemma handle_steps s mem n x e s' b y : tab_hash (u_tab s) -> rb_hash s -> u_handle ap misc raw ignore parallel get hdr arr fuel nf s mem n x = Ret (e, s') ->
  rb_hash s' /\ exists mos, table_step s s' (UTurn b y) e mos.
Proof.
  intros HT HR H. unfold u_handle in H. cbv zeta in H.
  destruct (ih_fill fuel nf _ _ _ _ _ _ _ _) as [[[c0 h] dom]| | |] eqn:EF; try discriminate. cbn [bind] in H. apply ih_fill_hash in EF; [|exact HR].
  destruct (misc_apply misc fuel h _ _) as [[why mem1]| | |]; try discriminate. cbn [bind] in H.
  destruct (negb (why =? misc_nothing)); [|destruct (is_blocked ap (mk_ctx h mem1))].
  + assert (e = VDiscarded why /\ s' = mk_udpm (u_tab s) (mk_ubuf h dom mem1) (u_cache s) (u_open s) 0 (u_addrs s) (u_alive s)) as (-> & ->) by (split; congruence).
    split; [exact EF|]. eexists. apply ts_discarded. reflexivity.
  + assert (e = VDiscarded misc_nothing /\ s' = mk_udpm (u_tab s) (mk_ubuf h dom mem1) (u_cache s) (u_open s) 0 (u_addrs s) (u_alive s)) as (-> & ->) by (split; congruence).
    split; [exact EF|]. eexists. apply ts_discarded. reflexivity.
  + destruct (mc_answer (u_tab s) (mk_ctx h mem1)) as [[[code c] tab]| | |] eqn:EA; try discriminate. cbn [bind] in H.
    destruct (answer_hash _ (mk_ctx h mem1) _ _ _ HT EF EA) as (Hc & Hcode). destruct (cache_apply raw ignore parallel get fuel nf s (code =? 0) c x) as [k| | |]; try discriminate. cbn [bind] in H.
    destruct (code =? 0) eqn:E0.
    * destruct (send_back hdr c (x_ret x)) as [[t cd]| | |] eqn:ES; try discriminate. cbn [bind fst snd] in H.
      assert (e = VReplied t cd /\ s' = mk_udpm tab (mk_ubuf (c_h c) (arr (h_domain (c_h c))) mem1) k (u_open s) 0 (u_addrs s) (u_alive s)) as (-> & ->) by (split; congruence).
      split; [exact Hc|]. eexists. apply (ts_replied s _ b _ (mk_ctx h mem1) c (x_ret x)); [exact EF| |exact ES]. cbn [mc_step]. rewrite EA. cbn [bind fst snd]. rewrite E0. reflexivity.
    * assert (e = VUnmatched /\ s' = mk_udpm tab (mk_ubuf h dom mem1) k (u_open s) 0 (u_addrs s) (u_alive s)) as (-> & ->) by (split; congruence).
      split; [exact EF|]. eexists. apply (ts_unmatched s _ b _ (mk_ctx h mem1)); [exact EF|]. cbn [mc_step]. rewrite EA. cbn [bind fst snd]. rewrite E0. reflexivity.
Qed.
Lemma receive_steps s x e s' b : tab_hash (u_tab s) -> rb_hash s -> u_receive ap misc raw ignore parallel get hdr arr fuel nf s x = Ret (e, s') ->
  rb_hash s' /\ exists mos, table_step s s' (UTurn b (SelData (Some x))) e mos.
Proof.
  intros HT HR H. unfold u_receive in H. cbv zeta in H. destruct (firstn (length (u_mem (u_rb s))) (x_bytes x)) as [|z zs] eqn:EB.
  - assert (e = VNothing /\ s' = s) as (-> & ->) by (split; congruence). split; [exact HR|]. eexists. apply ts_nothing. reflexivity.
  - eapply handle_steps; eauto.
Qed.
Lemma setup_same s b s1 : u_setup par s b = Ret (Some s1) -> u_tab s1 = u_tab s /\ u_rb s1 = u_rb s /\ u_cache s1 = u_cache s.
Proof.
  unfold u_setup. destruct (u_open s); [intros H; injection H as <-; auto|]. intros H. cbv zeta in H.
  assert (HX : (if b then Some (mk_udpm (u_tab s) (u_rb s) (u_cache s) true 0 (u_addrs s) (u_alive s)) else None) = Some s1).
  { destruct par; [congruence|]. destruct (al_get (u_addrs s)) as [[a|]| | |]; try discriminate. cbn [bind] in H. congruence. }
  destruct b; [|discriminate]. injection HX as <-. auto.
Qed.
Lemma step_steps s o e s' : tab_hash (u_tab s) -> rb_hash s -> step s o = Ret (e, s') -> rb_hash s' /\ exists mos, table_step s s' o e mos.
Proof.
  intros HT HR H. destruct o as [c now ok|b x|now]; cbn [u_step] in H.
  - unfold u_send in H. destruct (with_edns ap fuel c) as [c1| | |] eqn:EW; try discriminate. cbn [bind] in H. destruct (mc_add (u_tab s) c1 now) as [[a tab]| | |] eqn:EA; try discriminate. cbn [bind fst snd] in H.
    assert (HM : mc_step (u_tab s) (MQuery c1 now) = Ret (EAdded (stamped c1 now), tab)) by (cbn [mc_step]; rewrite EA; reflexivity). cbv zeta in H.
    set (s1 := mk_udpm tab (u_rb s) (u_cache s) (u_open s) (u_cnt s) (u_addrs s) (u_alive s)) in *.
    assert (HX : exists to code, e = VQueued to code /\ s' = s1).
    { destruct (u_open s); [|match type of H with Ret (VQueued ?x ?y, _) = _ => exists x, y end; split; congruence]. destruct (if h_len (c_h c1) <? 0 then None else _) as [bytes|]; [|discriminate].
      destruct par as [l|]; [match type of H with Ret (VQueued ?x ?y, _) = _ => exists x, y end; split; congruence|]. destruct (al_get (u_addrs s)) as [[a0|]| | |]; try discriminate; cbn [bind] in H; match type of H with Ret (VQueued ?x ?y, _) = _ => exists x, y end; split; congruence. }
    destruct HX as (to & code & -> & ->). split; [exact HR|]. eexists. apply ts_query; [exact EW|exact HM].
  - unfold u_turn in H. destruct (negb (u_alive s)); [assert (e = VNothing /\ s' = s) as (-> & ->) by (split; congruence); split; [exact HR|]; eexists; apply ts_nothing; reflexivity|].
    destruct (u_setup par s b) as [[s1|]| | |] eqn:ES; try discriminate; cbn [bind] in H.
    2:{ assert (e = VNothing /\ s' = u_cleanup s) as (-> & ->) by (split; congruence). split; [exact HR|]. eexists. apply ts_nothing. reflexivity. }
    destruct (setup_same _ _ _ ES) as (E1 & E2 & E3). assert (HR1 : rb_hash s1) by (unfold rb_hash; rewrite E2; exact HR). rewrite <- E1 in HT.
    destruct x as [| |[x|]].
    + assert (e = VNothing /\ s' = u_close s1) as (-> & ->) by (split; congruence). split; [exact HR1|]. eexists. apply ts_nothing. exact E1.
    + assert (e = VNothing /\ s' = if 8 <? u_cnt s1 then u_close s1 else s1) as (-> & ->) by (split; congruence). destruct (8 <? u_cnt s1); (split; [exact HR1|]); eexists; apply ts_nothing; exact E1.
    + destruct (receive_steps s1 x e s' b HT HR1 H) as (HR' & mos & HS). split; [exact HR'|]. exists mos.
      inversion HS; subst; rewrite E1 in *; econstructor; eauto.
    + assert (e = VNothing /\ s' = s1) as (-> & ->) by (split; congruence). split; [exact HR1|]. eexists. apply ts_nothing. exact E1.
  - unfold u_sweep in H. destruct (mc_sweep (u_tab s) now) as [[l tab]| | |] eqn:EM; try discriminate. cbn [bind fst snd] in H.
    match type of H with Ret (?x, ?y) = _ => assert (e = x /\ s' = y) as (-> & ->) by (split; congruence) end.
    split; [exact HR|]. eexists. apply ts_sweep. cbn [mc_step]. rewrite EM. reflexivity.
Qed.

(** What is known of a state: the tree in its table, the hashes. *)
Definition known (s : @udpm A) (t : tree) : Prop := (exists fl, binv (u_tab s) t fl) /\ (forall q, In q (vals t) -> hash_ok q) /\ rb_hash s.
Lemma known_hash s t : known s t -> tab_hash (u_tab s) /\ rb_hash s.
Proof. intros ((fl & HB) & HH & HR). split; [exists t, fl; auto|exact HR]. Qed.

(** One step, with what it does to the queries. *)
Lemma table_known s o e s' t mos : known s t -> uop_ok o -> rb_hash s' -> table_step s s' o e mos ->
  exists t' qs d tt, known s' t' /\ (forall os qs', all_entered ap os qs' -> all_entered ap (o :: os) (qs ++ qs')) /\ (forall es d' tt', fates hdr es d' tt' -> fates hdr (e :: es) (d ++ d') (tt ++ tt')) /\
    Permutation (vals t ++ qs) (d ++ tt ++ vals t') /\ (tame (vals t) -> ord ctx_cmp t -> ord ctx_cmp t').
Proof.
  intros HK Ho HR' HS. destruct HK as ((fl & HB) & HH & _).
  destruct HS as [c now ok c1 to code EW EM|b x E|b x why E|b x r Hr EM|b x r c n tr code Hr EM ES|now l EM].
  - destruct Ho as (Hc & Hl). destruct (with_edns_entered ap fuel c c1 now EW Hl) as (HE & Eh).
    destruct (mc_step_ok _ t fl (MQuery c1 now) HB HH) as (me & b' & t' & fl' & EM' & HB' & HH' & HS & HO); [unfold hash_ok in *; rewrite Eh; exact Hc|].
    assert (b' = u_tab s') as -> by congruence. exists t', [stamped c1 now], [], []. split; [split; [exists fl'; exact HB'|split; [exact HH'|exact HR']]|].
    split; [intros os qs' HA; cbn [app]; constructor; assumption|]. split; [intros; constructor; assumption|]. split; [|exact HO].
    inversion HS as [? ? ? HP| | |]; subst. cbn [app]. rewrite HP. apply Permutation_app_comm.
  - exists t, [], [], []. rewrite <- E in HB. split; [split; [exists fl; exact HB|split; [exact HH|exact HR']]|]. split; [intros; constructor; assumption|]. split; [intros; constructor; assumption|]. split; [rewrite app_nil_r; reflexivity|auto].
  - exists t, [], [], []. rewrite <- E in HB. split; [split; [exists fl; exact HB|split; [exact HH|exact HR']]|]. split; [intros; constructor; assumption|]. split; [intros; constructor; assumption|]. split; [rewrite app_nil_r; reflexivity|auto].
  - destruct (mc_step_ok _ t fl (MReply r) HB HH Hr) as (me & b' & t' & fl' & EM' & HB' & HH' & HS & HO). assert (b' = u_tab s' /\ me = EIgnored) as (-> & ->) by (split; congruence).
    exists t', [], [], []. split; [split; [exists fl'; exact HB'|split; [exact HH'|exact HR']]|]. split; [intros; constructor; assumption|]. split; [intros; constructor; assumption|]. split; [|exact HO].
    inversion HS as [| |? ? HP|]; subst. cbn [app]. rewrite app_nil_r, HP. reflexivity.
  - destruct (mc_step_ok _ t fl (MReply r) HB HH Hr) as (me & b' & t' & fl' & EM' & HB' & HH' & HS & HO). assert (b' = u_tab s' /\ me = EDelivered c) as (-> & ->) by (split; congruence).
    inversion HS as [|? q ? HP HM| |]; subst. destruct (send_back_to_client _ _ _ _ _ _ ES) as (msg & -> & H0 & Hmsg & _).
    exists t', [], [q], []. split; [split; [exists fl'; exact HB'|split; [exact HH'|exact HR']]|]. split; [intros; constructor; assumption|]. split; [|split; [rewrite app_nil_r; exact HP|exact HO]].
    intros es d' tt' HF. cbn [app]. apply (F_reply hdr q r); [exact HM| |exact HF]. intros v Hv. apply slice_some in Hmsg. destruct Hmsg as (_ & ->). cbn [skipn] in Hv. apply get16_firstn in Hv.
    destruct HM as (-> & _). unfold ctx_id. rewrite Hv. reflexivity.
  - destruct (mc_step_ok _ t fl (MSweep now) HB HH I) as (me & b' & t' & fl' & EM' & HB' & HH' & HS & HO). assert (b' = u_tab s' /\ me = ETimeout l) as (-> & ->) by (split; congruence).
    exists t', [], [], (map fst l). split; [split; [exists fl'; exact HB'|split; [exact HH'|exact HR']]|]. split; [intros; constructor; assumption|]. split; [intros; cbn [app]; constructor; assumption|].
    split; [|exact HO]. inversion HS as [| | |? ? ? HP]; subst. rewrite app_nil_r. exact HP.
Qed.
Lemma step_known s o e s' t : known s t -> uop_ok o -> step s o = Ret (e, s') ->
  exists t' qs d tt, known s' t' /\ (forall os qs', all_entered ap os qs' -> all_entered ap (o :: os) (qs ++ qs')) /\ (forall es d' tt', fates hdr es d' tt' -> fates hdr (e :: es) (d ++ d') (tt ++ tt')) /\
    Permutation (vals t ++ qs) (d ++ tt ++ vals t') /\ (tame (vals t) -> ord ctx_cmp t -> ord ctx_cmp t').
Proof.
  intros HK Ho H. destruct (known_hash s t HK) as (HT & HR). destruct (step_steps s o e s' HT HR H) as (HR' & mos & HS). eapply table_known; eauto.
Qed.
Lemma run_known os : forall s t es s', known s t -> Forall uop_ok os -> run s os = Ret (es, s') ->
  exists t' qs d tt, known s' t' /\ all_entered ap os qs /\ fates hdr es d tt /\ Permutation (vals t ++ qs) (d ++ tt ++ vals t').
Proof.
  induction os as [|o os IH]; intros s t es s' HK HO H; cbn [u_run] in H.
  - assert (es = [] /\ s' = s) as (-> & ->) by (split; congruence). exists t, [], [], []. split; [exact HK|]. split; [constructor|]. split; [constructor|]. rewrite app_nil_r. reflexivity.
  - inversion HO as [|? ? Ho HO']; subst. destruct (step s o) as [[e s1]| | |] eqn:E1; try discriminate. cbn [bind fst snd] in H. destruct (run s1 os) as [[es1 s2]| | |] eqn:E2; try discriminate. cbn [bind fst snd] in H.
    assert (es = e :: es1 /\ s' = s2) as (-> & ->) by (split; congruence). destruct (step_known s o e s1 t HK Ho E1) as (t1 & qs1 & d1 & tt1 & HK1 & HA & HF & HP & _).
    destruct (IH s1 t1 es1 s2 HK1 HO' E2) as (t' & qs & d & tt & HK' & HA' & HF' & HP'). exists t', (qs1 ++ qs), (d1 ++ d), (tt1 ++ tt).
    split; [exact HK'|]. split; [apply HA, HA'|]. split; [apply HF, HF'|].
    rewrite app_assoc, HP, <- !app_assoc. apply Permutation_app_head. rewrite HP'. apply Permutation_app_swap_app.
Qed.
Lemma run_ord os : forall s t es s', known s t -> Forall uop_ok os -> run s os = Ret (es, s') -> ord ctx_cmp t ->
  (forall os1 os2 es1 s1 p1, os = os1 ++ os2 -> run s os1 = Ret (es1, s1) -> table (u_tab s1) p1 -> tame p1) ->
  exists t', known s' t' /\ ord ctx_cmp t'.
Proof.
  induction os as [|o os IH]; intros s t es s' HK HO H Hord HT; cbn [u_run] in H.
  - assert (s' = s) as -> by congruence. eauto.
  - inversion HO as [|? ? Ho HO']; subst. destruct (step s o) as [[e s1]| | |] eqn:E1; try discriminate. cbn [bind fst snd] in H. destruct (run s1 os) as [[es1 s2]| | |] eqn:E2; try discriminate. cbn [bind fst snd] in H.
    assert (s' = s2) as -> by congruence. destruct (step_known s o e s1 t HK Ho E1) as (t1 & qs1 & d1 & tt1 & HK1 & _ & _ & _ & HO1).
    assert (HT0 : tame (vals t)). { apply (HT [] (o :: os) [] s (vals t) eq_refl eq_refl). destruct HK as ((fl & HB) & _). apply (table_vals _ t fl HB). reflexivity. }
    apply (IH s1 t1 es1 s2 HK1 HO' E2 (HO1 HT0 Hord)). intros os1 os2 es3 s3 p3 -> ER Hp. apply (HT (o :: os1) os2 (e :: es3) s3 p3 eq_refl); [|exact Hp].
    cbn [u_run]. rewrite E1. cbn [bind fst snd]. rewrite ER. reflexivity.
Qed.
End Steps.
