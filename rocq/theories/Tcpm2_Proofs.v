(** Proofs about the TCP upstream module: what a turn of its loop does. *)
From Verif Require Import Base BaseFacts ListFacts List2Facts Hash_Model Bst_Model Bst_Spec Bst_Proofs Cht_Model Cache_Model Parser_Model Mctx_Model Mctx_Spec Mctx_Proofs Iheader_Model Ip_Model Arr_Model
  Sock_Model Sock_Spec Sock_Proofs Sock_Props Tcp_Model Tcp_Props Udpm_Model Iheader_Spec Udpm_Spec Udpm_Proofs Udpm2_Proofs Iheader_Proofs Tcpm_Model Tcpm_Spec Tcpm_Proofs.
Require Import Permutation ZifyBool ZifyNat.
Set Default Proof Using "Type".

(** * The nodes of the table *)
(** The message of a query is there. *)
Definition good_q (c : mctx) : Prop := 4 <= h_len (c_h c) <= Z.of_nat (length (c_entity c)).
Definition gkeeps (b b' : bst mctx) : Prop := forall x n, b_heap b x = Some n -> good_q (n_data n) -> exists n', b_heap b' x = Some n' /\ good_q (n_data n').
Lemma gkeeps_refl b : gkeeps b b.
Proof. intros x n H1 H2. eauto. Qed.
Lemma gkeeps_trans b b1 b2 : gkeeps b b1 -> gkeeps b1 b2 -> gkeeps b b2.
Proof. intros H1 H2 x n E G. destruct (H1 x n E G) as (n' & E' & G'). eauto. Qed.
Lemma keeps_g b b' : keeps b b' -> gkeeps b b'.
Proof. intros H x n E G. destruct (H x n E) as (n' & E' & Ed). exists n'. rewrite Ed. auto. Qed.
Lemma gkeeps_store b a m : good_q (n_data m) -> gkeeps b (store b a m).
Proof. intros H x n E G. cbn [store b_heap]. destruct (Nat.eqb x a); eauto. Qed.
Lemma gkeeps_insert b par c d a b' : insert_node b par c d = Ret (a, b') -> good_q d -> gkeeps b b' /\ exists n, b_heap b' a = Some n /\ n_data n = d.
Proof.
  unfold insert_node. intros H G. apply bind_ret in H. destruct H as ((a1 & b1) & H1 & H). apply bind_ret in H. destruct H as (b2 & H2 & E).
  assert (a = a1) as -> by congruence. assert (b' = store b2 a1 (mk_node par None None d)) as -> by congruence. clear E. split.
  - apply (gkeeps_trans b b1); [|apply (gkeeps_trans b1 b2); [|apply gkeeps_store; exact G]].
    + unfold get_unused in H1. destruct (b_free b) as [fr|]; [apply bind_ret in H1; destruct H1 as (m & _ & E); injection E as <- <-|injection H1 as <- <-]; intros x n Hx Hg; exists n; auto.
    + destruct par as [p|]; [|injection H2 as <-; intros x n Hx Hg; exists n; auto]. destruct (c <=? 0); apply bind_ret in H2; destruct H2 as (m & Hm & E); injection E as <-; apply keeps_g, (keeps_store _ _ m); auto; apply deref_some; exact Hm.
  - cbn [store b_heap]. rewrite Nat.eqb_refl. eauto.
Qed.
Lemma gkeeps_add b c now a b' : mc_add b c now = Ret (a, b') -> good_q c -> gkeeps b b' /\ exists n, b_heap b' a = Some n /\ n_data n = stamped c now.
Proof.
  unfold mc_add, bst_add. intros H G. change (set_time c now) with (stamped c now) in *. assert (G' : good_q (stamped c now)) by exact G. revert H. destruct (b_root b) as [r|]; [|intros H; eapply gkeeps_insert; eauto]. generalize (S (b_next b)). intros fuel. revert r.
  induction fuel as [|fuel IH]; intros r H; cbn [add_loop] in H; [discriminate|]. apply bind_ret in H. destruct H as (n & _ & H). cbv zeta in H.
  destruct (ctx_cmp (stamped c now) (n_data n) <=? 0); [destruct (n_left n)|destruct (n_right n)]; eauto using gkeeps_insert.
Qed.
Lemma gkeeps_answer b r code c b' : mc_answer b r = Ret (code, c, b') -> gkeeps b b'.
Proof.
  unfold mc_answer. intros H. apply bind_ret in H. destruct H as ([a|] & _ & H); [|assert (b' = b) as -> by congruence; apply gkeeps_refl].
  apply bind_ret in H. destruct H as (n & Hn & H). cbv zeta in H. apply bind_ret in H. destruct H as (b2 & H2 & H). assert (b' = b2) as -> by congruence. clear H. apply deref_some in Hn.
  eapply gkeeps_trans; [|apply keeps_g; eapply keeps_delete; exact H2]. intros x m Hx G. cbn [store b_heap]. destruct (Nat.eqb_spec x a) as [->|]; [|eauto]. rewrite Hn in Hx. injection Hx as <-. eexists. split; [reflexivity|]. exact G.
Qed.
Lemma gkeeps_sweep b now l b' : mc_sweep b now = Ret (l, b') -> gkeeps b b'.
Proof.
  unfold mc_sweep. intros H. apply bind_ret in H. destruct H as (as_ & _ & H). revert b l b' H. generalize 0. induction as_ as [|a as_ IH]; intros i b l b' H; cbn [sweep_loop] in H; [injection H as _ <-; apply gkeeps_refl|].
  apply bind_ret in H. destruct H as (n & _ & H). apply bind_ret in H. destruct H as (b1 & H1 & H). apply bind_ret in H. destruct H as ((l1 & b2) & H2 & H). assert (b' = b2) as -> by (cbn [snd] in H; congruence).
  eapply gkeeps_trans; [apply keeps_g; eapply keeps_delete; exact H1|]. eapply IH; exact H2.
Qed.

(** * The receive buffer *)
Lemma misc_loop_length c : forall fuel m dlen i w m', misc_loop fuel c m dlen i = Ret (w, m') -> length m' = length m.
Proof.
  induction fuel as [|fuel IH]; intros m dlen i w m' H; [discriminate|]. cbn [misc_loop] in H.
  destruct (iter_next m dlen i) as [[[pos|] i']| | |]; try discriminate; cbn [bind] in H; [|injection H as <- <-; auto].
  destruct (negb (purpose_eqb (it_purpose i') P_answer)); [injection H as <- <-; auto|]. destruct (negb (it_klass i' =? 1)); [eapply IH; eauto|].
  destruct (addr_len (it_type i')) as [n|]; [|eapply IH; eauto]. destruct (rec_dpos m pos) as [dp| | |]; try discriminate. cbn [bind] in H.
  destruct (slice m dp n) as [b|]; [|discriminate]. destruct (ipchunk_find c b) as [[[ty data]|]| | |]; try discriminate; cbn [bind] in H; [|eapply IH; eauto].
  destruct (ty =? ty_block); [injection H as <- <-; auto|]. destruct (ty =? ty_subst); [|eapply IH; eauto]. destruct data as [d|]; [|discriminate].
  destruct (slice d 0 n) as [d'|]; [|discriminate]. destruct (write m dp d') as [m1|] eqn:EW; [|discriminate]. apply IH in H. rewrite H. exact (write_length _ _ _ _ EW).
Qed.
Lemma misc_apply_length misc fuel h m it w m' : misc_apply misc fuel h m it = Ret (w, m') -> length m' = length m.
Proof.
  unfold misc_apply. destruct misc as [[c neg]|]; [|intros H; injection H as <- <-; auto]. intros H. destruct it as [[[p0 t0] k0] d0].
  destruct (h_len h <? 0); [injection H as <- <-; auto|]. unfold misc_process in H. destruct (parser_init _ false) as [[x dlen]|]; [|injection H as <- <-; auto].
  destruct (if neg then _ else _) as [b| | |]; try discriminate. cbn [bind] in H. destruct b; [injection H as <- <-; auto|].
  destruct (iter_init m p0 t0 k0 d0) as [i| | |]; try discriminate. cbn [bind] in H. destruct (goto_answers fuel m dlen i) as [i'| | |]; try discriminate. cbn [bind] in H.
  eapply misc_loop_length; eauto.
Qed.

(** * What happens to the queries *)
Notation vals t := (map snd (elems t)).
(** By the events [es] the queries [qs] come to those in the table [t], and some get their replies or time out, so that [t'] is left. *)
Definition settles (hdr : iheader -> list Z) (t : tree) (qs : list mctx) (es : list (@uev unit)) (t' : tree) : Prop :=
  exists d tt, (forall es' d' tt', fates hdr es' d' tt' -> fates hdr (es ++ es') (d ++ d') (tt ++ tt')) /\ Permutation (vals t ++ qs) (d ++ tt ++ vals t') /\
    (tame (vals t ++ qs) -> ord ctx_cmp t -> ord ctx_cmp t').
Lemma tame_incl l l' : tame l -> incl l' l -> tame l'.
Proof. intros (lo & H) HI. exists lo. intros q Hq. apply H, HI, Hq. Qed.
Lemma settles_nil hdr t : settles hdr t [] [] t.
Proof. exists [], []. split; [auto|]. split; [rewrite app_nil_r; reflexivity|auto]. Qed.
Lemma settles_trans hdr t1 qs1 es1 t2 qs2 es2 t3 : settles hdr t1 qs1 es1 t2 -> settles hdr t2 qs2 es2 t3 -> settles hdr t1 (qs1 ++ qs2) (es1 ++ es2) t3.
Proof.
  intros (d1 & tt1 & F1 & P1 & O1) (d2 & tt2 & F2 & P2 & O2). exists (d1 ++ d2), (tt1 ++ tt2). split; [|split].
  - intros es' d' tt' F. rewrite <- !app_assoc. apply F1, F2, F.
  - rewrite app_assoc, P1, <- !app_assoc. apply Permutation_app_head. rewrite P2. apply Permutation_app_swap_app.
  - intros HT HO. apply O2; [|apply O1; [|exact HO]]; (eapply tame_incl; [exact HT|]); intros x Hx; rewrite app_assoc; apply in_or_app; [|left; exact Hx].
    apply in_app_or in Hx. destruct Hx as [Hx|Hx]; [left|right; exact Hx]. apply (Permutation_in x (Permutation_sym P1)). apply in_or_app. right. apply in_or_app. right. exact Hx.
Qed.
Lemma settles_end hdr t qs es t' : settles hdr t qs es t' -> exists d tt, fates hdr es d tt /\ Permutation (vals t ++ qs) (d ++ tt ++ vals t').
Proof. intros (d & tt & F & P & _). exists d, tt. split; [|exact P]. specialize (F [] [] [] (F_nil hdr)). rewrite !app_nil_r in F. exact F. Qed.
Lemma settles_step ap hdr fuel (s s' : @udpm unit) o e mos t : known s t -> uop_ok o -> rb_hash s' -> table_step ap hdr fuel s s' o e mos -> (forall c now ok, o <> UQuery c now ok) ->
  exists t', known s' t' /\ settles hdr t [] [e] t'.
Proof.
  intros HK Ho HR HS HN. destruct (table_known ap hdr fuel s o e s' t mos HK Ho HR HS) as (t' & qs & d & tt & HK' & HA & HF & HP & HO). exists t'. split; [exact HK'|].
  specialize (HA [] [] (AE_nil ap)). rewrite app_nil_r in HA. assert (qs = []) as ->. { inversion HA as [|? ? ? ? ? ? ? ? HA1|? ? ? ? HA1|? ? ? HA1]; subst; [exfalso; eapply HN; reflexivity|inversion HA1; reflexivity|inversion HA1; reflexivity]. }
  exists d, tt. split; [exact HF|]. split; [exact HP|rewrite app_nil_r; exact HO].
Qed.
Lemma sweep_known hdr (u : @udpm unit) t now : known u t -> exists l b t', t_sweep u now = Ret (VTimeouts l, with_tab u b) /\ known (with_tab u b) t' /\ settles hdr t [] [VTimeouts l] t' /\ gkeeps (u_tab u) b.
Proof.
  intros HK. assert (HK0 := HK). destruct HK0 as ((fl & HB) & HH & HR). destruct (mc_sweep_ok (u_tab u) t fl now HB) as (l & b & _ & _ & E & _). exists l, b. unfold t_sweep. rewrite E. cbn [bind fst snd].
  destruct (settles_step true hdr 0 u (with_tab u b) (USweep now) (VTimeouts l) [MSweep now] t HK I HR) as (t' & HK' & HS); [constructor; cbn [mc_step]; rewrite E; reflexivity|discriminate|].
  exists t'. split; [reflexivity|]. split; [exact HK'|]. split; [exact HS|]. eapply gkeeps_sweep; eauto.
Qed.
Lemma query_known hdr (u : @udpm unit) t c now : known u t -> hash_ok c -> 4 <= h_len (c_h c) ->
  exists a b t', mc_add (u_tab u) c now = Ret (a, b) /\ (forall arr, known (with_query arr u b c) t') /\ settles hdr t [stamped c now] [VQueued [] 0] t'.
Proof.
  intros HK Hc Hl. assert (HK0 := HK). destruct HK0 as ((fl & HB) & HH & HR). destruct (mc_query_ok (u_tab u) t fl c now HB) as (a & b & fl' & E & _). exists a, b. rewrite E.
  destruct (table_known false hdr 0 u (UQuery c now (fun _ => true)) (VQueued [] 0) (with_query (fun x => x) u b c) t [MQuery c now] HK (conj Hc Hl)) as (t' & qs & d & tt & HK' & HA & HF & HP & HO).
  { exact Hc. }
  { apply (ts_query false hdr 0 u _ c now _ c); [reflexivity|]. cbn [mc_step]. rewrite E. reflexivity. }
  exists t'. split; [reflexivity|]. split; [intros arr; exact HK'|]. exists d, tt. split; [exact HF|].
  specialize (HA [] [] (AE_nil false)). rewrite app_nil_r in HA. inversion HA as [|? ? ? ? q qs' (HE & _) HA1|? ? ? ? HA1|? ? ? HA1]; subst. inversion HA1; subst. rewrite HE in HP by auto. split; [exact HP|]. intros HT. apply HO. eapply tame_incl; [exact HT|]. intros x Hx. apply in_or_app. left. exact Hx.
Qed.

(** * Turns *)
Lemma select_data p f rs s a err : holds p f -> select_ends rs -> pl_select p rs 0 = Ret (Some (s, a), err) -> exists d, pl_data p a = Ret d.
Proof.
  intros (n & live & HP & _) (es & r & rest & -> & HE & HR) H. destruct r as [e0| |ready].
  - destruct (C68_no_socket _ p es (SelErr e0) rest HE (or_intror (ex_intro _ e0 (conj eq_refl (HR e0 eq_refl))))) as (err' & E & _). congruence.
  - destruct (C68_no_socket _ p es SelTimeout rest HE (or_introl eq_refl)) as (err' & E & _). congruence.
  - destruct (C68_select _ _ _ _ HP es ready HE) as (o & err' & E & _ & HO). rewrite select_rest in H by exact HE. assert (o = Some (s, a)) as -> by congruence. destruct HO as (_ & d & _ & H2 & _). eauto.
Qed.
Lemma reply_retry fuel c buf buf' : net_ok c -> tcp_reply fuel c buf = Ret (Discard true buf') -> stream c = [].
Proof.
  intros HC H. unfold tcp_reply in H. destruct (recv_ok c 2 HC) as (st & d & c1 & E & _ & _ & _ & HD). rewrite E in H. destruct (Z.eqb_spec st 2) as [->|N]; cbn [negb] in H.
  - cbv zeta in H. destruct (Z.of_nat (length buf) <? from16 d); [discriminate|]. destruct (reply_loop fuel c1 buf 0 (from16 d)) as [[[[[b1 x] l1] s1] c2]| | |]; try discriminate. cbn [bind] in H. destruct (negb (l1 =? 0)); discriminate.
  - assert (HB : (st <? 1) = true) by congruence. destruct HD as [(_ & _ & HD)|(-> & _ & HD)]; [exact HD|]. destruct HD as [HD|HD]; [destruct d; [reflexivity|cbn [length] in HB; lia]|lia|exact HD].
Qed.
Lemma framed_id n content : (4 <= length content)%nat -> get16 (be16 n ++ content) 2 = get16 content 0.
Proof. intros H. destruct content as [|a [|b l]]; cbn [length] in H; try lia. reflexivity. Qed.
Lemma slice_prefix (e bytes : list Z) : firstn (length bytes) e = bytes -> slice e 0 (length bytes) = Some bytes.
Proof. intros H. apply slice_some. cbn [skipn Nat.add]. split; [|symmetry; exact H]. rewrite <- H at 1. rewrite firstn_length. lia. Qed.
Lemma good_slice c : good_q c -> exists content, slice (c_entity c) 0 (Z.to_nat (h_len (c_h c))) = Some content /\ (4 <= length content)%nat /\ get16 content 0 = Some (ctx_id c).
Proof.
  intros (H1 & H2). exists (firstn (Z.to_nat (h_len (c_h c))) (c_entity c)). assert (HL : (4 <= length (c_entity c))%nat) by lia. split; [apply slice_some; cbn [skipn Nat.add]; split; [lia|reflexivity]|]. split; [rewrite firstn_length; lia|].
  unfold ctx_id. destruct (c_entity c) as [|a [|b l]]; cbn [length] in HL; try lia. destruct (Z.to_nat (h_len (c_h c))) as [|[|n]] eqn:E; try lia. reflexivity.
Qed.
Lemma queued_app {A} (a b : list (@uev A)) : queued (a ++ b) = (queued a + queued b)%nat.
Proof. induction a as [|e a IH]; [reflexivity|]. destruct e; cbn [app queued]; lia. Qed.

(** * What is received *)
Lemma write_bytes m i l m' : write m i l = Some m' -> Forall is_byte m -> Forall is_byte l -> Forall is_byte m'.
Proof.
  unfold write. destruct (i + length l <=? length m)%nat; [|discriminate]. intros H Hm Hl. injection H as <-. rewrite <- (firstn_skipn i m) in Hm. assert (Hm2 := Hm). apply Forall_app in Hm. apply Forall_app. split; [apply Hm|]. apply Forall_app. split; [exact Hl|].
  rewrite (firstn_skipn i m) in Hm2. rewrite <- (firstn_skipn (i + length l) m) in Hm2. apply Forall_app in Hm2. apply Hm2.
Qed.
Lemma reply_loop_bytes fuel : forall c buf pos len r, net_ok c -> Forall is_byte buf -> reply_loop fuel c buf pos len = Ret r -> Forall is_byte (fst (fst (fst (fst r)))).
Proof.
  induction fuel as [|fuel IH]; intros c buf pos len r HC HB H; cbn [reply_loop] in H; [discriminate|]. destruct (recv_ok c (Z.to_nat len) HC) as (st & d & c' & E & HC' & _ & HD & _). rewrite E in H.
  destruct (write buf (Z.to_nat pos) d) as [buf'|] eqn:EW; [|discriminate]. pose proof (write_bytes _ _ _ _ EW HB HD) as HB'. cbv zeta in H.
  destruct ((0 <? st) && (0 <? u16 (len - st))); [eapply IH; eauto|injection H as <-; exact HB'].
Qed.
Lemma tcp_reply_bytes fuel c buf r : net_ok c -> Forall is_byte buf -> tcp_reply fuel c buf = Ret r -> Forall is_byte (match r with Reply b _ _ => b | Discard _ b => b end).
Proof.
  intros HC HB H. unfold tcp_reply in H. destruct (recv_ok c 2 HC) as (st & d & c1 & E & HC1 & _). rewrite E in H. destruct (negb (st =? 2)); [injection H as <-; exact HB|]. cbv zeta in H.
  destruct (Z.of_nat (length buf) <? from16 d); [injection H as <-; exact HB|]. destruct (reply_loop fuel c1 buf 0 (from16 d)) as [[[[[buf' x] len'] st'] c2]| | |] eqn:EL; try discriminate. cbn [bind] in H.
  apply reply_loop_bytes in EL; [|exact HC1|exact HB]. cbn [fst] in EL. destruct (negb (len' =? 0)); injection H as <-; exact EL.
Qed.

(** * Closing everything *)
Lemma nodup_app_intro {T} (a b : list T) : NoDup a -> NoDup b -> (forall x, In x a -> In x b -> False) -> NoDup (a ++ b).
Proof.
  intros H1 H2 H3. induction a as [|x a IH]; cbn [app]; [exact H2|]. inversion H1; subst. constructor; [|apply IH; [assumption|intros y A B; apply (H3 y); [right; exact A|exact B]]].
  intros A. apply in_app_or in A. destruct A as [A|A]; [contradiction|]. apply (H3 x); [left; reflexivity|exact A].
Qed.
Lemma close_holds p f : holds p f -> exists l, pl_close_all p (-1) = Ret l /\ NoDup l /\ forall s, In s l <-> f s <> None.
Proof.
  intros (n & live & HP & HF & _). destruct (C68_set_partial _ _ _ _ HP) as (_ & _ & _ & _ & HC). destruct (HC (-1)) as (l & E & ND & HI). exists l. split; [exact E|]. split; [exact ND|]. intros s. rewrite HI. split.
  - intros (A & _). apply in_map_iff in A. destruct A as ((x & d) & <- & A). cbn [fst]. apply HF in A. congruence.
  - intros A. destruct (f s) as [d|] eqn:Ef; [|congruence]. apply HF in Ef. split; [apply in_map_iff; exists (s, d); auto|]. pose proof (pool_range _ _ _ HP _ _ Ef). lia.
Qed.
Lemma close_list w : forall ps B, all_hold ps w B -> (forall i j, B i = B j -> i = j) ->
  exists l, fold_right (fun p acc => let! c := pl_close_all p (-1) in let! r := acc in Ret (c ++ r)) (Ret []) ps = Ret l /\ NoDup l /\ forall s, In s l <-> exists i d, (i < length ps)%nat /\ w s = Some (B i, d).
Proof.
  induction ps as [|p ps IH]; intros B HA HB; cbn [fold_right].
  - exists []. split; [reflexivity|]. split; [constructor|]. intros s. split; [intros []|]. intros (i & d & Hi & _). cbn [length] in Hi. lia.
  - destruct (close_holds p _ (HA 0%nat p eq_refl)) as (c & E1 & N1 & H1). destruct (IH (fun i => B (S i))) as (l & E2 & N2 & H2); [intros i q Hq; apply (HA (S i)); exact Hq|intros i j Eij; apply HB in Eij; congruence|].
    rewrite E1, E2. cbn [bind]. exists (c ++ l). split; [reflexivity|]. split.
    + apply nodup_app_intro; [exact N1|exact N2|]. intros s A1 A2. apply H1 in A1. apply H2 in A2. destruct A2 as (i & d & _ & A2). destruct (at_ w (B 0%nat) s) as [d'|] eqn:Ea; [|congruence]. apply at_some in Ea. assert (X : B 0%nat = B (S i)) by congruence. apply HB in X. discriminate.
    + intros s. rewrite in_app_iff, H1, H2. split.
      * intros [A|(i & d & Hi & A)]; [|exists (S i), d; cbn [length]; split; [lia|exact A]]. destruct (at_ w (B 0%nat) s) as [d|] eqn:Ea; [|congruence]. apply at_some in Ea. exists 0%nat, d. cbn [length]. split; [lia|exact Ea].
      * intros ([|i] & d & Hi & A); [left; apply at_some in A; congruence|right; exists i, d; cbn [length] in Hi; split; [lia|exact A]].
Qed.
Lemma close_log L : forall k, k_log (fold_left (fun k s => noted (TClose s) k) L k) = rev (map TClose L) ++ k_log k.
Proof. induction L as [|s L IH]; intros k; cbn [fold_left map rev app]; [reflexivity|]. rewrite IH. cbn [noted k_log]. rewrite <- app_assoc. reflexivity. Qed.

Section Turns.
Context (v : tenv) (targets : list (list Z * list Z)) (nproxies : option nat) (par : bool) (keep incoming : Z) (stale : tctx).
Context (hdr : iheader -> list Z) (arr : list Z -> list Z).
Notation nservers := (length targets).
Notation pinv := (pinv targets nproxies).
Notation linv := (linv targets nproxies incoming).
Notation t_incoming := (t_incoming v targets nproxies par keep incoming stale arr).

Definition waits (log : list tev) (tab : bst mctx) (w : whereabouts) : Prop := forall s d, w s = Some (PWait, d) -> s <> incoming ->
  (exists msg, last_sent log s = Some msg /\ get16 msg 2 = Some (tc_qid d)) /\ exists x n, tc_msg d = Some x /\ b_heap tab x = Some n /\ good_q (n_data n).
Definition tinv (room : nat) (m : tcpm) (w : whereabouts) (t : tree) : Prop :=
  t_alive m = true /\ pinv (t_q m) w /\ holds (t_wait m) (at_ w PWait) /\ linv w (k_log (t_k m)) /\ (forall s, at_ w PHand s = None) /\
  known (t_u m) t /\ length (u_mem (u_rb (t_u m))) = room /\ waits (k_log (t_k m)) (u_tab (t_u m)) w.

Lemma pinv_same q w w' : pinv q w -> same_but (fun pl => pl = PWait \/ pl = PHand) w w' -> pinv q w'.
Proof.
  intros (H1 & H2 & H3 & H4) HS. split; [eapply holds_ext'; [exact H1|]; apply HS; intros [X|X]; discriminate|]. split; [eapply all_hold_same; [exact H2|exact HS|]; intros i [X|X]; discriminate|]. split; [exact H3|].
  intros np Enp. destruct (H4 np Enp) as (Y1 & Y2 & Y3). split; [eapply holds_ext'; [exact Y1|]; apply HS; intros [X|X]; discriminate|]. split; [eapply all_hold_same; [exact Y2|exact HS|]; intros i [X|X]; discriminate|exact Y3].
Qed.
Lemma incoming_place w log : linv w log -> exists d, w incoming = Some (PWait, d) /\ 0 <= incoming < 1024 /\ state_of log incoming = Some Listening.
Proof.
  intros HL. assert (HS : state_of log incoming = Some Listening) by (apply HL; reflexivity). destruct (w incoming) as [[pl d]|] eqn:E.
  - destruct (linv_some _ _ _ _ _ _ _ _ HL E) as (Hs & st & Hst & HF). exists d. assert (st = Listening) as -> by congruence. destruct (place_dec pl PWait) as [->|N]; [auto|]. exfalso. eapply fits_conn; eauto.
  - exfalso. destruct HL as (_ & HL & _). specialize (HL incoming). rewrite E in HL. congruence.
Qed.

(** Incoming is taken out of the set and put in again. *)
Lemma readd p0 wp w log a d0 : holds wp (at_ w PWait) -> linv w log -> lives p0 wp -> pl_data p0 a = Ret d0 ->
  exists w4 d w5, pl_del tctx0 wp incoming = Ret w4 /\ pl_data w4 a = Ret d /\ pl_add w4 incoming d = Ret (0, w5) /\ holds w5 (at_ (fupd w incoming (Some (PWait, d))) PWait) /\
    linv (fupd w incoming (Some (PWait, d))) log /\ same_but (fun pl => pl = PWait \/ pl = PHand) w (fupd w incoming (Some (PWait, d))) /\ forall s, at_ (fupd w incoming (Some (PWait, d))) PHand s = at_ w PHand s.
Proof.
  intros (n & HW) HL Hlv Hd. destruct (incoming_place w log HL) as (d1 & Hi & Hr & Hst). destruct (holds_del wp _ n incoming d1 HW) as (w4 & m4 & E4 & H4 & _); [apply at_some; exact Hi|].
  destruct (Hlv a d0 Hd) as (d2 & Hd2). destruct (lives_del _ _ _ E4 a d2 Hd2) as (d & Hd4). destruct (holds_add w4 _ m4 incoming d H4 (fupd_at _ _ _) Hr) as (w5 & E5 & H5).
  exists w4, d, w5. split; [exact E4|]. split; [exact Hd4|]. split; [exact E5|]. split; [|split; [|split]].
  - exists (S m4). eapply holds_ext; [exact H5|]. intros x. rewrite at_upd_same. unfold fupd. destruct (x =? incoming); reflexivity.
  - eapply linv_move; eauto. left. reflexivity.
  - apply same_upd; intros pl e E; left; congruence.
  - intros s. apply at_upd_out; intros e E; congruence.
Qed.

Context (HE : env_ok v nservers nproxies).

Lemma waits_upd log tab w d : waits log tab w -> waits log tab (fupd w incoming (Some (PWait, d))).
Proof. intros H s e E N. rewrite fupd_ne in E by exact N. apply H; assumption. Qed.

Lemma incoming_ok room m w t i a err : (room <= 4096)%nat -> tinv room m w t -> tin_ok room i -> pl_select (t_wait m) (v_sel v (k_tick (t_k m))) 0 = Ret (Some (incoming, a), err) ->
  exists es m' w' t' qs ss msg, t_incoming m a i = Ret (es, m') /\ tinv room m' w' t' /\ settles hdr t qs es t' /\ queued es = length qs /\ adds (t_k m) (t_k m') ss msg /\
    (forall o, In o ss -> exists j, o = Some j /\ (j < nservers)%nat) /\
    match i_query i with
    | None => qs = [] /\ ss = []
    | Some (h, bytes) => (exists e, qs = [stamped (mk_ctx h e) (v_time v (S (S (k_tick (t_k m)))))] /\ firstn (length bytes) e = bytes) /\ msg = framed bytes /\ (length ss <= if par then nservers else 1)%nat /\
        (fair nproxies v (ticked (t_k m)) msg -> (0 < nservers)%nat -> no_conn v (t_k m) (t_k m') \/ if par then Permutation (map Some (seq 0 nservers)) ss else exists j, ss = [Some j])
    end.
Proof using HE.
  intros Hroom (I1 & I2 & I3 & I4 & I5 & I6 & I7 & I8) (HQ & HNet) HSel. destruct (select_data _ _ _ _ _ _ I3 (proj1 HE _) HSel) as (d0 & Hd0).
  unfold t_incoming, Tcpm_Model.t_incoming. cbv zeta. set (k := ticked (t_k m)).
  assert (HX : exists es1 b1 t1 cum1, (if 1024 <? t_cum m then let! r := t_sweep (t_u m) (v_time v (k_tick k)) in Ret ([fst r], snd r, 0) else Ret ([], t_u m, t_cum m)) = Ret (es1, with_tab (t_u m) b1, cum1) /\
    known (with_tab (t_u m) b1) t1 /\ settles hdr t [] es1 t1 /\ queued es1 = 0%nat /\ gkeeps (u_tab (t_u m)) b1).
  { destruct (1024 <? t_cum m).
    - destruct (sweep_known hdr (t_u m) t (v_time v (k_tick k)) I6) as (l & b & t1 & E & H1 & H2 & H3). rewrite E. cbn [bind fst snd]. exists [VTimeouts l], b, t1, 0. auto 8.
    - exists [], (u_tab (t_u m)), t, (t_cum m). split; [destruct (t_u m); reflexivity|]. split; [exact I6|]. split; [apply settles_nil|]. split; [reflexivity|apply gkeeps_refl]. }
  destruct HX as (es1 & b1 & t1 & cum1 & -> & K1 & S1 & Q1 & G1). cbn [bind]. set (u1 := with_tab (t_u m) b1) in *. set (k1 := ticked k).
  assert (A1 : forall ms, adds (t_k m) k1 [] ms) by (intros ms; eapply (adds_trans _ _ _ [] []); apply adds_tick).
  destruct (i_query i) as [[h bytes]|] eqn:Ei.
  - destruct (HQ h bytes eq_refl) as (Hh & Hlen & Hb & _). cbn [u1 with_tab u_rb]. set (e := firstn (length (u_mem (u_rb (t_u m)))) bytes ++ skipn (length bytes) (u_mem (u_rb (t_u m)))).
    assert (He : e = bytes ++ skipn (length bytes) (u_mem (u_rb (t_u m)))) by (unfold e; rewrite firstn_all2 by lia; reflexivity).
    assert (Hf : firstn (length bytes) e = bytes) by (rewrite He, firstn_app, Nat.sub_diag, firstn_all, firstn_O; apply app_nil_r).
    assert (HLe : length e = room) by (rewrite He, app_length, skipn_length; lia).
    set (c := mk_ctx h e). assert (Gc : good_q c) by (split; cbn [c c_h c_entity]; lia).
    destruct (query_known hdr u1 t1 c (v_time v (k_tick k1)) K1) as (x & b2 & t2 & EA & K2 & S2); [exact Hh|cbn [c c_h]; lia|]. cbn [u1 with_tab u_tab] in EA |- *. rewrite EA. cbn [bind fst snd].
    destruct (gkeeps_add _ _ _ _ _ EA Gc) as (G2 & n & Hn & Dn). unfold deref. rewrite Hn. cbn [bind]. rewrite Dn.
    destruct (send_actual_ok targets nproxies incoming v HE keep stale par 1025 x (stamped c (v_time v (k_tick k1))) None (ticked k1) (t_q m) (t_wait m) w bytes) as (k3 & q3 & wp3 & w3 & ss & ES & X1 & X2 & X3 & X4 & X5 & X6 & X7 & X8 & X9 & X10 & X11);
      [lia|discriminate|exact I2|exact I3|exact I4|cbn [stamped c c_h h_len]; lia|cbn [stamped c c_h h_len c_entity]; rewrite Hlen, Nat2Z.id; apply slice_prefix; exact Hf|].
    assert (Emsg : be16 (h_len (c_h (stamped c (v_time v (k_tick k1)))) mod 65536) ++ bytes = framed bytes) by (unfold framed; cbn [stamped c c_h h_len]; rewrite Hlen, Z.mod_small by lia; reflexivity).
    rewrite Emsg in *. rewrite ES. cbn [bind]. destruct (readd (t_wait m) wp3 w3 (k_log k3) a d0 X2 X3 X10 Hd0) as (w4 & d & w5 & E4 & Ed & E5 & Y1 & Y2 & Y3 & Y4). rewrite E4. cbn [bind]. rewrite Ed. cbn [bind]. rewrite E5. cbn [bind snd].
    assert (A3 : adds (t_k m) k3 ss (framed bytes)). { rewrite <- (app_nil_r ss). eapply adds_trans; [|exact X5]. eapply (adds_trans _ _ _ [] []); [apply A1|apply adds_tick]. }
    eexists _, _, (fupd w3 incoming (Some (PWait, d))), t2, [stamped c (v_time v (k_tick k1))], ss, (framed bytes). split; [reflexivity|]. split; [|split; [|split; [|split; [|split]]]].
    + split; [reflexivity|]. cbn [t_q t_wait t_k t_u]. split; [eapply pinv_same; eauto|]. split; [exact Y1|]. split; [exact Y2|]. split; [intros s; rewrite Y4, X4; apply I5|]. split; [apply K2|]. split; [exact HLe|].
      apply waits_upd. intros s d' Hs Ns. destruct (X9 s d' Hs) as [(Hw & HLs)|(F1 & F2 & F3 & _ & F5)].
      * destruct (I8 s d' Hw Ns) as (W1 & x' & n' & W2 & W3 & W4). rewrite HLs. split; [exact W1|]. destruct (G1 x' n' W3 W4) as (n2 & W5 & W6). destruct (G2 x' n2 W5 W6) as (n3 & W7 & W8). exists x', n3. auto.
      * split; [|exists x, n; rewrite Dn; auto]. exists (framed bytes). split; [exact F5|]. unfold framed. rewrite framed_id by lia. rewrite F1. unfold ctx_id. cbn [stamped c c_entity]. rewrite He.
        destruct bytes as [|z0 [|z1 bs]]; cbn [length] in Hb; try lia. reflexivity.
    + eapply settles_trans with (qs1 := []); [exact S1|exact S2].
    + rewrite queued_app, Q1. reflexivity.
    + exact A3.
    + exact X7.
    + split; [exists e; auto|]. split; [reflexivity|]. split; [exact X6|]. intros HFair HN0. assert (HFl : fair nproxies v (ticked k1) (framed bytes)) by (eapply fair_later; [exact HFair|unfold k1, k; cbn [ticked k_tick]; clear; lia]). destruct (X11 HFl eq_refl HN0) as [Z|Z]; [left; cbn [t_k]|right; exact Z].
      eapply no_conn_r; [|exact Z]. eapply (adds_trans _ _ _ [] [] []); [apply A1|apply adds_tick].
  - cbn [bind]. destruct (readd (t_wait m) (t_wait m) w (k_log (t_k m)) a d0 I3 I4 (lives_refl _) Hd0) as (w4 & d & w5 & E4 & Ed & E5 & Y1 & Y2 & Y3 & Y4). rewrite E4. cbn [bind]. rewrite Ed. cbn [bind]. rewrite E5. cbn [bind snd].
    eexists _, _, (fupd w incoming (Some (PWait, d))), t1, [], [], []. split; [reflexivity|]. split; [|split; [|split; [|split; [|split]]]].
    + split; [reflexivity|]. cbn [t_q t_wait t_k t_u k1 k ticked k_log]. split; [eapply pinv_same; eauto|]. split; [exact Y1|]. split; [exact Y2|]. split; [intros s; rewrite Y4; apply I5|]. split; [exact K1|]. split; [exact I7|].
      apply waits_upd. intros s d' Hs Ns. destruct (I8 s d' Hs Ns) as (W1 & x' & n' & W2 & W3 & W4). split; [exact W1|]. destruct (G1 x' n' W3 W4) as (n2 & W5 & W6). exists x', n2. auto.
    + rewrite app_nil_r. exact S1.
    + rewrite app_nil_r. exact Q1.
    + apply A1.
    + intros o [].
    + split; reflexivity.
Qed.
Context (ap : bool) (misc : option (ipchunk * bool)) (raw : list Z -> list cnode -> nat -> Z) (ignore parallel : bool) (get : list Z -> option ctrl) (fuel nf : nat).
Notation handle := (u_handle ap misc raw ignore parallel get hdr arr fuel nf).

Lemma handle_rest (s : @udpm unit) mem n x e s' : handle s mem n x = Ret (e, s') -> gkeeps (u_tab s) (u_tab s') /\ length (u_mem (u_rb s')) = length mem /\ queued [e] = 0%nat.
Proof.
  intros H. unfold u_handle in H. cbv zeta in H. destruct (ih_fill fuel nf _ _ _ _ _ _ _ _) as [[[c0 h] dom]| | |]; try discriminate. cbn [bind] in H.
  destruct (misc_apply misc fuel h mem _) as [[why mem1]| | |] eqn:EM; try discriminate. cbn [bind] in H. apply misc_apply_length in EM.
  assert (HG : forall e1 u1, Ret (VDiscarded e1, u1) = Ret (e, s') -> u_tab u1 = u_tab s -> u_mem (u_rb u1) = mem1 -> gkeeps (u_tab s) (u_tab s') /\ length (u_mem (u_rb s')) = length mem /\ queued [e] = 0%nat).
  { intros e1 u1 E E1 E2. assert (e = VDiscarded e1 /\ s' = u1) as (-> & ->) by (split; congruence). rewrite E1, E2. split; [apply gkeeps_refl|]. split; [exact EM|reflexivity]. }
  destruct (negb (why =? misc_nothing)); [eapply HG; [exact H|reflexivity|reflexivity]|]. destruct (is_blocked ap (mk_ctx h mem1)); [eapply HG; [exact H|reflexivity|reflexivity]|].
  destruct (mc_answer (u_tab s) (mk_ctx h mem1)) as [[[code c] tab]| | |] eqn:EA; try discriminate. cbn [bind] in H. apply gkeeps_answer in EA.
  destruct (cache_apply raw ignore parallel get fuel nf s (code =? 0) c x) as [k| | |]; try discriminate. cbn [bind] in H. destruct (code =? 0).
  - destruct (send_back hdr c (x_ret x)) as [[y cd]| | |]; try discriminate. cbn [bind fst snd] in H. match type of H with Ret (?a, ?b) = _ => assert (e = a /\ s' = b) as (-> & ->) by (split; congruence) end. auto.
  - match type of H with Ret (?a, ?b) = _ => assert (e = a /\ s' = b) as (-> & ->) by (split; congruence) end. auto.
Qed.

(** A connection that has something is taken out of the set. *)
Lemma taken room m w t s a err : tinv room m w t -> pl_select (t_wait m) (v_sel v (k_tick (t_k m))) 0 = Ret (Some (s, a), err) -> s <> incoming ->
  exists d wp1 via, pl_del tctx0 (t_wait m) s = Ret wp1 /\ pl_data wp1 a = Ret d /\ w s = Some (PWait, d) /\ 0 <= s < 1024 /\ state_of (k_log (t_k m)) s = Some (Conn via (Some (tc_srv d)) true) /\
    good_conn targets nproxies d true (Conn via (Some (tc_srv d)) true) /\ 1 <= tc_queried d /\
    holds wp1 (at_ (fupd w s (Some (PHand, d))) PWait) /\ linv (fupd w s (Some (PHand, d))) (k_log (t_k m)).
Proof using HE.
  intros (I1 & I2 & I3 & I4 & I5 & I6 & I7 & I8) HSel Ns. destruct (holds_select _ _ _ I3 (proj1 HE (k_tick (t_k m)))) as (o & err' & E & HO). rewrite HSel in E. assert (o = Some (s, a)) as -> by congruence. destruct HO as (d & Hd & HD & _).
  destruct I3 as (n & HW). destruct (holds_del _ _ n s d HW Hd) as (wp1 & m1 & E1 & H1 & _). apply at_some in Hd. destruct (linv_some _ _ _ _ _ _ _ _ I4 Hd) as (Hs & st & Hst & HF).
  assert (HNL : st <> Listening). { intros ->. apply Ns. apply I4. exact Hst. }
  destruct HF as [HF|(HF & HQ)]; [contradiction|]. assert (HF0 := HF). destruct HF0 as (via & o & -> & Hlt & HV & Hq).
  assert (o = Some (tc_srv d)) as ->. { revert HV. case nproxies; [intros np (_ & [(X & _)|(_ & X)]); [lia|exact X]|intros (_ & X); exact X]. }
  exists d, wp1, via. split; [exact E1|]. split; [apply HD; exact E1|]. split; [exact Hd|]. split; [exact Hs|]. split; [exact Hst|]. split; [exact HF|]. split; [exact HQ|]. split.
  - exists m1. eapply holds_ext; [exact H1|]. intros x. apply at_upd_other. intros e E2. discriminate.
  - eapply linv_move; eauto.
Qed.
Notation t_reply := (t_reply v targets nproxies par keep stale ap misc raw ignore parallel get hdr arr fuel nf).

Lemma reply_ok room m w t i s a err : (room <= 4096)%nat -> tinv room m w t -> net_ok (i_net i) -> pl_select (t_wait m) (v_sel v (k_tick (t_k m))) 0 = Ret (Some (s, a), err) -> s <> incoming ->
  (exists m' w' t', t_reply m s a i = Ret ([VNothing], m') /\ tinv room m' w' t' /\ settles hdr t [] [VNothing] t' /\ turn_log nservers par i (k_log (t_k m)) (k_log (t_k m'))) \/
  (exists buf n c' f, tcp_reply (S room) (i_net i) (u_mem (u_rb (t_u m))) = Ret (Reply buf n c') /\
    t_reply m s a i = (let! r := handle (with_mem (t_u m) buf) buf (Z.to_nat n) (i_rx i) in Ret ([fst r], f (snd r))) /\
    forall e u2, handle (with_mem (t_u m) buf) buf (Z.to_nat n) (i_rx i) = Ret (e, u2) -> t_u (f u2) = u2 /\
      exists w' t', tinv room (f u2) w' t' /\ settles hdr t [] [e] t' /\ queued [e] = 0%nat /\ k_log (t_k (f u2)) = TGot s :: k_log (t_k m)).
Proof using HE.
  intros Hroom HT HNet HSel Ns. destruct (taken room m w t s a err HT HSel Ns) as (d & wp1 & via & E1 & E2 & Hw & Hs & Hst & HG & HQ & HW1 & HL1).
  destruct HT as (I1 & I2 & I3 & I4 & I5 & I6 & I7 & I8). destruct (I8 s d Hw Ns) as ((old & HOld & HId) & x & n & Hx & Hn & Gn). set (w1 := fupd w s (Some (PHand, d))) in *.
  assert (HS1 : same_but (fun pl => pl = PWait \/ pl = PHand) w w1) by (apply same_upd; intros pl e E; [left|right]; congruence).
  assert (HP1 : pinv (t_q m) w1) by (eapply pinv_same; eauto).
  assert (HH1 : forall y, at_ w1 PHand y = fupd (at_ w PHand) s (Some d) y) by (intros y; apply at_upd_same).
  assert (HWt1 : forall y e, w1 y = Some (PWait, e) -> w y = Some (PWait, e)). { intros y e. unfold w1, fupd. destruct (y =? s); [discriminate|auto]. }
  assert (HNs : forall l, settles hdr l [] [VNothing] l). { intros l. exists [], []. split; [intros; constructor; assumption|]. split; [rewrite app_nil_r; reflexivity|auto]. }
  unfold Tcpm_Model.t_reply. cbv zeta. rewrite E1. cbn [bind]. rewrite E2. cbn [bind]. rewrite I7.
  destruct (C46_sound (S room) (i_net i) (u_mem (u_rb (t_u m))) HNet ltac:(lia) ltac:(lia)) as (r & ER & HR). rewrite ER. cbn [bind]. destruct r as [buf k c'|retry buf].
  2:{ left. rewrite Hx.
    (* closing *)
    assert (HClose : forall k2 q2 wp2 w2, pinv q2 w2 -> holds wp2 (at_ w2 PWait) -> linv w2 (k_log k2) -> (forall y, at_ w2 PHand y = at_ w1 PHand y) -> waits (k_log k2) (u_tab (t_u m)) w2 ->
      tinv room (mk_tcpm (with_mem (t_u m) buf) (noted (TClose s) k2) q2 wp2 (t_cum m) true) (fupd w2 s None) t).
    { intros k2 q2 wp2 w2 P2 W2 L2 H2 T2. assert (Hs2 : w2 s = Some (PHand, d)) by (apply at_some; rewrite H2, HH1; apply fupd_at).
      split; [reflexivity|]. cbn [t_q t_wait t_k t_u noted k_log]. split; [eapply pinv_same; [exact P2|]; apply same_upd; intros pl e E; [right; congruence|discriminate]|].
      split; [eapply holds_ext'; [exact W2|]; intros y; apply at_upd_out; intros e E; congruence|]. split; [eapply linv_close; eauto; discriminate|].
      split. { intros y. rewrite at_upd_other by (intros e E; discriminate). unfold fupd. destruct (Z.eqb_spec y s); [reflexivity|]. rewrite H2, HH1, fupd_ne by assumption. apply I5. }
      split; [exact I6|]. split; [cbn [with_mem u_rb u_mem]; lia|]. intros y e E Ny. unfold fupd in E. destruct (y =? s); [discriminate|]. apply T2; assumption. }
    assert (HStay : forall k2, k_log k2 = k_log (t_k m) -> waits (k_log k2) (u_tab (t_u m)) w1) by (intros k2 Ek y e E Ny; rewrite Ek; apply I8; [apply HWt1; exact E|exact Ny]).
    assert (HPlain : exists m' w' t', Ret ([@VNothing unit], mk_tcpm (with_mem (t_u m) buf) (noted (TClose s) (ticked (t_k m))) (t_q m) wp1 (t_cum m) true) = Ret ([VNothing], m') /\ tinv room m' w' t' /\ settles hdr t [] [VNothing] t' /\ turn_log nservers par i (k_log (t_k m)) (k_log (t_k m'))).
    { eexists _, _, t. split; [reflexivity|]. split; [apply (HClose (ticked (t_k m)) _ _ w1 HP1 HW1 HL1); [reflexivity|apply HStay; reflexivity]|]. split; [apply HNs|].
      exists [TClose s], [], []. split; [reflexivity|]. split; [reflexivity|]. split; [intros y ms out ok [E|[]]; discriminate|]. split; [intros o []|]. left. reflexivity. }
    destruct (retry && (1 <? tc_queried d)) eqn:EB; [|cbn [bind]; exact HPlain]. apply andb_true_iff in EB. destruct EB as (-> & EB). unfold deref. rewrite Hn. cbn [bind].
    destruct (negb (match h_domain (c_h (n_data n)) with [] => true | _ => false end) && (tc_qid d =? ctx_id (n_data n)) && (tc_hash d =? h_hash (c_h (n_data n)))) eqn:EC; [|cbn [bind]; exact HPlain].
    clear HPlain. destruct (good_slice _ Gn) as (content & ES & HLc & HIc). assert (Hlt : (tc_srv d < nservers)%nat) by (destruct HG as (? & ? & _ & Hlt & _); exact Hlt).
    destruct (send_actual_ok targets nproxies incoming v HE keep stale par 1025 x (n_data n) (Some (tc_srv d)) (ticked (t_k m)) (t_q m) wp1 w1 content) as (k3 & q3 & wp3 & w3 & ss & EA & X1 & X2 & X3 & X4 & X5 & X6 & X7 & X8 & X9 & X10 & _);
      [lia|intros j Ej; injection Ej as <-; exact Hlt|exact HP1|exact HW1|exact HL1|destruct Gn; lia|exact ES|]. rewrite EA. cbn [bind]. set (msg := be16 (h_len (c_h (n_data n)) mod 65536) ++ content) in *.
    assert (HMid : get16 msg 2 = Some (ctx_id (n_data n))) by (unfold msg; rewrite framed_id by exact HLc; exact HIc).
    eexists _, _, t. split; [reflexivity|]. split; [|split; [apply HNs|]].
    + apply (HClose k3 _ _ w3 X1 X2 X3 X4). intros y e E Ny. destruct (X9 y e E) as [(Hy & HLy)|(F1 & F2 & F3 & _ & F5)].
      * rewrite HLy. cbn [ticked k_log]. apply I8; [apply HWt1; exact Hy|exact Ny].
      * split; [exists msg; rewrite F1; auto|]. exists x, n. auto.
    + destruct X5 as (_ & l & EL & HO & HSn). cbn [ticked k_log] in EL, HSn. exists (TClose s :: l), ss, msg. cbn [t_k noted k_log]. split; [rewrite EL; reflexivity|]. split; [cbn [sent_to]; exact HSn|].
      split; [intros y ms out ok [E|E]; [discriminate|eapply HO; exact E]|]. split; [exact X7|]. right. right. exists s, via, (tc_srv d), old, (ctx_id (n_data n)). split; [exact Hst|]. split; [exact HOld|].
      apply andb_true_iff in EC. destruct EC as (EC & _). apply andb_true_iff in EC. destruct EC as (_ & EC). apply Z.eqb_eq in EC. split; [rewrite HId, EC; reflexivity|]. split; [exact HMid|]. split; [reflexivity|].
      split; [eapply reply_retry; eauto|exact X6]. }
  - right. destruct HR as (msg & HStr & HLm & EBuf & Hk & _). assert (HLb : length buf = room) by (rewrite EBuf, app_length, skipn_length; lia).
    set (d' := mk_tctx (tc_srv d) (v_time v (k_tick (ticked (t_k m)))) (tc_queried d) (tc_qid d) (tc_hash d) None).
    assert (HSt' : state_of (TGot s :: k_log (t_k m)) s = Some (Conn via (Some (tc_srv d)) false)) by (cbn [state_of]; rewrite Z.eqb_refl, Hst; reflexivity).
    assert (HL2 : linv (fupd w1 s (Some (PHand, d))) (TGot s :: k_log (t_k m))).
    { apply (linv_event targets nproxies incoming w1 (k_log (t_k m)) (TGot s) (Some (PHand, d)) HL1); cbn [legal subject]; [eauto|exact I|]. split; [exact Hs|]. eexists. split; [exact HSt'|discriminate]. }
    set (w2 := fupd w1 s (Some (PHand, d))) in *. assert (HX2 : forall y, w2 y = w1 y) by (intros y; unfold w2, w1, fupd; destruct (y =? s); reflexivity).
    assert (HS2 : same_but (fun pl => pl = PWait \/ pl = PHand) w1 w2) by (intros pl _ y; unfold at_; rewrite HX2; reflexivity).
    assert (HP2 : pinv (t_q m) w2) by (eapply pinv_same; eauto). destruct HP2 as (Q1 & Q2 & Q3 & Q4).
    assert (HLt : (tc_srv d < length (q_agents (t_q m)))%nat) by (rewrite Q3; destruct HG as (? & ? & _ & Hlt & _); exact Hlt).
    destruct (put_at_ok targets nproxies incoming (q_agents (t_q m)) w2 PAgent s d d' (Conn via (Some (tc_srv d)) false) (TGot s :: k_log (t_k m)) (tc_srv d) Q2) as (ags & EA & HLa & HAg & HL3);
      [intros x1 x2 Ex; congruence|discriminate|apply fupd_at|exact HL2|exact HSt'| |exact HLt|].
    { cbn [fits d' tc_srv]. split; [|reflexivity]. destruct HG as (via' & o' & Ec & Hlt & HV & Hq). injection Ec as <- <-. exists via, (Some (tc_srv d)). cbn [d' tc_srv tc_queried]. auto. }
    rewrite EA. cbn [bind]. set (w3 := fupd w2 s (Some (PAgent (tc_srv d), d'))) in *.
    exists buf, k, c', (fun u2 => mk_tcpm u2 (noted (TGot s) (ticked (ticked (t_k m)))) (mk_pools (q_query (t_q m)) ags (q_proxy (t_q m)) (q_proxies (t_q m))) wp1 (t_cum m) true).
    split; [reflexivity|]. split. { destruct (handle (with_mem (t_u m) buf) buf (Z.to_nat k) (i_rx i)) as [[e u2]| | |]; reflexivity. }
    intros e u2 EH. split; [reflexivity|]. destruct (known_hash _ _ I6) as (HTh & HRh). destruct (handle_steps ap misc raw ignore parallel get hdr arr fuel nf (with_mem (t_u m) buf) buf (Z.to_nat k) (i_rx i) e u2 true SelIdle HTh HRh EH) as (HRh' & mos & HSt).
    assert (K1 : known (with_mem (t_u m) buf) t) by exact I6.
    destruct (settles_step ap hdr fuel _ _ (UTurn true SelIdle) e mos t K1 I HRh' HSt ltac:(discriminate)) as (t' & K2 & S2). destruct (handle_rest _ _ _ _ _ _ EH) as (G2 & HLm' & HQe). exists w3, t'.
    assert (HW3 : forall y, w3 y = fupd w s (Some (PAgent (tc_srv d), d')) y) by (intros y; unfold w3, w2, w1, fupd; destruct (y =? s); reflexivity).
    split; [|split; [exact S2|split; [exact HQe|reflexivity]]]. split; [reflexivity|]. cbn [t_q t_wait t_k t_u noted ticked k_log q_query q_agents q_proxy q_proxies].
    assert (HS3 : forall pl y, pl <> PAgent (tc_srv d) -> pl <> PWait -> at_ w3 pl y = at_ w pl y) by (intros pl y N1 N2; unfold at_ at 1; rewrite HW3; apply at_upd_out; intros e1 Ee; congruence).
    split; [|split; [|split; [exact HL3|split; [|split; [exact K2|split; [lia|]]]]]].
    + destruct I2 as (J1 & J2 & J3 & J4). split; [eapply holds_ext'; [exact J1|]; intros y; apply HS3; discriminate|]. split; [exact HAg|]. cbn [q_agents q_proxy q_proxies]. split; [congruence|]. intros np Enp. destruct (J4 np Enp) as (Y1 & Y2 & Y3).
      split; [eapply holds_ext'; [exact Y1|]; intros y; apply HS3; discriminate|]. split; [|exact Y3]. intros j q Hq. eapply holds_ext'; [apply Y2; exact Hq|]. intros y. apply HS3; discriminate.
    + eapply holds_ext'; [exact HW1|]. intros y. unfold at_. rewrite HW3. unfold w1, fupd. destruct (y =? s); [|reflexivity]. destruct (place_dec PWait (PAgent (tc_srv d))), (place_dec PWait PHand); try discriminate; reflexivity.
    + intros y. rewrite HS3 by discriminate. apply I5.
    + intros y e1 E Ny. rewrite HW3 in E. unfold fupd in E. destruct (y =? s); [discriminate|]. cbn [last_sent]. destruct (I8 y e1 E Ny) as (W1 & x' & n' & W2 & W3 & W4). split; [exact W1|]. destruct (G2 x' n' W3 W4) as (n2 & W5 & W6). exists x', n2. auto.
Qed.
Notation t_turn := (t_turn v targets nproxies par keep incoming stale ap misc raw ignore parallel get hdr arr fuel nf).

Lemma same_log room k m w t u' t' : tinv room m w t -> k_log k = k_log (t_k m) -> known u' t' -> gkeeps (u_tab (t_u m)) (u_tab u') -> length (u_mem (u_rb u')) = room -> forall c, tinv room (mk_tcpm u' k (t_q m) (t_wait m) c true) w t'.
Proof.
  intros (I1 & I2 & I3 & I4 & I5 & I6 & I7 & I8) Ek HK G HL c. split; [reflexivity|]. cbn [t_q t_wait t_k t_u]. rewrite Ek. split; [exact I2|]. split; [exact I3|]. split; [exact I4|]. split; [exact I5|]. split; [exact HK|]. split; [exact HL|].
  intros s d E N. destruct (I8 s d E N) as (W1 & x' & n' & W2 & W3 & W4). split; [exact W1|]. destruct (G x' n' W3 W4) as (n2 & W5 & W6). exists x', n2. auto.
Qed.

Lemma turn_ok room m w t i : (room <= 4096)%nat -> tinv room m w t -> tin_ok room i ->
  (exists es m' w' t' qs, t_turn m i = Ret (es, m') /\ tinv room m' w' t' /\ settles hdr t qs es t' /\ queued es = length qs /\ (qs = [] \/ exists q, qs = [q] /\ comes_with i q) /\
     turn_log nservers par i (k_log (t_k m)) (k_log (t_k m'))) \/
  (exists err, err <> 0 /\ pl_select (t_wait m) (v_sel v (k_tick (t_k m))) 0 = Ret (None, err) /\
     t_turn m i = let! m' := t_cleanup nproxies incoming (mk_tcpm (t_u m) (ticked (t_k m)) (t_q m) (t_wait m) (t_cum m) true) in Ret ([], m')) \/
  (exists buf n c', tcp_reply (S room) (i_net i) (u_mem (u_rb (t_u m))) = Ret (Reply buf n c') /\ (forall r, handle (with_mem (t_u m) buf) buf (Z.to_nat n) (i_rx i) <> Ret r) /\ forall r, t_turn m i <> Ret r).
Proof using HE.
  intros Hroom HT HI. assert (HT0 := HT). destruct HT0 as (I1 & I2 & I3 & I4 & I5 & I6 & I7 & I8). unfold Tcpm_Model.t_turn. rewrite I1. cbn [negb].
  destruct (holds_select _ _ _ I3 (proj1 HE (k_tick (t_k m)))) as (o & err & E & _). rewrite E. cbn [bind fst snd]. destruct o as [[s a]|].
  - destruct (Z.eqb_spec s incoming) as [->|Ns].
    + left. destruct (incoming_ok room m w t i a err Hroom HT HI E) as (es & m' & w' & t' & qs & ss & msg & ET & HT' & HS & HQ & HA & HIn & HC). exists es, m', w', t', qs. split; [exact ET|]. split; [exact HT'|]. split; [exact HS|]. split; [exact HQ|].
      destruct HA as (_ & l & EL & HO & HSn). destruct (i_query i) as [[h bytes]|] eqn:Ei.
      * destruct HC as ((e & -> & Hf) & -> & Hlen & _). split; [right; eexists; split; [reflexivity|]; eexists h, bytes, e, _; auto|]. exists l, ss, (framed bytes). split; [exact EL|]. split; [exact HSn|]. split; [exact HO|]. split; [exact HIn|]. right. left. exists h, bytes. auto.
      * destruct HC as (-> & ->). split; [left; reflexivity|]. exists l, [], msg. split; [exact EL|]. split; [exact HSn|]. split; [exact HO|]. split; [exact HIn|]. left. reflexivity.
    + destruct (reply_ok room m w t i s a err Hroom HT (proj2 HI) E Ns) as [(m' & w' & t' & ET & HT' & HS & HTl)|(buf & n & c' & f & ER & ET & HH)].
      * left. exists [VNothing], m', w', t', []. split; [exact ET|]. split; [exact HT'|]. split; [exact HS|]. split; [reflexivity|]. split; [left; reflexivity|exact HTl].
      * rewrite ET. destruct (handle (with_mem (t_u m) buf) buf (Z.to_nat n) (i_rx i)) as [[e u2]| | |] eqn:EH.
        2-4: right; right; exists buf, n, c'; split; [exact ER|]; split; [intros r; rewrite EH; discriminate|intros r; discriminate].
        left. destruct (HH e u2 eq_refl) as (_ & w' & t' & HT' & HS & HQ & HLog). exists [e], (f u2), w', t', []. split; [reflexivity|]. split; [exact HT'|]. split; [exact HS|]. split; [exact HQ|]. split; [left; reflexivity|].
        rewrite HLog. exists [TGot s], [], []. split; [reflexivity|]. split; [reflexivity|]. split; [intros y ms out ok [X|[]]; discriminate|]. split; [intros x []|]. left. reflexivity.
  - destruct (Z.eqb_spec err 0) as [->|Ne]; cbn [negb].
    + left. destruct (sweep_known hdr (t_u m) t (v_time v (k_tick (ticked (t_k m)))) I6) as (l & b & t' & ES & K & HS & G). rewrite ES. cbn [bind fst snd]. eexists _, _, w, t', []. split; [reflexivity|].
      split; [apply (same_log room _ m w t); auto|]. split; [exact HS|]. split; [reflexivity|]. split; [left; reflexivity|]. exists [], [], []. split; [reflexivity|]. split; [reflexivity|]. split; [intros y ms out ok []|]. split; [intros x []|]. left. reflexivity.
    + right. left. exists err. auto.
Qed.

Lemma cleanup_ok room m w t : tinv room m w t -> exists L m', t_cleanup nproxies incoming m = Ret m' /\ t_alive m' = false /\ t_u m' = t_u m /\
  k_log (t_k m') = rev (map TClose (incoming :: L)) ++ k_log (t_k m) /\ NoDup L /\ forall s, In s L <-> state_of (k_log (t_k m)) s <> None.
Proof using raw get arr.
  intros (I1 & I2 & I3 & I4 & I5 & I6 & I7 & I8). unfold t_cleanup. destruct (close_holds _ _ I3) as (l1 & -> & N1 & H1). cbn [bind]. destruct I2 as (Q1 & Q2 & Q3 & Q4).
  assert (HX : exists l2, match nproxies with
      | None => Ret []
      | Some _ => let! x := pl_close_all (q_proxy (t_q m)) (-1) in
                  let! y := fold_right (fun p acc => let! c := pl_close_all p (-1) in let! r := acc in Ret (c ++ r)) (Ret []) (q_proxies (t_q m)) in Ret (x ++ y)
      end = Ret l2 /\ NoDup l2 /\ forall s, In s l2 <-> exists pl d, w s = Some (pl, d) /\ (pl = PProxy \/ exists i, pl = PProxies i)).
  { assert (D : nproxies = None \/ exists np, nproxies = Some np) by (case nproxies; eauto). destruct D as [Enp|(np & Enp)].
    - rewrite Enp. exists []. split; [reflexivity|]. split; [constructor|]. intros s. split; [intros []|]. intros (pl & d & Hs & Hpl). destruct (linv_some _ _ _ _ _ _ _ _ I4 Hs) as (_ & st & _ & HF).
      destruct Hpl as [->|(i & ->)]; cbn [fits] in HF; [destruct HF as (np & X & _)|destruct HF as ((np & X & _) & _)]; congruence.
    - destruct (Q4 np Enp) as (Y1 & Y2 & Y3). rewrite Enp. destruct (close_holds _ _ Y1) as (x & -> & Nx & Hx). cbn [bind]. destruct (close_list w _ _ Y2) as (y & -> & Ny & Hy); [congruence|]. cbn [bind]. exists (x ++ y). split; [reflexivity|]. split.
      + apply nodup_app_intro; [exact Nx|exact Ny|]. intros s A1 A2. apply Hx in A1. apply Hy in A2. destruct A2 as (i & d & _ & A2). destruct (at_ w PProxy s) as [d'|] eqn:Ea; [|congruence]. apply at_some in Ea. congruence.
      + intros s. rewrite in_app_iff, Hx, Hy. split.
        * intros [A|(i & d & _ & A)]; [|exists (PProxies i), d; split; [exact A|right; eauto]]. destruct (at_ w PProxy s) as [d|] eqn:Ea; [|congruence]. apply at_some in Ea. exists PProxy, d. auto.
        * intros (pl & d & A & [->|(i & ->)]); [left; apply at_some in A; congruence|right]. exists i, d. split; [|exact A]. destruct (linv_some _ _ _ _ _ _ _ _ I4 A) as (_ & st & _ & (np' & X & Hlt & _) & <-). assert (np' = np) as -> by congruence. lia. }
  destruct HX as (l2 & -> & N2 & H2). cbn [bind]. destruct (close_holds _ _ Q1) as (l3 & -> & N3 & H3). cbn [bind]. destruct (close_list w _ _ Q2) as (l4 & -> & N4 & H4); [congruence|]. cbn [bind].
  exists (l1 ++ l2 ++ l3 ++ l4). eexists. split; [reflexivity|]. split; [reflexivity|]. split; [reflexivity|]. split; [apply close_log|].
  assert (H1' : forall s, In s l1 <-> exists d, w s = Some (PWait, d)). { intros s. rewrite H1. split; [intros A; destruct (at_ w PWait s) as [d|] eqn:Ea; [|congruence]; apply at_some in Ea; eauto|intros (d & A); apply at_some in A; congruence]. }
  assert (H3' : forall s, In s l3 <-> exists d, w s = Some (PQuery, d)). { intros s. rewrite H3. split; [intros A; destruct (at_ w PQuery s) as [d|] eqn:Ea; [|congruence]; apply at_some in Ea; eauto|intros (d & A); apply at_some in A; congruence]. }
  split.
  - apply nodup_app_intro; [exact N1|apply nodup_app_intro; [exact N2|apply nodup_app_intro; [exact N3|exact N4|]|]|].
    + intros s A1 A2. apply H3' in A1. apply H4 in A2. destruct A1 as (d1 & A1), A2 as (i & d2 & _ & A2). congruence.
    + intros s A1 A2. apply H2 in A1. apply in_app_or in A2. destruct A1 as (pl & d1 & A1 & B1). destruct A2 as [A2|A2]; [apply H3' in A2; destruct A2 as (d2 & A2)|apply H4 in A2; destruct A2 as (i & d2 & _ & A2)]; destruct B1 as [->|(j & ->)]; congruence.
    + intros s A1 A2. apply H1' in A1. destruct A1 as (d1 & A1). apply in_app_or in A2. destruct A2 as [A2|A2]; [apply H2 in A2; destruct A2 as (pl & d2 & A2 & [->|(j & ->)]); congruence|].
      apply in_app_or in A2. destruct A2 as [A2|A2]; [apply H3' in A2; destruct A2 as (d2 & A2)|apply H4 in A2; destruct A2 as (i & d2 & _ & A2)]; congruence.
  - intros s. rewrite !in_app_iff, H1', H2, H3', H4. split.
    + intros A. assert (HW : exists pl d, w s = Some (pl, d)) by (destruct A as [(d & A)|[(pl & d & A & _)|[(d & A)|(i & d & _ & A)]]]; eauto). destruct HW as (pl & d & HW). destruct (linv_some _ _ _ _ _ _ _ _ I4 HW) as (_ & st & E & _). congruence.
    + intros A. destruct (w s) as [[pl d]|] eqn:Ew; [|destruct I4 as (_ & I4 & _); specialize (I4 s); rewrite Ew in I4; congruence]. destruct (linv_some _ _ _ _ _ _ _ _ I4 Ew) as (_ & st & _ & HF). destruct pl as [| |i| |i|].
      * left. eauto.
      * right. right. left. eauto.
      * right. right. right. destruct HF as ((via & o & _ & Hlt & _) & Hi). exists i, d. split; [lia|reflexivity].
      * right. left. eauto 6.
      * right. left. exists (PProxies i), d. eauto.
      * exfalso. apply at_some in Ew. rewrite I5 in Ew. discriminate.
Qed.

(** * Runs *)
Notation t_run := (t_run v targets nproxies par keep incoming stale ap misc raw ignore parallel get hdr arr fuel nf).

Lemma dead_run m is : t_alive m = false -> t_run m is = Ret ([], m).
Proof. intros H. induction is as [|i is IH]; cbn [Tcpm_Model.t_run]; [reflexivity|]. unfold Tcpm_Model.t_turn. rewrite H. cbn [negb bind snd fst]. rewrite IH. reflexivity. Qed.
Lemma among_none {X} (l : list X) : among [] l.
Proof. induction l; constructor; assumption. Qed.

Lemma run_ok room is : (room <= 4096)%nat -> forall m w t es m', tinv room m w t -> Forall (tin_ok room) is -> t_run m is = Ret (es, m') ->
  exists t' qs chosen, known (t_u m') t' /\ settles hdr t qs es t' /\ queued es = length qs /\ among chosen is /\ Forall2 comes_with chosen qs /\
    ((t_alive m' = true /\ exists w', tinv room m' w' t') \/ (t_alive m' = false /\ ended incoming (k_log (t_k m')))).
Proof using HE.
  intros Hroom. induction is as [|i is IH]; intros m w t es m' HT HF HR; cbn [Tcpm_Model.t_run] in HR.
  - assert (es = [] /\ m' = m) as (-> & ->) by (split; congruence). exists t, [], []. split; [apply HT|]. split; [apply settles_nil|]. split; [reflexivity|]. split; [constructor|]. split; [constructor|]. left. split; [apply HT|eauto].
  - inversion HF as [|? ? HI HF']; subst. destruct (turn_ok room m w t i Hroom HT HI) as [(es1 & m1 & w1 & t1 & qs1 & E1 & HT1 & HS1 & HQ1 & HC1 & _)|[(err & Ne & _ & E1)|(buf & n & c' & _ & _ & E1)]].
    + rewrite E1 in HR. cbn [bind snd fst] in HR. destruct (t_run m1 is) as [[es2 m2]| | |] eqn:E2; try discriminate. cbn [bind snd fst] in HR. assert (es = es1 ++ es2 /\ m' = m2) as (-> & ->) by (split; congruence).
      destruct (IH m1 w1 t1 es2 m2 HT1 HF' E2) as (t' & qs2 & chosen & K & HS2 & HQ2 & HA & HF2 & HE2).
      assert (HX : exists ch, among ch (i :: is) /\ Forall2 comes_with ch (qs1 ++ qs2)). { destruct HC1 as [->|(q & -> & HC1)]; [exists chosen; split; [constructor; exact HA|exact HF2]|exists (i :: chosen); split; [constructor; exact HA|constructor; assumption]]. }
      destruct HX as (ch & X1 & X2). exists t', (qs1 ++ qs2), ch. split; [exact K|]. split; [eapply settles_trans; eauto|]. split; [rewrite queued_app, app_length; congruence|]. auto.
    + rewrite E1 in HR. set (m0 := mk_tcpm (t_u m) (ticked (t_k m)) (t_q m) (t_wait m) (t_cum m) true) in *.
      assert (HT0 : tinv room m0 w t). { assert (HT0 := HT). destruct HT0 as (I1 & I2 & I3 & I4 & I5 & I6 & I7 & I8). apply (same_log room (ticked (t_k m)) m w t); auto. apply gkeeps_refl. }
      destruct (cleanup_ok room m0 w t HT0) as (L & m1 & EC & HD & HU & HLg & HN & HI'). rewrite EC in HR. cbn [bind snd fst] in HR. rewrite dead_run in HR by exact HD. cbn [bind snd fst app] in HR. assert (es = [] /\ m' = m1) as (-> & ->) by (split; congruence).
      exists t, [], []. split; [rewrite HU; apply HT|]. split; [apply settles_nil|]. split; [reflexivity|]. split; [apply among_none|]. split; [constructor|]. right. split; [exact HD|]. exists (k_log (t_k m)), L. split; [exact HLg|]. split; [apply HT|]. split; [apply HT; reflexivity|]. auto.
    + exfalso. destruct (t_turn m i) as [r| | |] eqn:E; try discriminate. exact (E1 r eq_refl).
Qed.

Lemma run_ord room is : (room <= 4096)%nat -> forall m w t es m', tinv room m w t -> Forall (tin_ok room) is -> t_run m is = Ret (es, m') -> t_alive m' = true -> ord ctx_cmp t ->
  (forall is1 j is2 es1 m1 p1 qs, is = is1 ++ j :: is2 -> t_run m is1 = Ret (es1, m1) -> table (u_tab (t_u m1)) p1 -> qs = [] \/ (exists q, qs = [q] /\ comes_with j q) -> tame (p1 ++ qs)) ->
  exists w' t', tinv room m' w' t' /\ ord ctx_cmp t'.
Proof using HE.
  intros Hroom. induction is as [|i is IH]; intros m w t es m' HT HF HR HA HO HTm; cbn [Tcpm_Model.t_run] in HR.
  - assert (m' = m) as -> by congruence. eauto.
  - inversion HF as [|? ? HI HF']; subst. destruct (turn_ok room m w t i Hroom HT HI) as [(es1 & m1 & w1 & t1 & qs1 & E1 & HT1 & HS1 & HQ1 & HC1 & _)|[(err & Ne & _ & E1)|(buf & n & c' & _ & _ & E1)]].
    + rewrite E1 in HR. cbn [bind snd fst] in HR. destruct (t_run m1 is) as [[es2 m2]| | |] eqn:E2; try discriminate. cbn [bind snd fst] in HR. assert (m' = m2) as -> by congruence.
      apply (IH m1 w1 t1 es2 m2 HT1 HF' E2 HA).
      * destruct HS1 as (d & tt & _ & _ & HS1). apply HS1; [|exact HO]. apply (HTm [] i is [] m (vals t) qs1 eq_refl eq_refl); [|exact HC1]. destruct HT as (_ & _ & _ & _ & _ & ((fl & HB) & _) & _). apply (table_vals _ t fl HB). reflexivity.
      * intros is1 j is2 es3 m3 p3 qs -> ER Hp Hq. apply (HTm (i :: is1) j is2 (es1 ++ es3) m3 p3 qs eq_refl); [|exact Hp|exact Hq]. cbn [Tcpm_Model.t_run]. rewrite E1. cbn [bind fst snd]. rewrite ER. reflexivity.
    + exfalso. rewrite E1 in HR. set (m0 := mk_tcpm (t_u m) (ticked (t_k m)) (t_q m) (t_wait m) (t_cum m) true) in *.
      assert (HT0 : tinv room m0 w t). { assert (HT0 := HT). destruct HT0 as (I1 & I2 & I3 & I4 & I5 & I6 & I7 & I8). apply (same_log room (ticked (t_k m)) m w t); auto. apply gkeeps_refl. }
      destruct (cleanup_ok room m0 w t HT0) as (L & m1 & EC & HD & _). rewrite EC in HR. cbn [bind snd fst] in HR. rewrite dead_run in HR by exact HD. cbn [bind snd fst app] in HR. congruence.
    + exfalso. destruct (t_turn m i) as [r| | |] eqn:E; try discriminate. exact (E1 r eq_refl).
Qed.

(** * The receive buffer *)
Lemma turn_buf look room m i es m' : misc_look misc look -> (forall d, length (arr d) = 256%nat) -> (room <= 4096)%nat -> ubuf_ok room (u_rb (t_u m)) -> tin_ok room i -> t_turn m i = Ret (es, m') -> ubuf_ok room (u_rb (t_u m')).
Proof using Type.
  intros HM Harr Hroom HB (HQ & HNet) H. unfold Tcpm_Model.t_turn in H. destruct (negb (t_alive m)); [assert (m' = m) as -> by congruence; exact HB|].
  destruct (pl_select _ _ _) as [[o err]| | |]; try discriminate. cbn [bind fst snd] in H. destruct o as [[s a]|].
  - destruct (s =? incoming).
    + unfold Tcpm_Model.t_incoming in H. cbv zeta in H.
      destruct (if 1024 <? t_cum m then _ else _) as [[[es1 u1] cum1]| | |] eqn:E1; try discriminate. cbn [bind] in H.
      assert (HB1 : ubuf_ok room (u_rb u1)). { destruct (1024 <? t_cum m); [|assert (u1 = t_u m) as -> by congruence; exact HB]. unfold t_sweep in E1. destruct (mc_sweep _ _) as [[l b]| | |]; try discriminate. cbn [bind fst snd] in E1. assert (u1 = with_tab (t_u m) b) as -> by congruence. exact HB. }
      assert (HX : forall es2 u2 k2 q2 w2 cum2, (let! w4 := pl_del tctx0 w2 incoming in let! d := pl_data w4 a in let! w5 := pl_add w4 incoming d in Ret (es1 ++ es2, mk_tcpm u2 k2 q2 (snd w5) cum2 true)) = Ret (es, m') -> t_u m' = u2).
      { intros es2 u2 k2 q2 w2 cum2 HX. destruct (pl_del _ _ _) as [w4| | |]; try discriminate. cbn [bind] in HX. destruct (pl_data _ _) as [d| | |]; try discriminate. cbn [bind] in HX. destruct (pl_add _ _ _) as [w5| | |]; try discriminate. cbn [bind] in HX.
        match type of HX with Ret (_, ?y) = _ => assert (m' = y) as -> by congruence end. reflexivity. }
      destruct (i_query i) as [[h bytes]|] eqn:Ei; [|cbn [bind] in H; rewrite (HX _ _ _ _ _ _ H); exact HB1].
      destruct (mc_add _ _ _) as [[x b2]| | |]; try discriminate. cbn [bind fst snd] in H. destruct (deref b2 x) as [n| | |]; try discriminate. cbn [bind] in H. destruct (send_actual _ _ _ _ _ _ _ _ _ _ _ _ _) as [[[k3 q3] w3]| | |]; try discriminate. cbn [bind] in H.
      rewrite (HX _ _ _ _ _ _ H). destruct HB1 as (B1 & B2 & B3). destruct (HQ h bytes eq_refl) as (_ & _ & Hl & Hb). unfold with_query. cbn [u_rb]. split; [apply Harr|]. cbn [u_mem c_entity]. split.
      * rewrite app_length, firstn_length, skipn_length. lia.
      * apply Forall_app. split; [rewrite firstn_all2 by lia; exact Hb|apply Forall_skip, B3].
    + unfold Tcpm_Model.t_reply in H. cbv zeta in H. destruct (pl_del _ _ _) as [w1| | |]; try discriminate. cbn [bind] in H. destruct (pl_data _ _) as [d| | |]; try discriminate. cbn [bind] in H.
      destruct HB as (B1 & B2 & B3). destruct (C46_sound (S (length (u_mem (u_rb (t_u m))))) (i_net i) (u_mem (u_rb (t_u m))) HNet) as (r & ER & HR); [lia|lia|]. rewrite ER in H. cbn [bind] in H.
      assert (HBy : forall buf', match r with Discard _ b => buf' = b | Reply b _ _ => buf' = b end -> length buf' = room /\ Forall is_byte buf').
      { intros buf' E. pose proof (tcp_reply_bytes (S (length (u_mem (u_rb (t_u m))))) (i_net i) _ r HNet B3 ER) as HY. destruct r as [b n c2|rt b]; cbn in E, HR; subst buf'; [|split; [rewrite HR; exact B2|exact HY]]. destruct HR as (msg & _ & HLm & -> & _). split; [rewrite app_length, skipn_length; lia|exact HY]. }
      destruct r as [buf n c'|rt buf].
      * destruct (HBy buf eq_refl) as (L & Y). destruct (put_at _ _ _ _) as [ags| | |]; try discriminate. cbn [bind] in H. destruct (handle _ _ _ _) as [[e u2]| | |] eqn:EH; try discriminate. cbn [bind] in H.
        match type of H with Ret (_, ?y) = _ => assert (m' = y) as -> by congruence end. cbn [t_u]. eapply handle_buf; [exact HM|exact Harr| |exact L|exact Y|exact EH]. split; [exact B1|]. split; [exact L|exact Y].
      * destruct (HBy buf eq_refl) as (L & Y). match type of H with (let! x := ?e in _) = _ => destruct e as [[[k2 q2] w2]| | |]; try discriminate end. cbn [bind] in H. match type of H with Ret (_, ?y) = _ => assert (m' = y) as -> by congruence end.
        cbn [t_u with_mem u_rb]. split; [exact B1|]. split; [exact L|exact Y].
  - destruct (negb (err =? 0)).
    + destruct (t_cleanup _ _ _) as [m2| | |] eqn:EC; try discriminate. cbn [bind] in H. assert (m' = m2) as -> by congruence. unfold t_cleanup in EC.
      repeat match type of EC with (let! x := ?e in _) = _ => destruct e as [?| | |]; try discriminate; cbn [bind] in EC end. assert (t_u m2 = t_u m) as -> by (injection EC as <-; reflexivity). exact HB.
    + unfold t_sweep in H. destruct (mc_sweep _ _) as [[l b]| | |]; try discriminate. cbn [bind fst snd] in H. match type of H with Ret (_, ?y) = _ => assert (m' = y) as -> by congruence end. exact HB.
Qed.
Lemma trun_buf look room : misc_look misc look -> (forall d, length (arr d) = 256%nat) -> (room <= 4096)%nat -> forall is m es m', ubuf_ok room (u_rb (t_u m)) -> Forall (tin_ok room) is -> t_run m is = Ret (es, m') -> ubuf_ok room (u_rb (t_u m')).
Proof using Type.
  intros HM Harr Hroom. induction is as [|i is IH]; intros m es m' HB HF H; cbn [Tcpm_Model.t_run] in H; [assert (m' = m) as -> by congruence; exact HB|].
  inversion HF as [|? ? Hi HF']; subst. destruct (t_turn m i) as [[e1 m1]| | |] eqn:E1; try discriminate. cbn [bind snd fst] in H. destruct (t_run m1 is) as [[e2 m2]| | |] eqn:E2; try discriminate. cbn [bind snd fst] in H.
  assert (m' = m2) as -> by congruence. eapply IH; [|exact HF'|exact E2]. eapply turn_buf; eauto.
Qed.

Lemma started_inv room m : t_started nservers nproxies incoming room m -> exists w, tinv room m w Leaf.
Proof using Type.
  intros (H1 & H2 & H3 & H4 & H5 & H6). set (w := fun s => if s =? incoming then Some (PWait, tctx0) else None). exists w.
  assert (HNo : forall pl s, pl <> PWait -> at_ w pl s = None). { intros pl s N. unfold at_, w. destruct (s =? incoming); [|reflexivity]. destruct (place_dec pl PWait); [congruence|reflexivity]. }
  assert (HIni : forall pl, pl <> PWait -> holds pl_init (at_ w pl)). { intros pl N. eapply holds_ext'; [exists 0%nat; apply holds_init|]. intros s. apply HNo. exact N. }
  assert (HRep : forall n B, (forall i, B i <> PWait) -> all_hold (repeat pl_init n) w B). { intros n B HB i q Hq. apply nth_error_In, repeat_spec in Hq. subst q. apply HIni, HB. }
  split; [exact H5|]. rewrite H3. split.
  { split; [apply HIni; discriminate|]. split; [apply HRep; discriminate|]. split; [apply repeat_length|]. intros np Enp. split; [apply HIni; discriminate|]. cbn [q_proxies]. split; [apply HRep; discriminate|rewrite repeat_length, Enp; reflexivity]. }
  split. { destruct (holds_add _ _ _ incoming tctx0 holds_init eq_refl H2) as (p' & E & HH). assert (p' = t_wait m) as -> by congruence. eapply holds_ext'; [exists 1%nat; exact HH|]. intros s. unfold at_, w, fupd. destruct (s =? incoming); [|reflexivity]. destruct (place_dec PWait PWait); congruence. }
  split. { rewrite H1. split; [split; [reflexivity|exact I]|]. split.
    - intros s. unfold w. cbn [state_of]. rewrite (Z.eqb_sym incoming s). destruct (Z.eqb_spec s incoming) as [->|N]; [|reflexivity]. split; [exact H2|]. eexists. split; [reflexivity|]. left. reflexivity.
    - intros s. cbn [state_of]. destruct (Z.eqb_spec incoming s); split; congruence. }
  split; [intros s; apply HNo; discriminate|]. split; [|split].
  - destruct H6 as (U1 & _ & U3). split; [exists []; rewrite U1; apply binv_init|]. split; [intros q []|exact U3].
  - apply H6.
  - intros s d Hs Ns. unfold w in Hs. destruct (Z.eqb_spec s incoming); congruence.
Qed.
End Turns.
