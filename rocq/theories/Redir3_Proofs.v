(** Lemmas about following the aliases of the hosts files: the table of the clients' queries and the turns of the loop. *)
From Verif Require Import Base BaseFacts ListFacts Hash_Model Bst_Model Bst_Spec Bst_Proofs Bst2_Proofs Name_Model Name_Spec Name_Proofs Parser_Model Parser_Spec Parser_Proofs
  Gen_Model Gen_Spec Sht_Model Hosts_Model Mctx_Model Mctx_Spec Mctx_Proofs Iheader_Model Iheader_Spec Udpm_Model Hmsg_Model Hmsg_Spec Hmsg_Proofs Redir_Model Redir_Spec Redir_Proofs Redir2_Proofs.
Require Import Permutation ZifyBool ZifyNat.
Set Default Proof Using "Type".

(** ** The table *)
Lemma holds_elems b t fl a q : binv b t fl -> (holds b a q <-> In (a, q) (elems t)).
Proof.
  intros HB. unfold holds.
  assert (E : bst_enum b (fun (acc : list (nat * mctx)) x c => (acc ++ [(x, c)], false)) [] = Ret (preorder t)).
  { rewrite (bst_enum_ok _ b t fl [] HB). rewrite visit_never_stop by reflexivity. cbn [fst]. rewrite (fold_collect (fun x => (fst x, snd x))). cbn [app].
    f_equal. clear. induction (preorder t) as [|[x c] l IH]; cbn [map fst snd]; congruence. }
  rewrite E. split.
  - intros (l & El & H). injection El as <-. eapply Permutation_in; [apply preorder_perm|exact H].
  - intros H. eexists. split; [reflexivity|]. eapply Permutation_in; [symmetry; apply preorder_perm|exact H].
Qed.

Lemma answer_to_none b t fl i o : binv b t fl -> srch ctx_cmp i t = None -> mc_answer_to b i o = Ret (-60, o, b).
Proof. intros HB HS. unfold mc_answer_to, mc_find. rewrite (bst_search_ok ctx_cmp b t fl i HB), HS. reflexivity. Qed.
Lemma answer_to_some b t fl i o a : binv b t fl -> srch ctx_cmp i t = Some a ->
  exists q b' t' fl', In (a, q) (elems t) /\ ctx_cmp i q = 0 /\ mc_answer_to b i o = Ret (0, mk_ctx (c_h (addressed q i)) (c_entity o), b') /\ deleted t a t' /\ binv b' t' fl'.
Proof.
  intros HB HS. destruct (srch_sound ctx_cmp i t a HS) as (q & HI & H0).
  destruct (locate a q t HI) as (fs & l & r & E). destruct (binv_deref b t fl a q HB HI) as (n & Hn & Hd).
  pose proof (store_data b t fl fs l a q r n (mk_ctx (ih_reset (c_h q)) (c_entity q)) HB E Hn) as HB1.
  destruct (bst_delete_at _ _ fl fs l a _ r HB1 eq_refl) as (b' & t' & HE & HD & HB').
  exists q, b', t', (a :: fl). split; [exact HI|]. split; [exact H0|]. split; [|split; [rewrite E; apply HD|exact HB']].
  unfold mc_answer_to, mc_find. rewrite (bst_search_ok ctx_cmp b t fl i HB), HS. cbn [bind]. unfold deref. rewrite Hn. cbn [bind].
  rewrite Hd. rewrite HE. reflexivity.
Qed.
Lemma deleted_in (t t' : tree (D := mctx)) a : NoDup (addrs t) -> deleted t a t' -> forall x, In x (elems t') <-> In x (elems t) /\ fst x <> a.
Proof.
  intros ND HD x. destruct (deleted_elems _ _ _ HD) as (d & e1 & e2 & E1 & E2). unfold addrs in ND. rewrite E1, map_app in ND. cbn [map fst] in ND. apply NoDup_remove_2 in ND.
  rewrite E1, E2, !in_app_iff. cbn [In]. split.
  - intros H. split; [tauto|]. intros Ex. rewrite <- Ex in ND. apply ND, in_app_iff. destruct H as [H|H]; [left|right]; apply in_map; exact H.
  - intros ([H|[H|H]] & Hx); [tauto|subst x; cbn in Hx; congruence|tauto].
Qed.
Lemma swept_elems b t fl now : binv b t fl -> exists out b' t' fl', mc_sweep b now = Ret (out, b') /\ binv b' t' fl' /\
  (forall x, In x (elems t') <-> In x (elems t) /\ ~ expired now (snd x)) /\
  (forall P, orders ctx_cmp P -> (forall x, In x (elems t) -> P (snd x)) -> ord ctx_cmp t -> ord ctx_cmp t').
Proof.
  intros HB. unfold mc_sweep. set (l := filter (old now) (preorder t)).
  assert (E : bst_enum b (collect now) [] = Ret (map fst l)).
  { rewrite (bst_enum_ok _ b t fl [] HB). rewrite visit_never_stop by reflexivity. cbn [fst]. f_equal. unfold l. clear.
    change (map fst (filter (old now) (preorder t))) with ([] ++ map fst (filter (old now) (preorder t))). generalize (@nil nat) as acc.
    induction (preorder t) as [|x p IH]; intros acc; cbn [fold_left filter]; [cbn; now rewrite app_nil_r|]. unfold collect at 2. cbn [fst snd].
    change (2 <? now - h_time (c_h (snd x))) with (old now x). destruct (old now x); rewrite IH; [cbn [map]; rewrite <- app_assoc|]; reflexivity. }
  rewrite E. cbn [bind]. assert (HPt : Permutation (preorder t) (elems t)) by apply preorder_perm.
  assert (ND : NoDup (map fst (preorder t))) by (eapply Permutation_NoDup; [apply Permutation_map; symmetry; exact HPt|]; apply (binv_nodup _ _ _ HB)).
  assert (NDl : NoDup (map fst l)).
  { unfold l. clear - ND. induction (preorder t) as [|x p IH]; cbn [filter map] in *; [constructor|]. inversion ND; subst. destruct (old now x); auto. cbn [map].
    constructor; auto. intros HI. apply H1. apply in_map_iff in HI. destruct HI as (y & <- & Hy). apply filter_In in Hy. apply in_map. tauto. }
  assert (Hincl : incl l (elems t)) by (intros x Hx; apply filter_In in Hx; eapply Permutation_in; [exact HPt|tauto]).
  destruct (sweep_loop_ok l b t fl 0 HB NDl Hincl) as (out & b' & t' & fl' & HE & HB' & H1 & H2 & H3 & H4).
  exists out, b', t', fl'. split; [exact HE|]. split; [exact HB'|]. split; [|exact H4]. intros x.
  assert (HNe : NoDup (l ++ elems t')).
  { eapply Permutation_NoDup; [exact H3|]. pose proof (binv_nodup _ _ _ HB) as N. unfold addrs in N. eapply NoDup_map_inv; exact N. }
  assert (Hold : In x l <-> In x (elems t) /\ expired now (snd x)).
  { unfold l. rewrite filter_In. unfold old, expired. split; intros (X & Y); (split; [eapply Permutation_in; [|exact X]; [exact HPt || (symmetry; exact HPt)]|lia]). }
  split.
  - intros Hx. split; [eapply Permutation_in; [symmetry; exact H3|]; apply in_app_iff; auto|]. intros He. eapply nodup_app_disj; [exact HNe| |exact Hx]. apply Hold. split; [|exact He].
    eapply Permutation_in; [symmetry; exact H3|]; apply in_app_iff; auto.
  - intros (Hx & He). apply (Permutation_in _ H3) in Hx. apply in_app_iff in Hx. destruct Hx as [Hx|Hx]; [|exact Hx]. apply Hold in Hx. tauto.
Qed.

(** ** The header of the reply *)
Lemma combine_header fuel nf c m len tgt c2 : combine fuel nf c m len tgt = Ret (0, c2) -> exists n b, c2 = with_entity c n b.
Proof.
  unfold combine. destruct (rd16 (c_entity c) 0) as [id| | |]; try discriminate. cbn [bind]. destruct (parser_init len false) as [[? dlen]|]; [|discriminate].
  destruct (iter_init m P_unknown 0 0 0) as [i| | |]; try discriminate. cbn [bind]. destruct (gen_init (c_entity c)) as [g0| | |]; try discriminate. cbn [bind].
  destruct (copy_header m false g0) as [g1| | |]; try discriminate. cbn [bind]. destruct (set_identifier id g1) as [g2| | |]; try discriminate. cbn [bind].
  destruct (gen_question _ _ _ g2) as [[e3 g3]| | |]; try discriminate. cbn [bind]. destruct (negb (e3 =? 0)); [discriminate|]. cbv zeta.
  destruct (negb (purpose_eqb _ P_answer)); [discriminate|]. destruct (gen_cname _ _ _ _) as [[e5 g5]| | |]; try discriminate. cbn [bind]. destruct (negb (e5 =? 0)); [discriminate|].
  destruct (goto_answers fuel m dlen i) as [ia| | |]; try discriminate. cbn [bind]. destruct (copy_answers fuel nf m dlen ia g5) as [[e6 g6]| | |]; try discriminate. cbn [bind].
  destruct (negb (e6 =? 0)) eqn:E6; [intros H; assert (e6 = 0) by congruence; lia|].
  destruct (if h_edns (c_h c) then _ else _) as [[e7 g7]| | |]; try discriminate. cbn [bind]. destruct (negb (e7 =? 0)); [discriminate|].
  destruct (dns_compress fuel (g_buf g7) (g_itr g7)) as [[k b]| | |]; try discriminate. cbn [bind]. destruct (k <? 0); [discriminate|]. intros H.
  match type of H with Ret (0, ?x) = _ => assert (c2 = x) as -> by congruence end. eauto.
Qed.
Lemma send_back_where hdr c k s code : send_back hdr c k = Ret (s, code) -> s_sock s = h_sock (c_h c) /\ s_to s = h_back (c_h c).
Proof.
  unfold send_back. cbv zeta. destruct (if h_len (c_h c) <? 0 then None else _); [|discriminate]. destruct (h_back (c_h c)) eqn:E; intros H;
    match type of H with Ret (?x, ?y) = _ => assert (s = x) as -> by congruence end; auto.
Qed.

(** ** Turns *)
Section Turns.
Context (fn : list Z -> list Z -> bool) (hdr : iheader -> list Z) (arr : list Z -> list Z) (hsz : nat) (osock : Z) (oaddr : list Z) (leave : ubuf -> ubuf) (fuel nf : nat).
Notation turn := (rturn fn hdr arr hsz osock oaddr leave fuel nf).
Notation turns := (rturns fn hdr arr hsz osock oaddr leave fuel nf).

Definition two_bytes (q : mctx) : Prop := exists i1 i2 e, c_entity q = i1 :: i2 :: e /\ is_byte i1 /\ is_byte i2.
Definition known (s : rst) (t : tree) : Prop := (exists fl, binv (rs_tab s) t fl) /\ (forall x, In x (elems t) -> hash_ok (snd x) /\ two_bytes (snd x)).
(** The client's query as it is kept. *)
Definition kept (s : rst) (h : iheader) (id : list Z) (now : Z) : mctx := stamped (mk_ctx h (id ++ skipn (length id) (c_entity (rs_in s)))) now.

Definition did (s : rst) (t t' : tree) (o : rop) (e : rev) : Prop :=
  match o with
  | RInner _ _ h id _ now => e = RV_nothing /\ t' = t \/
      exists a m, e = RV_asked m /\ h_parent (c_h m) = Some a /\ ~ In a (addrs t) /\ Permutation (elems t') ((a, kept s h id now) :: elems t)
  | ROuter _ _ _ => e = RV_nothing /\ t' = t \/
      exists a q, In (a, q) (elems t) /\ (forall x, In x (elems t') <-> In x (elems t) /\ fst x <> a) /\
        (e = RV_nothing \/ exists sn code, e = RV_sent sn code /\ s_sock sn = h_sock (c_h q) /\ s_to sn = h_back (c_h q))
  | RIdle now => e = RV_nothing /\ forall x, In x (elems t') <-> In x (elems t) /\ ~ expired now (snd x)
  end.

Lemma turn_did s t o e s' : known s t -> rop_ok o -> turn s o = Ret (e, s') -> exists t', known s' t' /\ did s t t' o e /\ (tame (map snd (elems t)) -> ord ctx_cmp t -> ord ctx_cmp t').
Proof.
  intros ((fl & HB) & HH) HO H. destruct o as [st dy h id rnd now|h msg n|now]; cbn [rturn rop_ok] in *.
  - unfold inner_turn in H. cbv zeta in H. destruct HO as (Hh & Hid & Hib).
    destruct (both_cname fn st dy (h_domain h)) as [[name|]| | |]; try discriminate; cbn [bind] in H.
    2:{ match type of H with Ret (?x, ?y) = _ => assert (e = x /\ s' = y) as (-> & ->) by (split; congruence) end. exists t. split; [split; [exists fl; exact HB|exact HH]|]. split; [left; auto|auto]. }
    destruct (Nat.ltb 128 (length name)); [discriminate|]. destruct (generate_query _ _ _ _ _ _ _ _ _) as [[code b]| | |]; try discriminate. cbn [bind] in H.
    destruct (negb (code =? 0)).
    { match type of H with Ret (?x, ?y) = _ => assert (e = x /\ s' = y) as (-> & ->) by (split; congruence) end. exists t. split; [split; [exists fl; exact HB|exact HH]|]. split; [left; auto|auto]. }
    fold (kept s h id now) in H. set (c := mk_ctx h (id ++ skipn (length id) (c_entity (rs_in s)))) in *.
    destruct (bst_add_ok ctx_cmp (rs_tab s) t fl (stamped c now) HB) as (a & b' & fl' & HA & HN & HB'). change (set_time c now) with (stamped c now) in H. unfold mc_add in H. change (set_time c now) with (stamped c now) in H. rewrite HA in H. cbn [bind] in H.
    match type of H with Ret (?x, ?y) = _ => assert (e = x /\ s' = y) as (-> & ->) by (split; congruence) end.
    exists (ins ctx_cmp (stamped c now) a t). split; [|split].
    + split; [exists fl'; exact HB'|]. intros x Hx. apply (Permutation_in _ (ins_elems ctx_cmp (stamped c now) a t)) in Hx. destruct Hx as [<-|Hx]; [|auto]. cbn [snd]. split; [exact Hh|].
      destruct id as [|i1 [|i2 [|]]]; try discriminate. inversion Hib as [|? ? B1 Hib2]; subst. inversion Hib2; subst. exists i1, i2. eexists. split; [reflexivity|]. auto.
    + right. eexists a, _. split; [reflexivity|]. split; [reflexivity|]. split; [exact HN|]. apply ins_elems.
    + intros _ Hord. now apply ord_ins.
  - unfold outer_turn in H. cbv zeta in H. destruct (h_parent h) as [a0|]; [|discriminate]. destruct (deref (rs_tab s) a0) as [nd| | |]; try discriminate. cbn [bind] in H.
    destruct (rdn (c_entity (n_data nd)) 0 2) as [id| | |]; try discriminate. cbn [bind] in H. destruct (bwrite (c_entity (rs_in s)) 0 id) as [e1| | |]; try discriminate. cbn [bind] in H.
    set (out := mk_ctx (c_h (rs_in s)) e1) in *.
    destruct (srch ctx_cmp (n_data nd) t) as [a|] eqn:ES.
    + destruct (answer_to_some _ t fl _ out a HB ES) as (q & b' & t' & fl' & HI & H0 & HE & HD & HB'). rewrite HE in H. cbn [bind] in H. change (negb (0 =? 0)) with false in H. cbv iota in H.
      pose proof (deleted_in t t' a (binv_nodup _ _ _ HB) HD) as Hin.
      assert (HK : forall i u, known (mk_rst b' i u) t').
      { intros i u. split; [exists fl'; exact HB'|]. intros x Hx. apply HH. apply Hin in Hx. tauto. }
      assert (Hord : tame (map snd (elems t)) -> ord ctx_cmp t -> ord ctx_cmp t').
      { intros (lo & HT) Ho. eapply ord_deleted; [apply orders_preorder, (window_orders lo)| |exact Ho|exact HD]. intros x Hx. apply HT. apply in_map. exact Hx. }
      exists t'. destruct (combine _ _ _ _ _ _) as [[code c2]| | |] eqn:EC; try discriminate. cbn [bind] in H. destruct (negb (code =? 0)) eqn:E0.
      * match type of H with Ret (?x, ?y) = _ => assert (e = x /\ s' = y) as (-> & ->) by (split; congruence) end. split; [apply HK|]. split; [|exact Hord]. right. exists a, q. auto.
      * assert (code = 0) as -> by lia. destruct (combine_header _ _ _ _ _ _ _ EC) as (k & m2 & ->). destruct (send_back hdr _ n) as [[sn cd]| | |] eqn:EB; try discriminate. cbn [bind fst snd] in H.
        match type of H with Ret (?x, ?y) = _ => assert (e = x /\ s' = y) as (-> & ->) by (split; congruence) end. split; [apply HK|]. split; [|exact Hord]. right. exists a, q. split; [exact HI|]. split; [exact Hin|]. right.
        exists sn, cd. split; [reflexivity|]. exact (send_back_where _ _ _ _ _ EB).
    + rewrite (answer_to_none _ t fl _ out HB ES) in H. cbn [bind] in H. change (negb (-60 =? 0)) with true in H. cbv iota in H.
      match type of H with Ret (?x, ?y) = _ => assert (e = x /\ s' = y) as (-> & ->) by (split; congruence) end. exists t. split; [split; [exists fl; exact HB|exact HH]|]. split; [left; auto|auto].
  - destruct (swept_elems (rs_tab s) t fl now HB) as (out & b' & t' & fl' & HE & HB' & Hin & Hord). rewrite HE in H. cbn [bind snd] in H.
    match type of H with Ret (?x, ?y) = _ => assert (e = x /\ s' = y) as (-> & ->) by (split; congruence) end. exists t'. split; [split; [exists fl'; exact HB'|]|split].
    + intros x Hx. apply HH. apply Hin in Hx. tauto.
    + split; [reflexivity|exact Hin].
    + intros (lo & HT). apply (Hord (in_window lo) (window_orders lo)). intros x Hx. apply HT, in_map, Hx.
Qed.

Lemma started_known n s : r_started n s -> known s Leaf.
Proof. intros (E & _). split; [exists []; rewrite E; apply binv_init|intros x []]. Qed.
Lemma turns_known os : forall s t es s', known s t -> Forall rop_ok os -> turns s os = Ret (es, s') -> exists t', known s' t'.
Proof.
  induction os as [|o os IH]; intros s t es s' HK HO H; cbn [rturns] in H; [injection H as <- <-; eauto|]. inversion HO as [|? ? O1 O2]; subst.
  destruct (turn s o) as [[e s1]| | |] eqn:E; try discriminate. cbn [bind fst snd] in H. destruct (turns s1 os) as [[es2 s2]| | |] eqn:E2; try discriminate. cbn [bind fst snd] in H.
  injection H as <- <-. destruct (turn_did s t o e s1 HK O1 E) as (t1 & HK1 & _). eapply IH; eauto.
Qed.
Lemma turns_ord os : forall s t es s', known s t -> Forall rop_ok os -> ord ctx_cmp t ->
  (forall os1 os2 es1 s1 p, os = os1 ++ os2 -> turns s os1 = Ret (es1, s1) -> table (rs_tab s1) p -> tame p) ->
  turns s os = Ret (es, s') -> exists t', known s' t' /\ ord ctx_cmp t'.
Proof.
  induction os as [|o os IH]; intros s t es s' HK HO Ho HT H; cbn [rturns] in H; [injection H as <- <-; eauto|]. inversion HO as [|? ? O1 O2]; subst.
  destruct (turn s o) as [[e s1]| | |] eqn:E; try discriminate. cbn [bind fst snd] in H. destruct (turns s1 os) as [[es2 s2]| | |] eqn:E2; try discriminate. cbn [bind fst snd] in H.
  injection H as <- <-. destruct (turn_did s t o e s1 HK O1 E) as (t1 & HK1 & _ & Hord).
  assert (Ht : tame (map snd (elems t))).
  { apply (HT [] (o :: os) [] s); [reflexivity|reflexivity|]. destruct HK as ((fl & HB) & _). apply (table_vals _ _ _ HB). reflexivity. }
  eapply (IH s1 t1); eauto. intros os1 os2 es1 sx p -> HX Htab. apply (HT (o :: os1) os2 (e :: es1) sx p); [reflexivity| |exact Htab]. cbn [rturns]. rewrite E. cbn [bind fst snd]. rewrite HX. reflexivity.
Qed.
End Turns.
