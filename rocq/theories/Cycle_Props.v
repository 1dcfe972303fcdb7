(** C67: aliases of the hosts files that lead to further aliases. *)
From Verif Require Import Base BaseFacts ListFacts Hash_Model Bst_Model Bst_Spec Bst_Proofs Bst2_Proofs Name_Model Name_Spec Name_Proofs Parser_Model Parser_Spec Parser_Proofs
  Gen_Model Gen_Spec Compress_Spec Fetch_Spec Fetch_Props Sht_Model Hosts_Model Hosts_Spec Hosts_Props Mctx_Model Mctx_Spec Mctx_Proofs Iheader_Model Iheader_Spec Udpm_Model Hmsg_Model Hmsg_Spec Hmsg_Proofs Hmsg_Props
  Fetch2_Proofs Iheader_Proofs Rdata_Proofs Redir_Model Redir_Spec Redir_Proofs Redir2_Proofs Redir3_Proofs Redir_Props Cycle_Model.
Require Import Permutation ZifyBool ZifyNat.

Lemma last_next {A} (b : A) ns : forall a, last (b :: ns) a = last ns b.
Proof. revert b. induction ns as [|n ns IH]; intros b a; [reflexivity|]. change (last (b :: n :: ns) a) with (last (n :: ns) a). now rewrite !IH. Qed.

Section Cycle.
Context (fn : list Z -> list Z -> bool) (parse : list Z -> ipaddr) (good : list Z -> option (list Z)) (hdr : iheader -> list Z) (arr : list Z -> list Z) (hsz : nat)
  (osock : Z) (oaddr : list Z) (leave : ubuf -> ubuf) (block6 : bool) (st dy : option hosts) (l1 l2 : option (list (list Z))).

(** The hosts files give the name [a] the alias [b], for queries of the type [type]; names are looked up in lower case (C60). *)
Definition alias_to (type : Z) (a b : list (list Z)) : Prop :=
  exists ts1 ts2, says fn parse l1 (map small (dotted a)) ts1 /\ says fn parse l2 (map small (dotted a)) ts2 /\ verdict good block6 ts1 ts2 type T_recursed /\
    match first alias_of ts1 with Some x => Some x | None => first alias_of ts2 end = Some (dotted b) /\ name_ok b /\ (length (dotted b) <= 128)%nat.
(** [c] is a query for the name [n]. *)
Definition query_for (type : Z) (n : list (list Z)) (c : mctx) : Prop :=
  h_domain (c_h c) = map small (dotted n) /\ h_type (c_h c) = type /\ exists i1 i2 m, c_entity c = i1 :: i2 :: m.
(** [e] puts a query for the name [n] of type [type] through the forwarder. *)
Definition asks (type : Z) (n : list (list Z)) (e : rev) : Prop :=
  exists c id mem, e = RV_asked c /\ query_for type n c /\ c_entity c = enc_msg (target_query id n type) ++ mem.
(** A chain of aliases from [a] over the names [ns]. *)
Fixpoint alias_chain (type : Z) (a : list (list Z)) (ns : list (list (list Z))) : Prop :=
  match ns with [] => True | b :: ns' => alias_to type a b /\ alias_chain type b ns' end.

Lemma chain_rounds type room (T1 : table_is parse st l1) (T2 : table_is parse dy l2) (HL : forall b, ubuf_ok room b -> ubuf_ok room (leave b)) (Ht : 0 < type < 65536) ns : forall ticks a,
  length ticks = length ns -> alias_chain type a ns -> Forall (fun n => (length (wire n) + 16 <= room)%nat) ns ->
  exists f0, forall fuel nf, (f0 <= fuel)%nat -> (f0 <= nf)%nat -> forall c s t fl, query_for type a c -> binv (rs_tab s) t fl -> ubuf_ok room (rs_out s) ->
  exists es c' s' t' fl', follow fn good hdr osock oaddr leave fuel nf block6 st dy c s ticks = Ret (es, c', s') /\ Forall2 (asks type) ns es /\ query_for type (last ns a) c' /\
    binv (rs_tab s') t' fl' /\ exists new, length new = length ns /\ Permutation (map snd (elems t')) (new ++ map snd (elems t)).
Proof.
  induction ns as [|b ns IH]; intros ticks a Hl HC HR; destruct ticks as [|[rnd now] ticks]; try discriminate; cbn [alias_chain follow] in *.
  - exists 0%nat. intros fuel nf _ _ c s t fl Hq HB HU. exists [], c, s, t, fl. split; [reflexivity|]. split; [constructor|]. split; [exact Hq|]. split; [exact HB|]. exists []. split; reflexivity.
  - destruct HC as ((ts1 & ts2 & S1 & S2 & HV & HA & Hb & Hlb) & HC). inversion HR as [|? ? R1 R2]; subst. cbn [length] in Hl.
    destruct (IH ticks b ltac:(lia) HC R2) as (f1 & H1). destruct (query_ok (rnd mod 65536) b type room Hb Ht Hlb R1) as (f2 & H2). exists (f1 + f2)%nat.
    intros fuel nf Hf Hn c s t fl (Hd & Hty & i1 & i2 & m & Hm) HB HU. rewrite <- Hty in HV.
    rewrite (C65_alias fn parse good hdr st dy l1 l2 T1 T2 _ ts1 ts2 S1 S2 block6 i1 i2 m fuel c true 0 Hd HV Hm). cbn [bind].
    destruct (H2 fuel nf (rs_out s) osock oaddr (match h_back (c_h c) with None => true | Some _ => false end) HU ltac:(lia) ltac:(lia)) as (dom' & mem' & EQ & HU').
    set (k := stamped (mk_ctx (c_h c) ([i1; i2] ++ skipn 2 (c_entity (rs_in s)))) now).
    destruct (bst_add_ok ctx_cmp (rs_tab s) t fl k HB) as (x & b' & fl' & HE & HN & HB').
    unfold inner_turn. cbv zeta. rewrite Hd, (C28_alias fn parse (fun _ => None) st dy l1 l2 _ ts1 ts2 T1 T2 S1 S2), HA. cbn [bind]. destruct (Nat.ltb 128 (length (dotted b))) eqn:E; [apply Nat.ltb_lt in E; lia|].
    rewrite Hty, EQ. cbn [bind]. change (negb (0 =? 0)) with false. cbv iota. unfold mc_add. change (set_time (mk_ctx (c_h c) ([i1; i2] ++ skipn (length [i1; i2]) (c_entity (rs_in s)))) now) with k.
    rewrite HE. cbn [bind u_h u_mem u_dom].
    set (c2 := mk_ctx (set_parent (target_header (u_h (rs_out s)) None (match h_back (c_h c) with None => true | Some _ => false end) osock oaddr b type) (Some x)) (enc_msg (target_query (rnd mod 65536) b type) ++ mem')).
    assert (Hq2 : query_for type b c2) by (split; [reflexivity|]; split; [reflexivity|]; eexists _, _, _; reflexivity).
    match goal with |- context [follow _ _ _ _ _ _ _ _ _ _ _ c2 ?z ticks] => destruct (H1 fuel nf ltac:(lia) ltac:(lia) c2 z (ins ctx_cmp k x t) fl' Hq2) as (es & c' & s' & t' & fl'' & EF & HF & Hq' & HB'' & new & Hnl & HP) end.
    + exact HB'.
    + cbn [rs_out]. apply HL. exact HU'.
    + rewrite EF. cbn [bind]. exists (RV_asked c2 :: es), c', s', t', fl''. split; [reflexivity|]. split; [constructor; [|exact HF]; exists c2, (rnd mod 65536), mem'; auto|]. split.
      { rewrite last_next. exact Hq'. }
      split; [exact HB''|]. exists (new ++ [k]). split; [rewrite app_length; cbn [length]; lia|]. rewrite HP, <- app_assoc. cbn [app].
      apply Permutation_app_head. rewrite (ins_elems ctx_cmp k x t). reflexivity.
Qed.

(** Missing from the full statement: aliases that lead back to one another ([C67_endless_refuted]).
    A chain of aliases, of any length: in each round the thread asks for the next name of the chain, and keeps the query it comes from; the last query is for the
    last name and, if the hosts files say nothing about that, goes on to the next stage (-126). *)
Theorem C67_chain_partial fuel0 nf0 os s room type a ns ticks c : reached fn hdr arr hsz osock oaddr leave fuel0 nf0 os s -> ubuf_ok room (rs_out s) -> (forall b, ubuf_ok room b -> ubuf_ok room (leave b)) ->
  table_is parse st l1 -> table_is parse dy l2 -> 0 < type < 65536 -> alias_chain type a ns -> Forall (fun n => (length (wire n) + 16 <= room)%nat) ns -> length ticks = length ns -> query_for type a c ->
  exists f0, forall fuel nf, (f0 <= fuel)%nat -> (f0 <= nf)%nat ->
  exists es c' s', follow fn good hdr osock oaddr leave fuel nf block6 st dy c s ticks = Ret (es, c', s') /\ Forall2 (asks type) ns es /\ query_for type (last ns a) c' /\
    (forall p, table (rs_tab s) p -> exists new, length new = length ns /\ table (rs_tab s') (new ++ p)) /\
    (forall ts1 ts2 n, says fn parse l1 (map small (dotted (last ns a))) ts1 -> says fn parse l2 (map small (dotted (last ns a))) ts2 -> verdict good block6 ts1 ts2 type T_none ->
       hosts_get fn good hdr fuel block6 st dy c' true n = Ret (-126, H_nothing, c')).
Proof.
  intros (n0 & s0 & es0 & HS & HO & HR) HU HL T1 T2 Ht HC Hr Hl Hq. destruct (turns_known _ _ _ _ _ _ _ _ _ os s0 Leaf es0 s (started_known n0 s0 HS) HO HR) as (t & (fl & HB) & _).
  destruct (chain_rounds type room T1 T2 HL Ht ns ticks a Hl HC Hr) as (f0 & HF). exists f0. intros fuel nf Hf Hn.
  destruct (HF fuel nf Hf Hn c s t fl Hq HB HU) as (es & c' & s' & t' & fl' & E & HA & Hq' & HB' & new & Hnew & HP). exists es, c', s'. split; [exact E|]. split; [exact HA|]. split; [exact Hq'|]. split.
  - intros p Hp. apply (table_vals _ t fl HB) in Hp. exists new. split; [exact Hnew|]. apply (table_vals _ t' fl' HB'). rewrite HP. apply Permutation_app_head. exact Hp.
  - intros ts1 ts2 n S1 S2 HV. destruct Hq' as (Hd & Hty & _). rewrite <- Hty in HV. apply (C65_nothing fn parse good hdr st dy l1 l2 T1 T2 _ ts1 ts2 S1 S2 block6 fuel c' true n Hd HV).
Qed.
End Cycle.
Print Assumptions C67_chain_partial.

(** ** The way back *)
(** A record that is taken over. *)
Definition fine (r : rr) : Prop := exists own, r_name r = plain own /\ low own /\ r_class r = 1 /\
  (r_type r = 5 /\ (exists c, r_data r = wire c /\ name_ok c /\ low c) \/ r_type r = 1 /\ length (r_data r) = 4%nat \/ r_type r = 28 /\ length (r_data r) = 16%nat).
Lemma low_letters a b : same_letters a b -> low b -> low a.
Proof.
  unfold same_letters, low. revert b. induction a as [|x a IH]; intros [|y b] E H; try discriminate; [constructor|]. cbn [map] in E.
  assert (E1 : map small x = map small y) by congruence. assert (E2 : map (map small) a = map (map small) b) by congruence. inversion H as [|? ? H1 H2]; subst. constructor; [|exact (IH b E2 H2)].
  clear - E1 H1. revert y E1 H1. induction x as [|c x IH]; intros [|d y] E H; try discriminate; [constructor|]. cbn [map] in E. assert (Ec : small c = small d) by congruence. assert (Ex : map small x = map small y) by congruence.
  inversion H as [|? ? H1 H2]; subst. constructor; [|exact (IH y Ex H2)]. unfold small in Ec. destruct ((65 <=? c) && (c <=? 90))%bool eqn:B1; destruct ((65 <=? d) && (d <=? 90))%bool eqn:B2; lia.
Qed.
Lemma taken_fine R o rs news : taken R o rs news -> forall cur, answer_chain cur news -> Forall fine news.
Proof.
  induction 1 as [o|o r rs news H1 H2 H3 HK IH|o r rs news own ls w c v H1 H2 HD HL HS HD2 HL2 HK IH|o r rs news own ls w H1 H2 HD HL HS HK IH]; intros cur HC; [constructor|apply (IH cur HC)| |].
  - cbn [answer_chain] in HC. cbn [Parser_Spec.r_class Parser_Spec.r_name Parser_Spec.r_type Parser_Spec.r_data] in HC. change (1 =? 1) with true in HC. change (5 =? 5) with true in HC. cbv iota in HC.
    destruct HC as (E & Hc & c' & Ho & Ew & HC). constructor; [|exact (IH _ HC)]. exists own. split; [reflexivity|]. split; [apply (low_letters own ls HS HL)|]. split; [reflexivity|]. left. split; [reflexivity|].
    exists c. split; [reflexivity|]. split; [|exact HL2]. exact (low_name_ok _ _ _ _ HD2 HL2).
  - cbn [answer_chain] in HC. cbn [Parser_Spec.r_class Parser_Spec.r_name Parser_Spec.r_type Parser_Spec.r_data] in HC. change (1 =? 1) with true in HC. cbv iota in HC.
    assert (Hn5 : (r_type r =? 5) = false) by (destruct H1 as [(-> & _)|(-> & _)]; reflexivity). rewrite Hn5 in HC. destruct HC as (E & Hc & HC).
    constructor; [|exact (IH _ HC)]. exists own. split; [reflexivity|]. split; [apply (low_letters own ls HS HL)|]. split; [reflexivity|]. right. exact H1.
Qed.

(** The reply of one round is one that the round before takes over entirely. *)
Lemma taken_again g pre post : forall rs an o, enc_msg g = pre ++ concat (map enc_rr an) ++ post -> length pre = o -> Forall fine rs -> Forall2 same_but_name rs an ->
  Forall2 (fun r v => exists w, denotes 63 (enc_msg g) (v_pos v) (en_labels (r_name r)) w) rs (view_rrs P_answer o an) -> taken g o an rs.
Proof.
  intros rs an. revert pre rs. induction an as [|r' an IH]; intros pre rs o HE Hp HF HS HV; inversion HS as [|r ? rs' ? (E1 & E2 & E3 & E4) HS']; subst; [constructor|].
  cbn [view_rrs] in HV. inversion HV as [|? ? ? ? (w & HD) HV']; subst. cbn [v_pos] in HD. inversion HF as [|? ? (own & En & Hlow & Hcl & Hk) HF']; subst. rewrite En in HD. cbn [plain en_labels] in HD.
  cbn [map concat] in HE. rewrite <- app_assoc in HE.
  assert (HT : taken g (length pre + length (enc_rr r')) an rs').
  { apply (IH (pre ++ enc_rr r') rs'); [rewrite HE, <- app_assoc; reflexivity|apply app_length|exact HF'|exact HS'|exact HV']. }
  destruct r as [rn rt rc rl rd]. cbn [Parser_Spec.r_name Parser_Spec.r_type Parser_Spec.r_class Parser_Spec.r_ttl Parser_Spec.r_data] in *. subst rn rc rl. destruct Hk as [(Ht & c & Ec & Hc & Hlc)|Hk].
  - assert (E5 : r_data r' = wire c) by congruence. assert (HDc : denotes 63 (enc_msg g) (data_at (length pre) r') c (length (wire c))).
    { assert (X : exists p1, enc_rr r' = p1 ++ wire c) by (unfold enc_rr; rewrite E5; rewrite !app_assoc; eexists; reflexivity). destruct X as (p1 & X).
      assert (Hda : data_at (length pre) r' = length (pre ++ p1)) by (unfold data_at; rewrite X, E5, !app_length; lia). rewrite Hda, HE, X.
      replace (pre ++ (p1 ++ wire c) ++ concat (map enc_rr an) ++ post) with ((pre ++ p1) ++ wire c ++ (concat (map enc_rr an) ++ post)) by (rewrite <- !app_assoc; reflexivity). apply denotes_wire. exact Hc. }
    rewrite Ec, Ht, Hcl. apply (K_alias g (length pre) r' an rs' own own w c (length (wire c))); auto; [congruence|reflexivity].
  - assert (Hk2 : r_type r' = 1 /\ length (r_data r') = 4%nat \/ r_type r' = 28 /\ length (r_data r') = 16%nat) by (rewrite E1, E4; exact Hk).
    rewrite <- E1, <- E4, Hcl. apply (K_address g (length pre) r' an rs' own own w); auto. reflexivity.
Qed.

(** The reply that goes back from one round (C66_reply_partial) is, for the query that it goes to, again a reply whose records are all taken over and follow the
    chain, so that C66_reply_partial holds for it: the client gets all the aliases, in order, and then the records. *)
Theorem C67_level id R dom tgt type edns news g dom' : taken R (12 + qs_len (m_qs R)) (m_an R) news -> answer_chain dom (alias_record dom tgt :: news) -> name_ok dom -> low dom -> name_ok tgt -> low tgt -> dom' <> [] ->
  redirected id R dom type edns (alias_record dom tgt :: news) g ->
  good_msg g /\ m_qs g <> [] /\ taken g (12 + qs_len (m_qs g)) (m_an g) (alias_record dom tgt :: news) /\ answer_chain dom' (alias_record dom' dom :: alias_record dom tgt :: news).
Proof.
  intros HK HC Hd Hld Ht Hlt Hd' (Hg & Hid & Hq & Hn & Har & HS & HV). split; [exact Hg|]. split; [rewrite Hq; discriminate|]. split.
  - pose proof Hg as (H4 & _). apply (taken_again g (m_idflags g ++ be16 (Z.of_nat (length (m_qs g))) ++ be16 (Z.of_nat (length (m_an g))) ++ be16 (Z.of_nat (length (m_ns g))) ++ be16 (Z.of_nat (length (m_ar g))) ++ concat (map enc_q (m_qs g)))
      (concat (map enc_rr (m_ns g)) ++ concat (map enc_rr (m_ar g)))); [unfold enc_msg; rewrite <- !app_assoc; reflexivity| | |exact HS|exact HV].
    + rewrite !app_length, !be16_length, H4. unfold qs_len. lia.
    + assert (HC2 := HC). cbn [answer_chain alias_record Parser_Spec.r_class Parser_Spec.r_name Parser_Spec.r_type Parser_Spec.r_data] in HC2. change (1 =? 1) with true in HC2. change (5 =? 5) with true in HC2. cbv iota in HC2.
      destruct HC2 as (_ & _ & c' & _ & _ & HC2). constructor; [|exact (taken_fine _ _ _ _ HK _ HC2)]. exists dom. split; [reflexivity|]. split; [exact Hld|]. split; [reflexivity|]. left. split; [reflexivity|]. exists tgt. auto.
  - cbn [answer_chain]. split; [reflexivity|]. split; [exact Hd'|]. exists dom. split; [exact Hd|]. split; [reflexivity|exact HC].
Qed.
Print Assumptions C67_level.

(** ** A cycle *)
Section Endless.
Context (fn : list Z -> list Z -> bool) (parse : list Z -> ipaddr) (good : list Z -> option (list Z)) (hdr : iheader -> list Z) (arr : list Z -> list Z) (hsz : nat)
  (osock : Z) (oaddr : list Z) (leave : ubuf -> ubuf) (block6 : bool) (st dy : option hosts) (l1 l2 : option (list (list Z))).

(** Names [N] all of which have an alias among [N]: a query for one of them goes round and round.  After any number of rounds there has been a new query in each of
    them, which is kept, and no client has been sent anything; it has not reached a stage that could answer it. *)
Theorem C67_endless_refuted fuel0 nf0 os s room type (N : list (list Z) -> Prop) a ticks c : reached fn hdr arr hsz osock oaddr leave fuel0 nf0 os s -> ubuf_ok room (rs_out s) -> (forall b, ubuf_ok room b -> ubuf_ok room (leave b)) ->
  (146 <= room)%nat -> table_is parse st l1 -> table_is parse dy l2 -> 0 < type < 65536 -> (forall x, N x -> exists y, N y /\ alias_to fn parse good block6 l1 l2 type x y) -> N a -> query_for type a c ->
  exists f0, forall fuel nf, (f0 <= fuel)%nat -> (f0 <= nf)%nat ->
  exists es c' s' z, follow fn good hdr osock oaddr leave fuel nf block6 st dy c s ticks = Ret (es, c', s') /\ length es = length ticks /\ Forall (fun e => exists q, e = RV_asked q) es /\
    N z /\ query_for type z c' /\ forall p, table (rs_tab s) p -> exists new, length new = length ticks /\ table (rs_tab s') (new ++ p).
Proof.
  intros HR HU HL Hroom T1 T2 Ht HN Ha Hq.
  assert (HC : exists ns, length ns = length ticks /\ alias_chain fn parse good block6 l1 l2 type a ns /\ Forall (fun n => (length (wire n) + 16 <= room)%nat) ns /\ N (last ns a)).
  { clear Hq HR. revert a Ha. induction ticks as [|x ticks IH]; intros a Ha; [exists []; cbn; auto|]. destruct (HN a Ha) as (y & Hy & HA). destruct (IH y Hy) as (ns & L & HC & HF & HN2). exists (y :: ns).
    cbn [length alias_chain]. split; [lia|]. split; [auto|]. split.
    - constructor; [|exact HF]. destruct HA as (ts1 & ts2 & _ & _ & _ & _ & Hok & Hl). destruct y as [|l y]; [cbn; lia|]. rewrite wire_length by discriminate. lia.
    - rewrite last_next. exact HN2. }
  destruct HC as (ns & L & HC & HF & HN2).
  destruct (C67_chain_partial fn parse good hdr arr hsz osock oaddr leave block6 st dy l1 l2 fuel0 nf0 os s room type a ns ticks c HR HU HL T1 T2 Ht HC HF (eq_sym L) Hq) as (f0 & HX). exists f0. intros fuel nf Hf Hn.
  destruct (HX fuel nf Hf Hn) as (es & c' & s' & E & HA & Hq' & HP & _). exists es, c', s', (last ns a). split; [exact E|]. split; [rewrite <- L; clear - HA; induction HA; cbn [length]; congruence|]. split.
  - clear - HA. induction HA as [|n e ns es (q & _ & _ & -> & _) _ IH]; constructor; eauto.
  - split; [exact HN2|]. split; [exact Hq'|]. rewrite <- L. exact HP.
Qed.
End Endless.
Print Assumptions C67_endless_refuted.

(** * Examples *)
(** "c.d a.b" and "a.b c.d": each is an alias of the other. *)
Definition l_back : list Z := [97; 46; 98; 32; 99; 46; 100].
Definition cx_cd : list Z := [99; 46; 100].
Definition cx_dy : hosts := match hosts_of ex_parse hosts_init [l_alias; l_back] with Ret h => h | _ => hosts_init end.
Definition cx_items : list (list Z * target) := [(ab, Alias cx_cd); (cx_cd, Alias ab)].
Lemma cx_table : table_is ex_parse (Some cx_dy) (Some [l_alias; l_back]). Proof. vm_compute. reflexivity. Qed.
Lemma cx_listed : listed ex_parse [l_alias; l_back] cx_items.
Proof.
  eapply L_item; [exact l_alias_words|exact reads_cd|]. eapply (L_item _ l_back ab cx_cd); [two [32] (@nil Z)| |apply L_nil].
  apply (R_alias_hex _ 97 _ 98); [unfold hexdigit; lia|cbn; intuition lia|cbn; auto|unfold letter; lia].
Qed.
Lemma cx_says_ab : says hx_fn ex_parse (Some [l_alias; l_back]) ab [Alias cx_cd].
Proof. exists cx_items. split; [exact cx_listed|]. exists (Some ab). split; [|reflexivity]. left. split; [reflexivity|]. split; [unfold Chunk_Spec.plain, ab; cbn; lia|]. eexists. left. reflexivity. Qed.
Lemma cx_says_cd : says hx_fn ex_parse (Some [l_alias; l_back]) cx_cd [Alias ab].
Proof. exists cx_items. split; [exact cx_listed|]. exists (Some cx_cd). split; [|reflexivity]. left. split; [reflexivity|]. split; [unfold Chunk_Spec.plain, cx_cd; cbn; lia|]. eexists. right. left. reflexivity. Qed.
Lemma cx_verdict t : verdict (fun _ => None) false [] [Alias t] 1 T_recursed.
Proof.
  assert (NE : ~ has excl_of [] [Alias t]) by (intros (x & [<-|[]] & H); apply H; reflexivity).
  split; [split; [discriminate|intros (H & _); discriminate]|]. split; [intros _ H; contradiction|intros; reflexivity].
Qed.
Definition cx_N (n : list (list Z)) : Prop := n = [[97]; [98]] \/ n = [[99]; [100]].
Lemma cx_closed x : cx_N x -> exists y, cx_N y /\ alias_to hx_fn ex_parse (fun _ => None) false None (Some [l_alias; l_back]) 1 x y.
Proof.
  intros [->| ->].
  - exists [[99]; [100]]. split; [right; reflexivity|]. exists [], [Alias cx_cd]. split; [reflexivity|]. split; [exact cx_says_ab|]. split; [apply cx_verdict|]. split; [reflexivity|]. split; [apply fx_name; lia|cbn; lia].
  - exists [[97]; [98]]. split; [left; reflexivity|]. exists [], [Alias ab]. split; [reflexivity|]. split; [exact cx_says_cd|]. split; [apply cx_verdict|]. split; [reflexivity|]. split; [apply fx_name; lia|cbn; lia].
Qed.
Definition cx_0 : rst := mk_rst bst_init (mk_ctx (rx_h [] 0 []) (repeat 0 200)) (mk_ubuf (rx_h [] 0 []) (repeat 0 256) (repeat 0 200)).
Definition cx_c : mctx := mk_ctx (rx_h ab 1 [1]) (enc_msg (target_query 258 [[97]; [98]] 1)).
Lemma cx_started : r_started 200 cx_0.
Proof.
  assert (B : forall n, Forall is_byte (repeat 0 n)) by (intros n; apply Forall_forall; intros x Hx; apply repeat_spec in Hx; subst x; unfold is_byte; lia).
  split; [reflexivity|]. split; [split; [apply repeat_length|apply B]|]. split; [apply repeat_length|]. split; [apply repeat_length|apply B].
Qed.
(** A client's query for a.b, with these two lines: round after round. *)
Theorem C67_cycle_refuted ticks : exists f0, forall fuel nf, (f0 <= fuel)%nat -> (f0 <= nf)%nat ->
  exists es c' s' p, follow hx_fn (fun _ => None) (fun _ => []) 6 [127] (fun b => b) fuel nf false None (Some cx_dy) cx_c cx_0 ticks = Ret (es, c', s') /\
    length es = length ticks /\ Forall (fun e => exists q, e = RV_asked q) es /\ table (rs_tab s') p /\ length p = length ticks.
Proof.
  destruct cx_started as (_ & _ & HU).
  destruct (C67_endless_refuted hx_fn ex_parse (fun _ => None) (fun _ => []) (fun d => d) 8 6 [127] (fun b => b) false None (Some cx_dy) None (Some [l_alias; l_back]) 0 0 [] cx_0 200 1 cx_N [[97]; [98]] ticks cx_c) as (f0 & H); auto.
  - exists 200%nat, cx_0, []. split; [exact cx_started|]. split; [constructor|reflexivity].
  - lia.
  - exact I.
  - exact cx_table.
  - lia.
  - exact cx_closed.
  - left. reflexivity.
  - split; [reflexivity|]. split; [reflexivity|]. eexists _, _, _. reflexivity.
  - exists f0. intros fuel nf Hf Hn. destruct (H fuel nf Hf Hn) as (es & c' & s' & z & E & L & F & _ & _ & HP). destruct (HP []) as (new & Ln & HT); [exists []; split; [vm_compute; reflexivity|reflexivity]|].
    exists es, c', s', (new ++ []). split; [exact E|]. split; [exact L|]. split; [exact F|]. split; [exact HT|]. rewrite app_nil_r. exact Ln.
Qed.
Print Assumptions C67_cycle_refuted.
(** The chain of one alias (C66), of a name that the file says nothing about. *)
Example C67_nonvacuous : alias_chain hx_fn ex_parse (fun _ => None) false None (Some [l_alias]) 1 [[97]; [98]] [[[99]; [100]]] /\ query_for 1 [[97]; [98]] cx_c /\
  says hx_fn ex_parse (Some [l_alias]) (map small (dotted [[99]; [100]])) [] /\ verdict (fun _ => None) false [] [] 1 T_none /\
  (taken rx_R (12 + qs_len (m_qs rx_R)) (m_an rx_R) rx_news /\ answer_chain [[97]; [98]] (alias_record [[97]; [98]] [[99]; [100]] :: rx_news)) /\
  match follow hx_fn (fun _ => None) (fun _ => []) 6 [127] (fun b => b) 200 200 false None (Some hx_dy) cx_c cx_0 [(777, 100); (778, 100)] with
  | Ret (es, c', _) => length es = 1%nat /\ h_domain (c_h c') = cx_cd /\ hosts_get hx_fn (fun _ => None) (fun _ => []) 200 false None (Some hx_dy) c' true 0 = Ret (-126, H_nothing, c')
  | _ => False end.
Proof.
  split; [split; [|exact I]|].
  { exists [], [Alias cx_cd]. split; [reflexivity|]. split; [exact hx_says2|]. split; [apply cx_verdict|]. split; [reflexivity|]. split; [apply fx_name; lia|cbn; lia]. }
  split; [split; [reflexivity|]; split; [reflexivity|]; eexists _, _, _; reflexivity|]. split.
  { exists [(ab, Alias cx_cd)]. split; [eapply L_item; [exact l_alias_words|exact reads_cd|apply L_nil]|]. exists None. split; [|reflexivity]. split; [intros _ t [H|[]]; discriminate|reflexivity]. }
  split.
  { assert (NE : ~ has excl_of [] []) by (intros (x & [] & _)). split; [split; [discriminate|intros (H & _); discriminate]|]. split; [intros _ H; contradiction|intros; reflexivity]. }
  split; [split; [exact rx_taken|exact rx_chain]|]. vm_compute. auto.
Qed.
