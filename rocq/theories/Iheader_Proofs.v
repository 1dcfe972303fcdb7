(** Proofs about the labelling of received messages. *)
From Verif Require Import Base BaseFacts Name_Model Name_Spec Name_Proofs Parser_Model Parser_Spec Parser_Proofs Parser_Walk Hash_Model
  Gen_Model Mctx_Model Iheader_Model Iheader_Spec.
Require Import ZifyBool ZifyNat.

(** ** Reading a name does not depend on the memory after the message *)
Lemma rd8_app m post i v : rd8 m i = Ret v -> rd8 (m ++ post) i = Ret v.
Proof.
  unfold rd8. destruct (nth_error m i) as [x|] eqn:E; [|discriminate]. rewrite nth_error_app1, E; [auto|].
  apply nth_error_Some. congruence.
Qed.
Lemma rdn_app m post i n v : rdn m i n = Ret v -> rdn (m ++ post) i n = Ret v.
Proof.
  unfold rdn, slice. destruct (Nat.leb_spec (i + n) (length m)) as [H|H]; [|discriminate]. intros E. injection E as <-.
  rewrite app_length. destruct (Nat.leb_spec (i + n) (length m + length post)); [|lia].
  f_equal. rewrite skipn_app, firstn_app, skipn_length. replace (n - (length m - i))%nat with O by lia. cbn [firstn]. apply app_nil_r.
Qed.
Lemma name_loop_app m post : forall fuel hb dlen pos buf bi ll rd r,
  name_loop fuel hb dlen m pos buf bi ll rd = Ret r -> name_loop fuel hb dlen (m ++ post) pos buf bi ll rd = Ret r.
Proof.
  induction fuel as [|fuel IH]; intros hb dlen pos buf bi ll rd r H; [discriminate|].
  cbn [name_loop] in *. destruct (rd8 m pos) as [c| | |] eqn:Ec; try discriminate. rewrite (rd8_app _ _ _ _ Ec). cbn [bind] in *.
  destruct (c =? 0); [exact H|]. destruct (is_ptr c).
  - destruct buf as [b|]; [|exact H]. unfold label_ptr in *. destruct (rd8 m pos) as [hi| | |] eqn:E1; try discriminate.
    rewrite (rd8_app _ _ _ _ E1). cbn [bind] in *. destruct (rd8 m (S pos)) as [lo| | |] eqn:E2; try discriminate.
    rewrite (rd8_app _ _ _ _ E2). cbn [bind] in *. destruct (Nat.ltb dlen _); [exact H|]. destruct hb; [|discriminate]. now apply IH.
  - destruct (hb && Nat.ltb dlen (pos + Z.to_nat c))%bool; [exact H|]. destruct buf as [b|]; [|now apply IH].
    unfold name_copy in *. destruct (Nat.leb (bi + Z.to_nat c + 1) (length b)) eqn:EL.
    2:{ destruct bi as [|k]; [destruct b as [|b0 b1]; [exact H|]|].
        - destruct (bwrite (b0 :: b1) 0 [0]); try discriminate. exact H.
        - destruct (bwrite b k [0]); try discriminate. exact H. }
    destruct (rdn m (S pos) (Z.to_nat c)) as [l| | |] eqn:El; try discriminate. rewrite (rdn_app _ _ _ _ _ El). cbn [bind] in *.
    destruct (bwrite b bi l) as [b1| | |]; try discriminate. cbn [bind] in *.
    destruct (bwrite b1 (bi + Z.to_nat c) [46]) as [b2| | |]; try discriminate. cbn [bind] in *. now apply IH.
Qed.

Lemma cstr_before d rest t : before_nul d t -> cstr (d ++ 0 :: rest) = t.
Proof.
  intros [Hn H].
  assert (HC : forall t l, ~ In 0 t -> cstr (t ++ 0 :: l) = t).
  { clear. induction t as [|c t IH]; intros l H; cbn [app cstr]; [reflexivity|]. destruct (c =? 0) eqn:E; [exfalso; apply H; left; lia|].
    rewrite IH; [reflexivity|]. intros HI. apply H. now right. }
  destruct H as [->|(r & ->)]; [now apply HC|]. rewrite <- app_assoc. cbn [app]. now apply HC.
Qed.
Lemma before_nul_ex d : exists t, before_nul d t.
Proof.
  induction d as [|c d (t & Hn & H)]; [exists []; split; auto|]. destruct (Z.eq_dec c 0) as [->|Hc].
  - exists []. split; [auto|]. right. exists d. reflexivity.
  - exists (c :: t). split; [intros [E|E]; auto|]. destruct H as [->|(r & ->)]; [now left|]. right. exists r. reflexivity.
Qed.
Lemma small_zero c : small c = 0 -> c = 0. Proof. unfold small. destruct (_ && _)%bool eqn:E; lia. Qed.
Lemma cstr_lower b : cstr (lower_in b) = map small (cstr b).
Proof.
  unfold lower_in, str_to_lower. change to_lower with small. induction b as [|c b IH]; [reflexivity|]. cbn [cstr]. destruct (c =? 0) eqn:E.
  - cbn [map app length skipn]. cbn [cstr]. rewrite E. reflexivity.
  - cbn [map app length skipn]. cbn [cstr]. destruct (small c =? 0) eqn:E2; [pose proof (small_zero c); lia|]. now rewrite IH.
Qed.
Lemma lower_in_length b : length (lower_in b) = length b.
Proof.
  unfold lower_in, str_to_lower. rewrite app_length, map_length, skipn_length.
  assert (length (cstr b) <= length b)%nat; [|lia]. induction b as [|c b IH]; cbn [cstr length]; [lia|]. destruct (c =? 0); cbn [length]; lia.
Qed.

(** ** The records after the questions *)
Definition is_opt (x : item) : bool := match x with IR P_additional r => r_type r =? 41 | _ => false end.
Lemma fill_rest xs : forall fuel nf m len i pre x post s,
  at_item m (Z.of_nat len) i pre x xs post -> Forall (fun y => item_purpose y <> P_question) xs -> (length xs < fuel)%nat ->
  fill_loop fuel nf m len i s = Ret (0, mk_fs (f_dom s) (f_hash s) (f_type s) (f_edns s || existsb is_opt xs)).
Proof.
  induction xs as [|y ys IH]; intros fuel nf m len i pre x post s HA HQ Hf; (destruct fuel as [|fuel]; [cbn in Hf; lia|]); cbn [fill_loop].
  - rewrite (at_last _ _ _ _ _ _ HA). cbn [bind existsb]. rewrite orb_false_r. destruct s; reflexivity.
  - destruct (at_next _ _ _ _ _ _ _ _ HA) as (i' & HN & HA' & _ & _). rewrite HN. cbn [bind]. rewrite (at_purpose _ _ _ _ _ _ _ HA').
    inversion HQ as [|? ? Hy HQ']; subst. cbn [length] in Hf.
    destruct y as [q|p r]; cbn [item_purpose] in *; [congruence|].
    assert (Ht : it_type i' = r_type r) by apply (at_view _ _ _ _ _ _ _ HA').
    destruct p; try congruence; try (rewrite (IH fuel nf m len i' _ _ _ _ HA' HQ' ltac:(lia)); reflexivity).
    rewrite (IH fuel nf m len i' _ _ _ _ HA' HQ' ltac:(lia)). cbn [f_dom f_hash f_type f_edns existsb is_opt]. rewrite Ht.
    destruct (r_type r =? 41); [|reflexivity]. cbn [orb]. rewrite orb_true_r. reflexivity.
Qed.

(** ** The questions *)
(** The state after the questions: unchanged without any, else from the last. *)
Definition filled (g : message) (ty : Z) (s s' : fstate) (at_last : nat) : Prop :=
  exists ls w t, denotes 63 (enc_msg g) at_last ls w /\ before_nul (dotted ls) t /\ cstr (f_dom s') = map small t /\
    f_hash s' = bkdr (map small t) /\ f_type s' = ty /\ f_edns s' = f_edns s /\ length (f_dom s') = length (f_dom s).

Lemma read_question g o : (exists ls w, denotes 63 (enc_msg g) o ls w /\ (length (dotted ls) <= 255)%nat) ->
  exists f0 ls w t, denotes 63 (enc_msg g) o ls w /\ before_nul (dotted ls) t /\
    forall post nf b, (f0 <= nf)%nat -> length b = 256%nat ->
      exists r b', get_host_name nf (length (enc_msg g)) (enc_msg g ++ post) o b = Ret (Some r, Some b') /\ cstr b' = t /\ length b' = 256%nat.
Proof.
  intros (ls & w & HD & HL). destruct (get_host_name_complete 63 _ _ _ _ ltac:(lia) HD) as (f0 & HC).
  destruct (before_nul_ex (dotted ls)) as (t & Ht). exists f0, ls, w, t. split; [exact HD|]. split; [exact Ht|].
  intros post nf b Hf Hb. exists w, (dotted ls ++ 0 :: skipn (text_space ls) b). split; [|split; [now apply cstr_before|]].
  - unfold get_host_name. apply name_loop_app. apply (HC nf b Hf). unfold text_space. lia.
  - rewrite app_length. cbn [length]. rewrite skipn_length. unfold text_space. lia.
Qed.

(** The names can be read with [f0] steps. *)
Fixpoint seen (f0 : nat) (g : message) (o : nat) (qs : list question) : Prop :=
  match qs with
  | [] => True
  | q :: qs' => q_class q = 1 /\ (exists ls w t, denotes 63 (enc_msg g) o ls w /\ before_nul (dotted ls) t /\
      forall post nf b, (f0 <= nf)%nat -> length b = 256%nat ->
        exists r b', get_host_name nf (length (enc_msg g)) (enc_msg g ++ post) o b = Ret (Some r, Some b') /\ cstr b' = t /\ length b' = 256%nat) /\ seen f0 g (o + length (enc_q q)) qs'
  end.
Lemma seen_more f f' g qs : (f <= f')%nat -> forall o, seen f g o qs -> seen f' g o qs.
Proof.
  intros Hf. induction qs as [|q qs IH]; intros o H; [exact I|]. destruct H as (H1 & (ls & w & t & H2 & H3 & H4) & H5). split; [exact H1|]. split; [|apply IH, H5].
  exists ls, w, t. split; [exact H2|]. split; [exact H3|]. intros post nf b Hn. apply H4. lia.
Qed.
Lemma readable_seen g qs : forall o, readable g o qs -> exists f0, seen f0 g o qs.
Proof.
  induction qs as [|q qs IH]; intros o H; [exists 0%nat; exact I|]. destruct H as (H1 & H2 & H3). destruct (IH _ H3) as (f1 & S1). destruct (read_question g o H2) as (f2 & ls & w & t & H4 & H5 & H6).
  exists (Nat.max f1 f2). split; [exact H1|]. split; [|eapply seen_more; [|exact S1]; lia]. exists ls, w, t. split; [exact H4|]. split; [exact H5|]. intros post nf b Hn. apply H6. lia.
Qed.

Lemma fill_questions f0 g post ts ty m : m = enc_msg g ++ post -> rec_type m 12 = Ret ty ->
  forall qs q i i1 pre, iter_next m (Z.of_nat (length (enc_msg g))) i = Ret (Some (length pre), i1) ->
  at_item m (Z.of_nat (length (enc_msg g))) i1 pre (IQ q) (map IQ qs ++ ts) post -> seen f0 g (length pre) (q :: qs) ->
  forall nf fuel s, (f0 <= nf)%nat -> length (f_dom s) = 256%nat ->
  exists i' pre' x' s', fill_loop (S (length qs) + fuel) nf m (length (enc_msg g)) i s = fill_loop fuel nf m (length (enc_msg g)) i' s' /\
    at_item m (Z.of_nat (length (enc_msg g))) i' pre' x' ts post /\
    filled g ty s s' (length pre + length (concat (map enc_q (removelast (q :: qs))))).
Proof.
  intros Hm Hty. induction qs as [|q2 qs IH]; intros q i i1 pre HN HA1 HR.
  all: cbn [seen] in HR; destruct HR as (Hk & (ls & w & t & HD & Ht & HG) & HR).
  all: assert (Hstep : forall nf fuel s, (f0 <= nf)%nat -> length (f_dom s) = 256%nat ->
    exists s1, fill_loop (S fuel) nf m (length (enc_msg g)) i s = fill_loop fuel nf m (length (enc_msg g)) i1 s1 /\ filled g ty s s1 (length pre)).
  1,3: intros nf fuel s Hf Hs; cbn [fill_loop]; rewrite HN; cbn [bind]; rewrite (at_purpose _ _ _ _ _ _ _ HA1); cbn [item_purpose];
    destruct (at_view _ _ _ _ _ _ _ HA1) as [_ Hkl]; cbn [view_item v_class] in Hkl; rewrite Hkl, Hk; cbn [Z.eqb Pos.eqb negb];
    destruct (HG post nf (f_dom s) Hf Hs) as (r & b' & HE & HC & HL); rewrite <- Hm in HE; rewrite HE; cbn [bind fst snd]; rewrite Hty; cbn [bind];
    eexists; split; [reflexivity|]; exists ls, w, t; cbn [f_dom f_hash f_type f_edns]; rewrite cstr_lower, HC, lower_in_length, HL;
    repeat split; auto; try apply Ht.
  - intros nf fuel s Hf Hs. destruct (Hstep nf fuel s Hf Hs) as (s1 & HE & HF). exists i1. eexists. exists (IQ q), s1.
    cbn [length Nat.add removelast map concat]. rewrite Nat.add_0_r. split; [exact HE|]. split; [exact HA1|exact HF].
  - cbn [map app] in HA1. destruct (at_next _ _ _ _ _ _ _ _ HA1) as (i2 & HN2 & HA2 & _ & _).
    pose proof (IH q2 i1 i2 _ HN2 HA2) as IH'. rewrite app_length in IH'. specialize (IH' HR).
    intros nf fuel s Hf Hs.
    destruct (Hstep nf (S (length qs) + fuel)%nat s ltac:(lia) Hs) as (s1 & HE & (ls1 & w1 & t1 & _ & _ & _ & _ & _ & Hed & HL1)).
    destruct (IH' nf fuel s1 ltac:(lia) ltac:(congruence)) as (i3 & pre2 & x2 & s2 & HE2 & HA3 & (ls2 & w2 & t2 & A1 & A2 & A3 & A4 & A5 & A6 & A7)).
    exists i3, pre2, x2, s2. split; [etransitivity; [exact HE|exact HE2]|]. split; [exact HA3|].
    exists ls2, w2, t2. change (removelast (q :: q2 :: qs)) with (q :: removelast (q2 :: qs)). cbn [map concat].
    rewrite app_length, Nat.add_assoc. cbn [enc_item] in A1. repeat split; auto; try apply A2; congruence.
Qed.

Lemma items_split g : items_of g = map IQ (m_qs g) ++ skipn (length (m_qs g)) (items_of g).
Proof. unfold items_of. rewrite skipn_app, map_length, Nat.sub_diag, skipn_all2 by (rewrite map_length; lia). reflexivity. Qed.
Lemma items_rest g : skipn (length (m_qs g)) (items_of g) = map (IR P_answer) (m_an g) ++ map (IR P_nameserver) (m_ns g) ++ map (IR P_additional) (m_ar g).
Proof. unfold items_of. rewrite skipn_app, map_length, Nat.sub_diag, skipn_all2 by (rewrite map_length; lia). reflexivity. Qed.
Lemma opt_offers g : existsb is_opt (skipn (length (m_qs g)) (items_of g)) = true <-> offers_edns g.
Proof.
  rewrite items_rest, existsb_exists. unfold offers_edns. split.
  - intros (x & HI & Hx). rewrite !in_app_iff, !in_map_iff in HI. destruct HI as [(r & <- & _)|[(r & <- & _)|(r & <- & Hr)]]; try discriminate.
    exists r. split; [exact Hr|]. cbn [is_opt] in Hx. lia.
  - intros (r & HI & Hr). exists (IR P_additional r). rewrite !in_app_iff. split; [right; right; now apply in_map|]. cbn [is_opt]. lia.
Qed.

(** The type of the first question, as DNSGetRecordType reads it. *)
Lemma first_type g post q qs : good_msg g -> m_qs g = q :: qs -> rec_type (enc_msg g ++ post) 12 = Ret (q_type q).
Proof.
  intros Hg Hq. pose proof (good_items g Hg) as HG. rewrite items_split, Hq in HG. cbn [map app] in HG. inversion HG as [|? ? HGq _]; subst.
  rewrite <- (header_length g ltac:(apply Hg)). pose proof (items_split g) as HS. rewrite Hq in HS at 1. cbn [map app] in HS.
  destruct (item_fields (enc_msg g ++ post) (header g) (IQ q) (concat (map enc_item (map IQ qs ++ skipn (length (m_qs g)) (items_of g))) ++ post) HGq) as (HT & _).
  { rewrite enc_msg_items. rewrite HS at 1. cbn [map app concat]. rewrite <- !app_assoc. reflexivity. }
  exact HT.
Qed.

Lemma fill_accept g : acceptable g ->
  exists f0, forall post fuel nf i0 s, Forall is_byte post -> (f0 <= fuel)%nat -> (f0 <= nf)%nat -> length (f_dom s) = 256%nat ->
    iter_init (enc_msg g ++ post) P_unknown 0 0 0 = Ret i0 ->
    exists s' q qs, m_qs g = q :: qs /\ fill_loop fuel nf (enc_msg g ++ post) (length (enc_msg g)) i0 s = Ret (0, s') /\
      (exists s1, filled g (q_type q) s s1 (last_question_at g) /\ f_dom s' = f_dom s1 /\ f_hash s' = f_hash s1 /\ f_type s' = f_type s1 /\
       f_edns s' = (f_edns s1 || existsb is_opt (skipn (length (m_qs g)) (items_of g)))%bool).
Proof.
  intros (Hg & Hne & HR). destruct (m_qs g) as [|q qs] eqn:Hq; [congruence|].
  destruct (readable_seen g _ _ HR) as (f0 & HSe). set (rest := skipn (length (m_qs g)) (items_of g)) in *.
  exists (f0 + S (length qs) + S (length rest))%nat. intros post fuel nf i0 s Hp Hf Hnf Hs HI0.
  destruct (iter_init_start g post P_unknown 0 0 0 Hg Hp ltac:(congruence)) as (i & HI & HS).
  destruct (at_first g post i (Z.of_nat (length (enc_msg g))) (IQ q) (map IQ qs ++ skipn (length (m_qs g)) (items_of g)) Hg HS ltac:(lia)) as (i1 & HN & HA & _).
  { rewrite items_split at 1. rewrite Hq. reflexivity. }
  assert (H12 : length (header g) = 12%nat) by (apply header_length; apply Hg).
  destruct (fill_questions f0 g post (skipn (length (m_qs g)) (items_of g)) (q_type q) _ eq_refl (first_type g post q qs Hg Hq) qs q i i1 (header g)) with (nf := nf) (fuel := (fuel - S (length qs))%nat) (s := s) as (i' & pre' & x' & s1 & HE & HA' & HD).
  { rewrite H12. exact HN. } { exact HA. } { rewrite H12. exact HSe. } { lia. } { exact Hs. }
  rewrite HI in HI0. injection HI0 as <-.
  replace (S (length qs) + (fuel - S (length qs)))%nat with fuel in HE by lia. rewrite HE.
  rewrite (fill_rest rest _ nf _ _ _ _ _ _ s1 HA'); [|subst rest; rewrite items_rest|lia].
  2:{ rewrite !Forall_app, !Forall_map. repeat split; apply Forall_forall; intros; discriminate. }
  eexists _, q, qs. split; [reflexivity|]. split; [reflexivity|]. exists s1. cbn [f_dom f_hash f_type f_edns]. rewrite H12 in HD.
  split; [unfold last_question_at; rewrite Hq; exact HD|]. split; [reflexivity|]. split; [reflexivity|]. split; [reflexivity|].
  unfold rest. rewrite Hq. reflexivity.
Qed.

Lemma parser_init_some len : (12 <= len)%nat -> exists x, parser_init len false = Some x.
Proof. intros H. unfold parser_init. destruct (Nat.ltb_spec len 12); [lia|]. eexists; reflexivity. Qed.

Lemma ih_fill_accept g : acceptable g ->
  exists f0, forall post fuel nf h dom rethdr back sock agent, Forall is_byte post -> (f0 <= fuel)%nat -> (f0 <= nf)%nat -> length dom = 256%nat ->
    exists name type edns dom', asked g name type /\ (edns = true <-> offers_edns g) /\ cstr dom' = name /\ length dom' = 256%nat /\
    ih_fill fuel nf h dom rethdr (enc_msg g ++ post) (length (enc_msg g)) back sock agent =
      Ret (0, mk_ih None false (h_time h) back sock name (bkdr name) type rethdr edns (Z.of_nat (length (enc_msg g)))
               (match agent with Some a => firstn 47 a | None => [] end), dom').
Proof.
  intros Ha. destruct (fill_accept g Ha) as (f0 & HF). exists f0. intros post fuel nf h dom rethdr back sock agent Hp Hf Hnf Hd.
  assert (Hlen : (12 <= length (enc_msg g))%nat).
  { rewrite enc_msg_items, app_length, header_length by apply Ha. lia. }
  destruct (iter_init_start g post P_unknown 0 0 0 ltac:(apply Ha) Hp ltac:(apply Ha)) as (i & HI & _).
  destruct (HF post fuel nf i (mk_fs dom (h_hash h) (h_type h) false) Hp Hf Hnf Hd HI) as (s' & q & qs & Hq & HE & s1 & (ls & w & t & A1 & A2 & A3 & A4 & A5 & A6 & A7) & E1 & E2 & E3 & E4).
  exists (map small t), (q_type q), (f_edns s'), (f_dom s').
  split; [exists ls, w, t, q, qs; auto|]. split; [rewrite E4, A6; cbn [f_edns orb]; apply opt_offers|]. split; [congruence|]. split; [rewrite E1, A7; exact Hd|].
  unfold ih_fill. destruct (parser_init_some _ Hlen) as (x & ->). rewrite HI. cbn [bind]. rewrite HE. cbn [bind Z.eqb].
  rewrite E1, E2, E3, A3, A4, A5. reflexivity.
Qed.

(** ** Any packet *)
Lemma name_loop_mono : forall fuel hb dlen m pos buf bi ll rd r, name_loop fuel hb dlen m pos buf bi ll rd = Ret r ->
  forall fuel', (fuel <= fuel')%nat -> name_loop fuel' hb dlen m pos buf bi ll rd = Ret r.
Proof.
  induction fuel as [|fuel IH]; intros hb dlen m pos buf bi ll rd r H fuel' Hf; [discriminate|]. destruct fuel' as [|fuel']; [lia|].
  assert (Hf' : (fuel <= fuel')%nat) by lia. cbn [name_loop] in *. destruct (rd8 m pos) as [c| | |]; try discriminate. cbn [bind] in *.
  destruct (c =? 0); [exact H|]. destruct (is_ptr c).
  - destruct buf as [b|]; [|exact H]. destruct (label_ptr m pos) as [p| | |]; try discriminate. cbn [bind] in *.
    destruct (Nat.ltb dlen p); [exact H|]. destruct hb; [|discriminate]. eapply IH; eauto.
  - destruct (hb && Nat.ltb dlen (pos + Z.to_nat c))%bool; [exact H|]. destruct buf as [b|]; [|eapply IH; eauto].
    destruct (name_copy m pos (Z.to_nat c) b bi) as [[e|b']| | |]; try discriminate; cbn [bind] in *; [exact H|]. eapply IH; eauto.
Qed.
Lemma fill_loop_mono : forall fuel nf m len i s r, fill_loop fuel nf m len i s = Ret r ->
  forall fuel' nf', (fuel <= fuel')%nat -> (nf <= nf')%nat -> fill_loop fuel' nf' m len i s = Ret r.
Proof.
  induction fuel as [|fuel IH]; intros nf m len i s r H fuel' nf' Hf Hnf; [discriminate|]. destruct fuel' as [|fuel']; [lia|].
  assert (Hf' : (fuel <= fuel')%nat) by lia. cbn [fill_loop] in *. destruct (iter_next m (Z.of_nat len) i) as [[[pos|] i']| | |]; try discriminate; cbn [bind] in *.
  2: exact H.
  destruct (it_purpose i'); try (eapply IH; eauto; fail).
  destruct (negb (it_klass i' =? 1)); [exact H|]. destruct (get_host_name nf len m pos (f_dom s)) as [n| | |] eqn:EN; try discriminate.
  unfold get_host_name in *. rewrite (name_loop_mono _ _ _ _ _ _ _ _ _ _ EN _ Hnf). cbn [bind] in *. destruct (fst n); [|exact H].
  destruct (rec_type m 12) as [ty| | |]; try discriminate. cbn [bind] in *. eapply IH; eauto.
Qed.
Lemma ih_fill_mono fuel nf h dom rethdr m len back sock agent r : ih_fill fuel nf h dom rethdr m len back sock agent = Ret r ->
  forall fuel' nf', (fuel <= fuel')%nat -> (nf <= nf')%nat -> ih_fill fuel' nf' h dom rethdr m len back sock agent = Ret r.
Proof.
  unfold ih_fill. intros H fuel' nf' Hf Hnf. destruct (parser_init len false); [|exact H]. destruct (iter_init m P_unknown 0 0 0) as [i| | |]; try discriminate.
  cbn [bind] in *. destruct (fill_loop fuel nf m len i _) as [x| | |] eqn:E; try discriminate. rewrite (fill_loop_mono _ _ _ _ _ _ _ E _ _ Hf Hnf). exact H.
Qed.
Lemma get_host_name_len nf len m pos b n : get_host_name nf len m pos b = Ret n ->
  length (match snd n with Some b' => b' | None => b end) = length b.
Proof.
  unfold get_host_name. intros H. pose proof (name_loop_safe nf true len m pos b 0 0 false ltac:(lia)) as HS. rewrite H in HS. destruct n as [r ob].
  destruct HS as (b' & -> & HL & _). exact HL.
Qed.
Lemma fill_loop_len : forall fuel nf m len i s c s', fill_loop fuel nf m len i s = Ret (c, s') ->
  length (f_dom s') = length (f_dom s) /\ (c = 0 \/ c = -48 \/ c = -46).
Proof.
  induction fuel as [|fuel IH]; intros nf m len i s c s' H; [discriminate|]. cbn [fill_loop] in H.
  destruct (iter_next m (Z.of_nat len) i) as [[[pos|] i']| | |]; try discriminate; cbn [bind] in *.
  2:{ injection H as <- <-. auto. }
  destruct (it_purpose i'); try (apply IH in H; exact H).
  destruct (negb (it_klass i' =? 1)); [injection H as <- <-; auto|]. destruct (get_host_name nf len m pos (f_dom s)) as [n| | |] eqn:EN; try discriminate.
  apply get_host_name_len in EN. cbn [bind] in *. destruct (fst n) eqn:EF.
  - destruct (rec_type m 12) as [ty| | |]; try discriminate. cbn [bind] in *. apply IH in H. cbn [f_dom] in H. rewrite lower_in_length in H. destruct H; split; [congruence|auto].
  - injection H as <- <-. cbn [f_dom]. auto.
Qed.
Lemma ih_fill_any fuel nf h dom rethdr m len back sock agent c h' dom' : ih_fill fuel nf h dom rethdr m len back sock agent = Ret (c, h', dom') ->
  length dom' = length dom /\ h_parent h' = None /\ h_reqtcp h' = false /\ h_time h' = h_time h /\
  (c = -31 <-> (len < 12)%nat) /\ (c = 0 \/ c = -31 \/ c = -46 \/ c = -48) /\
  (c = 0 -> h_back h' = back /\ h_sock h' = sock /\ h_len h' = Z.of_nat len /\ h_rethdr h' = rethdr /\
            h_agent h' = match agent with Some a => firstn 47 a | None => [] end) /\
  (c <> 0 -> h_back h' = h_back h /\ h_sock h' = h_sock h /\ h_len h' = h_len h /\ h_rethdr h' = h_rethdr h /\ h_agent h' = h_agent h).
Proof.
  unfold ih_fill, parser_init. intros H. destruct (Nat.ltb_spec len 12) as [HL|HL].
  - injection H as <- <- <-. cbn. repeat split; auto; intros; try lia; discriminate.
  - destruct (iter_init m P_unknown 0 0 0) as [i| | |]; try discriminate. cbn [bind] in *.
    destruct (fill_loop fuel nf m len i _) as [[c0 s]| | |] eqn:E; try discriminate. cbn [bind] in H. destruct (fill_loop_len _ _ _ _ _ _ _ _ E) as [HLn HC].
    cbn [f_dom] in HLn. destruct (c0 =? 0) eqn:E0; apply (f_equal (fun o => match o with Ret x => x | _ => (c, h', dom') end)) in H; rewrite !pair_equal_spec in H;
      destruct H as [[<- <-] <-]; cbn [h_parent h_reqtcp h_time h_back h_sock h_len h_rethdr h_agent]; repeat split; auto; try lia; intuition lia.
Qed.

Lemma readable_first_class g : good_msg g -> forall q qs post, m_qs g = q :: qs -> q_class q <> 1 -> Forall is_byte post ->
  forall fuel nf h dom rethdr back sock agent, (0 < fuel)%nat ->
  exists h' dom', ih_fill fuel nf h dom rethdr (enc_msg g ++ post) (length (enc_msg g)) back sock agent = Ret (-48, h', dom') /\ dom' = dom.
Proof.
  intros Hg q qs post Hq Hk Hp fuel nf h dom rethdr back sock agent Hf.
  destruct (iter_init_start g post P_unknown 0 0 0 Hg Hp ltac:(congruence)) as (i & HI & HS).
  destruct (at_first g post i (Z.of_nat (length (enc_msg g))) (IQ q) (map IQ qs ++ skipn (length (m_qs g)) (items_of g)) Hg HS ltac:(lia)) as (i1 & HN & HA & _).
  { rewrite items_split at 1. rewrite Hq. reflexivity. }
  unfold ih_fill. destruct (parser_init_some (length (enc_msg g))) as (x & ->).
  { rewrite enc_msg_items, app_length, header_length by apply Hg. lia. }
  rewrite HI. cbn [bind]. destruct fuel as [|fuel]; [lia|]. cbn [fill_loop]. rewrite HN. cbn [bind]. rewrite (at_purpose _ _ _ _ _ _ _ HA). cbn [item_purpose].
  destruct (at_view _ _ _ _ _ _ _ HA) as [_ Hkl]. cbn [view_item v_class] in Hkl. rewrite Hkl. destruct (q_class q =? 1) eqn:E; [lia|]. cbn [negb bind Z.eqb f_dom].
  eexists _, _. split; reflexivity.
Qed.

(** ** The front end's loop *)
Lemma Forall_first {A} (P : A -> Prop) n l : Forall P l -> Forall P (firstn n l).
Proof. intros H. rewrite <- (firstn_skipn n l) in H. apply Forall_app in H. apply H. Qed.
Lemma Forall_skip {A} (P : A -> Prop) n l : Forall P l -> Forall P (skipn n l).
Proof. intros H. rewrite <- (firstn_skipn n l) in H. apply Forall_app in H. apply H. Qed.
Lemma recv_mem n b d : ubuf_ok n b -> Forall is_byte (d_bytes d) ->
  let bytes := firstn (length (u_mem b)) (d_bytes d) in
  length (bytes ++ skipn (length bytes) (u_mem b)) = n /\ Forall is_byte (bytes ++ skipn (length bytes) (u_mem b)).
Proof.
  intros (_ & HL & HB) Hd bytes. subst bytes. split.
  - rewrite app_length, skipn_length, firstn_length. lia.
  - apply Forall_app. split; [now apply Forall_first|now apply Forall_skip].
Qed.

Lemma turn_keeps leave n fuel nf b d x b' : (forall b, ubuf_ok n b -> ubuf_ok n (leave b)) -> ubuf_ok n b ->
  (forall e, d = Some e -> Forall is_byte (d_bytes e)) -> udp_turn leave fuel nf b d = Ret (x, b') -> ubuf_ok n b'.
Proof.
  intros Hl Hb Hd H. destruct d as [d|]; cbn [udp_turn] in H; [|injection H as <- <-; exact Hb].
  destruct (recv_mem n b d Hb (Hd _ eq_refl)) as [HL HB].
  destruct (ih_fill fuel nf (u_h b) (u_dom b) false _ _ _ _ _) as [[[c h] dom]| | |] eqn:E; try discriminate. cbn [bind] in H.
  apply ih_fill_any in E. injection H as <- <-. apply Hl. split; [|split]; cbn [u_dom u_mem]; [|exact HL|exact HB].
  destruct E as [-> _]. apply Hb.
Qed.
Lemma turns_nth leave n fuel nf : (forall b, ubuf_ok n b -> ubuf_ok n (leave b)) -> forall ds b rs, ubuf_ok n b ->
  (forall e, In (Some e) ds -> Forall is_byte (d_bytes e)) -> udp_turns leave fuel nf b ds = Ret rs ->
  length rs = length ds /\ forall k d, nth_error ds k = Some d ->
    exists b1 x b2, ubuf_ok n b1 /\ udp_turn leave fuel nf b1 d = Ret (x, b2) /\ nth_error rs k = Some x.
Proof.
  intros Hl. induction ds as [|d ds IH]; intros b rs Hb Hd H; cbn [udp_turns] in H.
  - injection H as <-. split; [reflexivity|]. intros [|k] d E; discriminate.
  - destruct (udp_turn leave fuel nf b d) as [[x b2]| | |] eqn:E; try discriminate. cbn [bind fst snd] in H.
    destruct (udp_turns leave fuel nf b2 ds) as [rs'| | |] eqn:E2; try discriminate. cbn [bind] in H. injection H as <-.
    assert (Hb2 : ubuf_ok n b2) by (eapply turn_keeps; eauto; intros e ->; apply Hd; now left).
    destruct (IH b2 rs' Hb2 ltac:(intros e He; apply Hd; now right) E2) as [HL HN]. split; [cbn; lia|].
    intros [|k] d' Hk; cbn [nth_error] in Hk; [injection Hk as <-; exists b, x, b2; auto|]. apply HN, Hk.
Qed.
