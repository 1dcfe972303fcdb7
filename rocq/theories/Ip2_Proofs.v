From Verif Require Import Base BaseFacts ListFacts List2Facts Hash_Model Ttl_Model Ttl_Spec Ttl_Proofs Addr_Model Addr_Spec Addr_Proofs Addr2_Proofs Addr_Props Bst_Model Bst_Proofs Parser_Model Parser_Spec Ip_Model Ip_Spec Ip_Proofs.
Require Import ZifyBool ZifyNat Permutation.

(** * The comparison of elements *)
Definition eip (e : ipelem) : ipaddr := set_ip (el_set e).
Definition eff (e : ipelem) : list Z := skipn (if bit_length (eip e) =? 32 then 12 else 0) (ip_bytes (eip e)).
Definition ebits (e : ipelem) : Z := set_bits (el_set e).
Record wf (e : ipelem) : Prop := {
  wf_valid : is_valid (eip e) = true;
  wf_len : length (ip_bytes (eip e)) = 16%nat;
  wf_bytes : Forall is_byte (ip_bytes (eip e));
  wf_bits : 0 <= ebits e <= bit_length (eip e) }.
Lemma wf_width e : wf e -> width (eff e) = bit_length (eip e) /\ address (eff e).
Proof.
  intros [Hv Hl Hb _]. unfold eff, width, address. rewrite skipn_length, Hl. assert (HB : Forall is_byte (skipn (if bit_length (eip e) =? 32 then 12%nat else 0%nat) (ip_bytes (eip e)))) by (apply bytes_skipn, Hb).
  unfold is_valid, bit_length in *. destruct (ip_zone (eip e)); try discriminate; cbn; auto.
Qed.
Lemma contain_ok n e : wf n -> wf e -> contain n e =
  if negb (bit_length (eip n) =? bit_length (eip e)) then bit_length (eip n) - bit_length (eip e)
  else let d := Z.sgn (top (eff n) (ebits e) - top (eff e) (ebits e)) in
       if d =? 0 then if ebits n <? ebits e mod 32 then 1
                      else if has_zone (eip e) then if has_zone (eip n) then match ip_zone (eip n), ip_zone (eip e) with Zone x, Zone y => mem_cmp x y | _, _ => 0 end else 1
                      else 0
       else d.
Proof.
  intros Wn We. destruct (wf_width n Wn) as (Hwn & (An & Bn)). destruct (wf_width e We) as (Hwe & (Ae & Be)). unfold contain. fold (eip n) (eip e). rewrite (wf_valid e We). cbn [negb].
  destruct (Z.eqb_spec (bit_length (eip n)) (bit_length (eip e))) as [Eb|Nb]; [|reflexivity]. cbn [negb].
  assert (En : skipn (if bit_length (eip e) =? 32 then 12 else 0) (ip_bytes (eip n)) = eff n) by (unfold eff; rewrite Eb; reflexivity).
  fold (eff e). rewrite En. fold (ebits e) (ebits n).
  assert (Ll : length (eff n) = length (eff e)) by (unfold width in *; lia).
  assert (Hk : exists k, length (eff n) = (4 * k)%nat /\ length (eff e) = (4 * k)%nat /\ (k < 5)%nat).
  { destruct An as [An|An]; [exists 1%nat|exists 4%nat]; lia. }
  destruct Hk as (k & L1 & L2 & Hk). pose proof (wf_bits e We) as Hbits.
  pose proof (cmp_words_ok k 5 (eff n) (eff e) (ebits e) L1 L2 Bn Be ltac:(rewrite Hwn; lia) Hk) as H.
  destruct (cmp_words 5 (eff n) (eff e) (ebits e)) as [r|((a', b'), p')].
  - destruct H as (-> & Hr). cbv zeta. destruct (Z.eqb_spec (Z.sgn (top (eff n) (ebits e) - top (eff e) (ebits e))) 0); [contradiction|reflexivity].
  - destruct H as (-> & ->). reflexivity.
Qed.

(** The key of a lookup. *)
Definition keyof (a : list Z) : ipelem := if Nat.eqb (length a) 4 then mk_elem (mk_set (from4 a) 32) 0 None else mk_elem (mk_set (from6 a) 128) 0 None.
Lemma key_facts a : address a -> wf (keyof a) /\ eff (keyof a) = a /\ ebits (keyof a) = width a /\ has_zone (eip (keyof a)) = false /\ bit_length (eip (keyof a)) = width a.
Proof.
  intros ([L|L] & HB); unfold keyof; rewrite L; cbn [Nat.eqb].
  - split; [constructor; cbn -[app]|]; try reflexivity.
    + unfold prefix4. rewrite !app_length, repeat_length, L. reflexivity.
    + apply Forall_app. split; [|exact HB]. unfold prefix4, is_byte. repeat constructor; lia.
    + unfold ebits; cbn. lia.
    + unfold width. rewrite L. repeat split; reflexivity.
  - split; [constructor; cbn|]; try reflexivity; try assumption.
    + unfold ebits; cbn. lia.
    + unfold width. rewrite L. repeat split; reflexivity.
Qed.
(** Being found. *)
Definition ecovers (e : ipelem) (a : list Z) : Prop := has_zone (eip e) = false /\ length a = length (eff e) /\ top a (ebits e) = top (eff e) (ebits e).
Lemma contain_key e a : wf e -> address a -> (contain (keyof a) e = 0 <-> ecovers e a).
Proof.
  intros We Ha. destruct (key_facts a Ha) as (Wk & K1 & K2 & K3 & K4). destruct (wf_width e We) as (Hwe & (Ae & _)). rewrite (contain_ok _ _ Wk We), K1, K2, K3, K4. unfold ecovers.
  assert (Hlen : width a = bit_length (eip e) <-> length a = length (eff e)) by (rewrite <- Hwe; unfold width; lia).
  assert (Hm : (width a <? ebits e mod 32) = false) by (pose proof (Z.mod_pos_bound (ebits e) 32 ltac:(lia)); destruct Ha as ([L|L] & _); unfold width; lia).
  destruct (Z.eqb_spec (width a) (bit_length (eip e))) as [E|N]; cbn [negb].
  - cbv zeta. rewrite Hm. destruct (Z.eqb_spec (Z.sgn (top a (ebits e) - top (eff e) (ebits e))) 0) as [E0|N0].
    + destruct (has_zone (eip e)); [|intuition lia]. split; [discriminate|intros (X & _); discriminate].
    + split; [intros; contradiction|]. intros (_ & _ & X). rewrite X, Z.sub_diag in N0. contradiction.
  - split; [lia|]. intros (_ & X & _). apply Hlen in X. contradiction.
Qed.

(** * Trees built by additions *)
Section Tree.
Context {D : Type} (cmp : D -> D -> Z).
Inductive built : list D -> @tree D -> Prop :=
| bu_nil : built [] Leaf
| bu_add l t d a : built l t -> built (l ++ [d]) (ins cmp d a t).
Lemma built_elems l t : built l t -> Permutation (map snd (elems t)) l.
Proof.
  induction 1 as [|l t d a H IH]; [constructor|]. rewrite (Permutation_map snd (ins_elems cmp d a t)). cbn [map snd]. rewrite IH. apply Permutation_cons_append.
Qed.
Lemma srch_keep k d a' t a : srch cmp k t = Some a -> srch cmp k (ins cmp d a' t) = Some a.
Proof.
  induction t as [|l IHl x dx r IHr]; cbn [srch ins]; intros H; [discriminate|]. destruct (cmp d dx <=? 0); cbn [srch]; destruct (cmp k dx =? 0); auto; destruct (cmp k dx <? 0); auto.
Qed.
Lemma srch_here k y a t : cmp k y = 0 -> (forall x, In x (elems t) -> cmp k (snd x) <> 0 /\ (cmp y (snd x) <= 0 <-> cmp k (snd x) < 0)) -> srch cmp k (ins cmp y a t) = Some a.
Proof.
  intros H0. induction t as [|l IHl x dx r IHr]; intros H.
  - cbn [srch ins]. rewrite H0. reflexivity.
  - cbn [ins]. destruct (H (x, dx)) as (H1 & H2); [cbn [elems]; apply in_app_iff; right; left; reflexivity|]. cbn [snd] in *.
    destruct (Z.leb_spec (cmp y dx) 0) as [Hy|Hy]; cbn [srch]; (destruct (Z.eqb_spec (cmp k dx) 0); [contradiction|]); destruct (Z.ltb_spec (cmp k dx) 0); try lia.
    + apply IHl. intros z Hz. apply H. cbn [elems]. apply in_app_iff. left. exact Hz.
    + apply IHr. intros z Hz. apply H. cbn [elems]. apply in_app_iff. right. right. exact Hz.
Qed.
Lemma built_found l t k y : built l t -> forall l1 l2, l = l1 ++ y :: l2 -> cmp k y = 0 -> (forall n, In n l1 -> cmp k n <> 0 /\ (cmp y n <= 0 <-> cmp k n < 0)) ->
  exists a, srch cmp k t = Some a /\ In (a, y) (elems t).
Proof.
  induction 1 as [|l t d a H IH]; intros l1 l2 E H0 H1; [destruct l1; discriminate|].
  destruct l2 as [|z l2 _] using rev_ind.
  - apply app_inj_tail in E. destruct E as (-> & ->). exists a. split.
    + apply srch_here; [exact H0|]. intros x Hx. apply H1. apply (Permutation_in _ (built_elems _ _ H)). apply in_map, Hx.
    + apply (Permutation_in _ (Permutation_sym (ins_elems cmp y a t))). left. reflexivity.
  - rewrite app_comm_cons, app_assoc in E. apply app_inj_tail in E. destruct E as (-> & ->). destruct (IH l1 l2 eq_refl H0 H1) as (x & E1 & E2). exists x. split; [apply srch_keep, E1|].
    apply (Permutation_in _ (Permutation_sym (ins_elems cmp z a t))). right. exact E2.
Qed.
Lemma built_none l t k : built l t -> (forall n, In n l -> cmp k n <> 0) -> srch cmp k t = None.
Proof.
  intros H Hn. destruct (srch cmp k t) as [a|] eqn:E; [|reflexivity]. destruct (srch_sound cmp k t a E) as (d & H1 & H2). exfalso. apply (Hn d); [|exact H2].
  apply (Permutation_in _ (built_elems _ _ H)). change d with (snd (a, d)). apply in_map, H1.
Qed.
Lemma built_sound l t k a : built l t -> srch cmp k t = Some a -> exists d, In d l /\ cmp k d = 0 /\ In (a, d) (elems t).
Proof.
  intros H E. destruct (srch_sound cmp k t a E) as (d & H1 & H2). exists d. split; [|auto]. apply (Permutation_in _ (built_elems _ _ H)). change d with (snd (a, d)). apply in_map, H1.
Qed.
End Tree.

(** A table holding the elements [l] in this order of addition. *)
Definition holds (b : bst ipelem) (l : list ipelem) : Prop := exists t fl, binv b t fl /\ built contain l t.
Lemma holds_init : holds bst_init [].
Proof. exists Leaf, []. split; [apply binv_init|constructor]. Qed.
Lemma holds_add b l e : holds b l -> exists a b', bst_add contain b e = Ret (a, b') /\ holds b' (l ++ [e]).
Proof.
  intros (t & fl & HB & Hb). destruct (bst_add_ok contain b t fl e HB) as (a & b' & fl' & E & _ & HB'). exists a, b'. split; [exact E|]. exists (ins contain e a t), fl'. split; [exact HB'|constructor; exact Hb].
Qed.
(** What a search returns. *)
Definition fetch (b : bst ipelem) (k : ipelem) : outcome (option ipelem) :=
  let! r := bst_search contain b k None in
  match r with None => Ret None | Some a => let! n := deref b a in Ret (Some (n_data n)) end.
Lemma fetch_found b l l1 y l2 k : holds b l -> l = l1 ++ y :: l2 -> contain k y = 0 -> (forall n, In n l1 -> contain k n <> 0 /\ (contain y n <= 0 <-> contain k n < 0)) -> fetch b k = Ret (Some y).
Proof.
  intros (t & fl & HB & Hb) E H0 H1. unfold fetch. rewrite (bst_search_ok contain b t fl k HB). cbn [bind]. destruct (built_found contain l t k y Hb l1 l2 E H0 H1) as (a & -> & Hi).
  destruct (binv_deref b t fl a y HB Hi) as (n & En & Ed). unfold deref. rewrite En. cbn [bind]. rewrite Ed. reflexivity.
Qed.
Lemma fetch_none b l k : holds b l -> (forall n, In n l -> contain k n <> 0) -> fetch b k = Ret None.
Proof. intros (t & fl & HB & Hb) H. unfold fetch. rewrite (bst_search_ok contain b t fl k HB). cbn [bind]. rewrite (built_none contain l t k Hb H). reflexivity. Qed.
Lemma fetch_sound b l k : holds b l -> exists o, fetch b k = Ret o /\ forall y, o = Some y -> In y l /\ contain k y = 0.
Proof.
  intros (t & fl & HB & Hb). unfold fetch. rewrite (bst_search_ok contain b t fl k HB). cbn [bind]. destruct (srch contain k t) as [a|] eqn:E; [|exists None; split; [reflexivity|discriminate]].
  destruct (built_sound contain l t k a Hb E) as (d & H1 & H2 & H3). destruct (binv_deref b t fl a d HB H3) as (n & En & Ed). unfold deref. rewrite En. cbn [bind]. rewrite Ed.
  exists (Some d). split; [reflexivity|]. intros y Hy. injection Hy as <-. auto.
Qed.
Definition seen (e : ipelem) : Z * option (list Z) := (el_type e, el_data e).
Lemma find_fetch c a : address a -> ipchunk_find c a = let! r := fetch (ic_addr c) (keyof a) in match r with Some e => Ret (Some (seen e)) | None => let! r2 := fetch (ic_cidr c) (keyof a) in Ret (option_map seen r2) end.
Proof.
  intros (L & _). unfold ipchunk_find, fetch, keyof. destruct L as [->| ->]; cbn [Nat.eqb].
  - destruct (bst_search contain (ic_addr c) _ None) as [[x|]| | |]; cbn [bind]; try reflexivity.
    + destruct (deref (ic_addr c) x); reflexivity.
    + destruct (bst_search contain (ic_cidr c) _ None) as [[x|]| | |]; cbn [bind]; try reflexivity. destruct (deref (ic_cidr c) x); reflexivity.
  - destruct (bst_search contain (ic_addr c) _ None) as [[x|]| | |]; cbn [bind]; try reflexivity.
    + destruct (deref (ic_addr c) x); reflexivity.
    + destruct (bst_search contain (ic_cidr c) _ None) as [[x|]| | |]; cbn [bind]; try reflexivity. destruct (deref (ic_cidr c) x); reflexivity.
Qed.
