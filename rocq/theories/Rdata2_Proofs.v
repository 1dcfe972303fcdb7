From Coq Require Import String.
From Verif Require Import Base BaseFacts List2Facts Name_Model Name_Spec Name_Proofs Gen_Model Slist_Model Addr_Model Cht_Model Cache_Model Cache_Spec Parser_Model Parser_Spec Parser_Proofs Parser_Walk Iheader_Spec Iheader_Proofs Rdata_Model Rdata_Spec Rdata_Proofs.
Require Import ZifyBool ZifyNat.

(** * Reading a name of a well-formed message *)
Lemma name_text_read g post o t : name_text g o t -> exists f0, forall nf b, (f0 <= nf)%nat -> (254 <= length b)%nat ->
  exists r b', get_host_name nf (length (enc_msg g)) (enc_msg g ++ post) o b = Ret (Some r, Some b') /\ cstr b' = t /\ length b' = length b.
Proof.
  intros (ls & w & HD & HL & Ht). destruct (get_host_name_complete 63 _ _ _ _ ltac:(lia) HD) as (f0 & HC). exists f0. intros nf b Hf Hb.
  exists w, (dotted ls ++ 0 :: skipn (text_space ls) b). split; [|split; [now apply cstr_before|]].
  - unfold get_host_name. apply name_loop_app. apply (HC nf b Hf). unfold text_space. lia.
  - rewrite app_length. cbn [length]. rewrite skipn_length. unfold text_space. lia.
Qed.
Lemma name_text_len g o t : name_text g o t -> (length t <= 253)%nat /\ ~ In 0 t.
Proof. intros (ls & w & _ & HL & Hn & [E|(r & E)]); (split; [|exact Hn]); rewrite E in HL; [lia|]. rewrite app_length in HL. lia. Qed.
Lemma name_field g post o t host : name_text g o t -> length host = 254%nat -> exists f0, forall nf, (f0 <= nf)%nat ->
  exists used, field_text nf (enc_msg g ++ post) (length (enc_msg g)) host FName o = Ret (Some (t, used)).
Proof.
  intros H Hh. destruct (name_text_read g post o t H) as (f0 & HC). exists f0. intros nf Hf. destruct (HC nf host Hf ltac:(lia)) as (r & b' & E & Ec & _). exists (Z.of_nat r). unfold field_text. rewrite E. cbn [bind]. rewrite Ec. reflexivity.
Qed.
Lemma hex_loop_len fuel : forall v, (length (hex_loop fuel v) <= fuel)%nat.
Proof. induction fuel as [|fuel IH]; intros v; cbn [hex_loop]; [reflexivity|]. destruct (v <? 16); cbn [length]; [lia|]. rewrite app_length. specialize (IH (v / 16)). cbn [length]. lia. Qed.
Lemma triplet_len name ty kl : (length (triplet name ty kl) <= length name + 18)%nat.
Proof. unfold triplet, hex. rewrite app_length. cbn [length]. rewrite app_length. cbn [length]. pose proof (hex_loop_len 8 ty). pose proof (hex_loop_len 8 kl). lia. Qed.

(** Two records that are stored alike: equal, or neither can be stored. *)
Definition same_stored (r r' : crec) : Prop := r = r' \/ (exists e e', item_of r = inl e /\ item_of r' = inl e').
Lemma same_stored_add raw ignore parallel get inf c r r' now : same_stored r r' ->
  (let! x := add_item raw ignore parallel get inf c r now in Ret (snd x)) = (let! x := add_item raw ignore parallel get inf c r' now in Ret (snd x)).
Proof. intros [->|(e & e' & E & E')]; [reflexivity|]. unfold add_item. rewrite E, E'. reflexivity. Qed.
Lemma item_too_long name ty kl ttl d : (512 <= 1 + length (triplet name ty kl) + 1 + length d)%nat -> d <> [] -> exists e, item_of (mk_rec name ty kl ttl d) = inl e.
Proof.
  intros H Hd. unfold item_of. cbn [Cache_Model.r_name Cache_Model.r_type Cache_Model.r_class Cache_Model.r_data]. destruct (Nat.leb 512 _); [eauto|]. destruct (Nat.leb 512 _); [eauto|]. destruct (Nat.leb 512 _); [eauto|]. destruct d as [|x d]; [contradiction|].
  destruct (Nat.leb_spec 512 (1 + length (triplet name ty kl) + 1 + length (x :: d))); [eauto|lia].
Qed.
Lemma item_no_data name ty kl ttl : exists e, item_of (mk_rec name ty kl ttl []) = inl e.
Proof. unfold item_of. cbn [Cache_Model.r_name Cache_Model.r_type Cache_Model.r_class Cache_Model.r_data]. destruct (Nat.leb 512 _); [eauto|]. destruct (Nat.leb 512 _); [eauto|]. destruct (Nat.leb 512 _); eauto. Qed.

(** * The data of a record of a well-formed message *)
Section Wf.
Context (g : message) (post host : list Z) (Hhost : length host = 254%nat).
Let m := enc_msg g ++ post.
Let len := length (enc_msg g).

Lemma data_stored i pre p r xs name b k d : at_item m (Z.of_nat len) i pre (IR p r) xs post -> cacheable r = true ->
  stored_data g (length pre) r d -> k = (1 + length (triplet name (r_type r) 1) + 1)%nat -> (k <= 300)%nat -> length b = (512 - k)%nat ->
  exists f0, forall nf, (f0 <= nf)%nat -> exists n b', to_cache_data nf m len host i (length pre) b (512 - k) = Ret (n, b') /\
    forall ttl, same_stored (mk_rec name (r_type r) 1 ttl (firstn (Z.to_nat n) b')) (mk_rec name (r_type r) 1 ttl d).
Proof.
  intros HA Hc HD Hk Hk3 Hb. pose proof HA as [Hg HG Hm Hd Hp Hr Hpu Hdl Hv Hsec]. specialize (Hdl p r eq_refl).
  assert (Em : m = pre ++ enc_rr r ++ (concat (map enc_item xs) ++ post)) by (rewrite Hm; cbn [map concat enc_item]; rewrite <- !app_assoc; reflexivity).
  destruct (item_fields m pre (IR p r) _ Hg Em) as (F1 & F2 & F3 & F4 & F5 & F6 & F7 & F8). destruct Hv as (Hv1 & Hv2). cbn [view_item v_type v_class] in *.
  unfold cacheable in Hc. apply andb_true_iff in Hc. destruct Hc as (Hc1 & Hc2).
  assert (Hdata : rdn m (length pre + length (enc_rr r) - length (r_data r)) (length (r_data r)) = Ret (r_data r)).
  { unfold rdn. set (x := enc_name (r_name r) ++ be16 (r_type r) ++ be16 (r_class r) ++ be32 (r_ttl r) ++ be16 (Z.of_nat (length (r_data r)))).
    assert (Ex : enc_rr r = x ++ r_data r) by (unfold enc_rr, x; rewrite <- !app_assoc; reflexivity).
    rewrite (slice_at (pre ++ x) (r_data r) (concat (map enc_item xs) ++ post) m); [reflexivity| | |reflexivity].
    - rewrite Em, Ex, <- !app_assoc. reflexivity.
    - rewrite Ex, !app_length. lia. }
  unfold to_cache_data. rewrite F8. cbn [bind]. rewrite Hv1, Hv2, Hdl. replace (r_class r =? 1) with true by lia. rewrite andb_false_r.
  destruct HD as [HT|t HT HN|a b0 d0 t HT Hd0 Hd1 HN].
  - exists 0%nat. intros nf _. assert (ET : ((r_type r =? 1) || (r_type r =? 28) || (r_type r =? 65) || (r_type r =? 16))%bool = true) by (cbn [In] in HT; lia). rewrite ET.
    destruct (Z.leb_spec (Z.of_nat (512 - k)) (Z.of_nat (length (r_data r)))) as [HL|HL].
    + eexists _, _. split; [reflexivity|]. intros ttl. right. cbn [Z.to_nat firstn]. destruct (item_no_data name (r_type r) 1 ttl) as (e & E). exists e.
      destruct (item_too_long name (r_type r) 1 ttl (r_data r)) as (e' & E'); [lia|destruct (r_data r); [cbn [length] in HL; lia|discriminate]|]. eauto.
    + rewrite Nat2Z.id, Hdata. cbn [bind]. rewrite bwrite_at0 by lia. cbn [bind]. eexists _, _. split; [reflexivity|]. intros ttl. left. rewrite Nat2Z.id, firstn_app, firstn_all, Nat.sub_diag, firstn_O, app_nil_r. reflexivity.
  - destruct (name_field g post _ t host HN Hhost) as (f0 & HF). exists f0. intros nf Hf. destruct (HF nf Hf) as (used & EF). fold m len in EF. destruct (name_text_len _ _ _ HN) as (Lt & H0).
    assert (ET : ((r_type r =? 1) || (r_type r =? 28) || (r_type r =? 65) || (r_type r =? 16))%bool = false) by (cbn [In] in HT; lia). rewrite ET.
    assert (ET2 : ((r_type r =? 5) || (r_type r =? 12) || (r_type r =? 2))%bool = true) by (cbn [In] in HT; lia). rewrite ET2. unfold parse_one.
    change (length pre + length (enc_rr r) - length (r_data r))%nat with (data_at (length pre) r) in *.
    pose proof (name_to_cache nf m len host (type_text (r_type r)) (data_at (length pre) r) b (512 - k) ltac:(lia) Hhost (type_text_no0 _)) as HC. rewrite EF in HC. destruct (Nat.leb_spec 3 (512 - k)); [|lia]. rewrite andb_true_r in HC.
    destruct (Nat.leb_spec (length t + 1) (512 - k)) as [HL|HL].
    + destruct HC as (rest & E & L). rewrite E. cbn [bind]. eexists _, _. split; [reflexivity|]. intros ttl. left. rewrite firstn_S_app. reflexivity.
    + destruct HC as (b' & E & L). rewrite E. cbn [bind]. eexists _, _. split; [reflexivity|]. intros ttl. right. cbn [Z.to_nat firstn]. destruct (item_no_data name (r_type r) 1 ttl) as (e & E1). exists e.
      destruct (item_too_long name (r_type r) 1 ttl (t ++ [0])) as (e' & E'); [rewrite app_length; cbn [length]; lia|destruct t; discriminate|]. eauto.
  - destruct (name_field g post _ t host HN Hhost) as (f0 & HF). exists f0. intros nf Hf. destruct (HF nf Hf) as (used & EF). fold m len in EF. destruct (name_text_len _ _ _ HN) as (Lt & H0).
    rewrite HT. change ((15 =? 1) || (15 =? 28) || (15 =? 65) || (15 =? 16))%bool with false. change ((15 =? 5) || (15 =? 12) || (15 =? 2))%bool with false. change (15 =? 15) with true. cbv iota.
    change (length pre + length (enc_rr r) - length (r_data r))%nat with (data_at (length pre) r) in *. set (da := data_at (length pre) r) in *. set (dl := Z.of_nat (length (r_data r))) in *.
    assert (Hdl3 : 3 <= dl). { unfold dl. rewrite Hd0. destruct d0; [contradiction|]. cbn [length]. lia. }
    cbn [parse_data mx_fields]. destruct (Z.leb_spec dl 0); [lia|]. replace (Z.to_nat (Z.of_nat da + dl - dl)) with da by lia. cbn [skipn firstn app]. rewrite Nat.sub_0_r.
    assert (H2 : rdn m da 2 = Ret [a; b0]).
    { assert (HB : (da + length (r_data r) <= length m)%nat). { unfold rdn, slice in Hdata. destruct (Nat.leb_spec (da + length (r_data r)) (length m)); [assumption|discriminate]. }
      unfold rdn in *. destruct (slice m da (length (r_data r))) as [q|] eqn:Es; [|discriminate]. assert (q = r_data r) by congruence. subst q. clear Hdata. apply slice_split in Es. rewrite Hd0 in Es, HB. cbn [length] in HB.
      rewrite (slice_at (firstn da m) [a; b0] (d0 ++ skipn (da + length (a :: b0 :: d0)) m) m da 2); [reflexivity|exact Es| |reflexivity].
      rewrite firstn_length. lia. }
    cbn [field_parse fixed_size]. destruct (Nat.ltb_spec (512 - k) 2); [lia|]. rewrite H2. cbn [bind]. rewrite bwrite_at0 by (cbn [length]; lia). cbn [bind length app]. change (Z.of_nat 2 <=? 0) with false. cbv iota. change (0 + Z.to_nat (Z.of_nat 2))%nat with 2%nat.
    set (b1 := a :: b0 :: skipn 2 b). change (Z.of_nat 2) with 2. destruct (Z.leb_spec (dl - 2) 0); [lia|]. replace (Z.to_nat (Z.of_nat da + dl - (dl - 2))) with (da + 2)%nat by lia.
    assert (Ls : length (skipn 2 b1) = (512 - k - 2)%nat) by (rewrite skipn_length; unfold b1; cbn [length]; rewrite skipn_length; lia).
    pose proof (name_to_cache nf m len host (txt "mail exchanger"%string) (da + 2) (skipn 2 b1) (512 - k - 2) ltac:(lia) Hhost ltac:(cbn; intuition discriminate)) as HC. rewrite EF in HC. destruct (Nat.leb_spec 3 (512 - k - 2)); [|lia]. rewrite andb_true_r in HC.
    destruct (Nat.leb_spec (length t + 1) (512 - k - 2)) as [HL|HL].
    + destruct HC as (rest & E & L). cbn [field_parse] in E. rewrite E. cbn [bind]. destruct (Z.leb_spec (Z.of_nat (length t + 1)) 0); [lia|]. eexists _, _. split; [reflexivity|]. intros ttl. left. f_equal. unfold b1. cbn [firstn app].
      replace (Z.to_nat (Z.of_nat (2 + Z.to_nat (Z.of_nat (length t + 1))))) with (S (S (length t + 1))) by lia. cbn [firstn]. pose proof (firstn_S_app t rest) as EE. rewrite Nat2Z.id in EE. rewrite EE. reflexivity.
    + destruct HC as (b' & E & L). cbn [field_parse] in E. rewrite E. cbn [bind]. change (-1 <=? 0) with true. cbv iota. eexists _, _. split; [reflexivity|]. intros ttl. right. cbn [Z.to_nat firstn]. destruct (item_no_data name 15 1 ttl) as (e & E1). exists e.
      destruct (item_too_long name 15 1 ttl (a :: b0 :: t ++ [0])) as (e' & E'); [cbn [length]; rewrite app_length; cbn [length]; rewrite <- HT; lia|discriminate|]. eauto.
Qed.

Lemma record_stored i pre p r xs z rec buf : at_item m (Z.of_nat len) i pre (IR p r) xs post -> cacheable r = true ->
  stored_as g (z, length pre, r) rec -> length buf = 512%nat ->
  exists f0, forall nf, (f0 <= nf)%nat -> exists r', record_of nf m len host i (length pre) buf = Ret (Some r') /\ same_stored r' rec.
Proof.
  intros HA Hc (name & d & HN & HD & ->) Hb. destruct (name_text_read g post _ name HN) as (f1 & H1). destruct (name_text_len _ _ _ HN) as (Ln & _).
  set (k := (1 + length (triplet name (r_type r) 1) + 1)%nat). assert (Hk : (k <= 300)%nat) by (unfold k; pose proof (triplet_len name (r_type r) 1); lia).
  pose proof HA as [Hg HG Hm Hd Hp Hr Hpu Hdl Hv Hsec]. destruct Hv as (Hv1 & Hv2). cbn [view_item v_type v_class] in *.
  assert (Em : m = pre ++ enc_item (IR p r) ++ (concat (map enc_item xs) ++ post)) by (rewrite Hm; cbn [map concat]; rewrite <- !app_assoc; reflexivity).
  destruct (item_fields m pre (IR p r) _ Hg Em) as (_ & _ & _ & _ & _ & _ & HT & _).
  assert (Hkl : r_class r = 1) by (unfold cacheable in Hc; lia).
  (* the buffer the data is read into depends on the fuel, but its length does not *)
  assert (HDF : forall b, length b = (512 - k)%nat -> exists f0, forall nf, (f0 <= nf)%nat -> exists n b', to_cache_data nf m len host i (length pre) b (512 - k) = Ret (n, b') /\
     forall ttl, same_stored (mk_rec name (r_type r) 1 ttl (firstn (Z.to_nat n) b')) (mk_rec name (r_type r) 1 ttl d)).
  { intros b HLb. exact (data_stored i pre p r xs name b k d HA Hc HD eq_refl Hk HLb). }
  destruct (H1 f1 (skipn 1 buf) (le_n _) ltac:(rewrite skipn_length; lia)) as (w & b' & E & Ec & Lb). rewrite skipn_length in Lb.
  destruct (HDF (skipn (k - 1) b') ltac:(rewrite skipn_length; lia)) as (f2 & H2).
  exists (Nat.max f1 f2). intros nf Hf. destruct (H2 nf ltac:(lia)) as (n & b'' & E2 & HS).
  assert (E' : get_host_name nf len m (length pre) (skipn 1 buf) = Ret (Some w, Some b')).
  { unfold get_host_name in *. apply (name_loop_mono _ _ _ _ _ _ _ _ _ _ E). lia. }
  exists (mk_rec name (r_type r) 1 (r_ttl r) (firstn (Z.to_nat n) b'')). split; [|apply HS].
  unfold record_of. rewrite E'. cbn [bind]. rewrite Ec, Hv1, Hv2, Hkl. fold k. destruct (Nat.leb_spec 512 k); [lia|]. rewrite E2. cbn [bind]. rewrite HT. cbn [bind fst snd]. reflexivity.
Qed.
End Wf.

(** The records among the items. *)
Fixpoint rrs_of (z : Z) (o : nat) (xs : list item) : list (Z * nat * rr) :=
  match xs with
  | [] => []
  | x :: xs' => (match x with IQ _ => [] | IR _ r => [(z, o, r)] end) ++ rrs_of (z + 1) (o + length (enc_item x)) xs'
  end.
Lemma rrs_of_app xs ys : forall z o, rrs_of z o (xs ++ ys) = rrs_of z o xs ++ rrs_of (z + Z.of_nat (length xs)) (o + length (concat (map enc_item xs))) ys.
Proof.
  induction xs as [|x xs IH]; intros z o; cbn [app rrs_of map concat length]; [f_equal; lia|]. rewrite IH, app_length, <- app_assoc. f_equal. f_equal. f_equal; lia.
Qed.
Lemma rrs_of_q qs : forall z o, rrs_of z o (map IQ qs) = [].
Proof. induction qs as [|q qs IH]; intros z o; cbn [map rrs_of app]; [reflexivity|apply IH]. Qed.
Lemma rrs_of_r p rs : forall z o, rrs_of z o (map (IR p) rs) = located z o rs.
Proof. induction rs as [|r rs IH]; intros z o; cbn [map rrs_of app located enc_item]; [reflexivity|]. now rewrite IH. Qed.
Lemma located_app rs ss : forall z o, located z o (rs ++ ss) = located z o rs ++ located (z + Z.of_nat (length rs)) (o + length (concat (map enc_rr rs))) ss.
Proof.
  induction rs as [|r rs IH]; intros z o; cbn [app located map concat length]; [f_equal; lia|]. rewrite IH, app_length. f_equal. f_equal. f_equal; lia.
Qed.
Lemma qs_len_enc qs : qs_len qs = length (concat (map enc_item (map IQ qs))).
Proof. unfold qs_len. rewrite map_map. reflexivity. Qed.
Lemma enc_map_rr p rs : map enc_item (map (IR p) rs) = map enc_rr rs.
Proof. rewrite map_map. reflexivity. Qed.
Lemma rrs_records g : rrs_of 1 12 (items_of g) = records g.
Proof.
  unfold records. rewrite items_split, items_rest, !rrs_of_app, rrs_of_q, !rrs_of_r, !map_length, !enc_map_rr, !located_app, qs_len_enc. cbn [app].
  replace (1 + Z.of_nat (length (m_qs g))) with (Z.of_nat (length (m_qs g)) + 1) by lia. reflexivity.
Qed.

(** * The loop over a well-formed response *)
Lemma cacheable_test p r : (if negb (purpose_eqb p P_unknown) && negb (purpose_eqb p P_question) && valid_type (r_type r) && (r_class r =? 1) then true else false)
  = (if negb (purpose_eqb p P_unknown) && negb (purpose_eqb p P_question) then cacheable r else false).
Proof. destruct (negb (purpose_eqb p P_unknown) && negb (purpose_eqb p P_question)); [|reflexivity]. unfold valid_type, cacheable. cbn [existsb andb]. rewrite orb_false_r, !orb_assoc, (andb_comm (r_class r =? 1)). now destruct (_ && _). Qed.
Definition add_op inf (clk : Z -> Z) (x : (Z * nat * rr) * crec) : op := OAdd inf (snd x) (clk (fst (fst (fst x)))).
Section Loop.
Context (raw : list Z -> list cnode -> nat -> Z) (ignore parallel : bool) (get : list Z -> option ctrl).
Context (g : message) (post host buf : list Z) (clk : Z -> Z) (Hhost : length host = 254%nat) (Hbuf : length buf = 512%nat) (inf : option ctrl).
Let m := enc_msg g ++ post.
Let len := length (enc_msg g).
Let keep := filter (fun x : Z * nat * rr => cacheable (snd x)).

(** One step: the item at which the iterator now is. *)
Lemma step_stored i pre x xs recs : at_item m (Z.of_nat len) i pre x xs post ->
  Forall2 (stored_as g) (keep (rrs_of (it_rec i) (length pre) [x])) recs ->
  exists f0, forall nf c fuel, (f0 <= nf)%nat ->
   (if negb (purpose_eqb (it_purpose i) P_unknown) && negb (purpose_eqb (it_purpose i) P_question) && valid_type (it_type i) && (it_klass i =? 1)
      then let! r := record_of nf m len host i (length pre) buf in
           match r with
           | None => add_loop raw ignore parallel get nf host buf clk fuel m len inf i c
           | Some rec => let! x := add_item raw ignore parallel get inf c rec (clk (it_rec i)) in add_loop raw ignore parallel get nf host buf clk fuel m len inf i (snd x)
           end
      else add_loop raw ignore parallel get nf host buf clk fuel m len inf i c)
   = let! c' := run raw ignore parallel get c (map (add_op inf clk) (combine (keep (rrs_of (it_rec i) (length pre) [x])) recs)) in
     add_loop raw ignore parallel get nf host buf clk fuel m len inf i c'.
Proof.
  intros HA HR. pose proof HA as [Hg HG Hm Hd Hp Hr Hpu Hdl Hv Hsec]. destruct Hv as (Hv1 & Hv2). unfold rrs_of in *. rewrite app_nil_r in *. destruct x as [q|p r].
  - exists 0%nat. intros nf c fuel _. cbn [keep filter] in *. inversion HR; subst. rewrite Hpu. cbn. reflexivity.
  - cbn [view_item v_type v_class] in Hv1, Hv2. rewrite Hpu, Hv1, Hv2. cbn [item_purpose]. cbn [good_item] in Hg. destruct Hg as (Hgr & Hp1 & Hp2).
    assert (EP : negb (purpose_eqb p P_unknown) && negb (purpose_eqb p P_question) = true) by (destruct p; try reflexivity; congruence). pose proof (cacheable_test p r) as CT. rewrite EP in CT. rewrite EP. cbn [andb] in *.
    unfold keep in *. cbn [filter snd] in *. destruct (cacheable r) eqn:EC.
    + inversion HR as [|? rec ? ? HS HR']; subst. inversion HR'; subst. destruct (record_stored g post host Hhost i pre p r xs _ rec buf HA EC HS Hbuf) as (f0 & H0). exists f0. intros nf c fuel Hf. destruct (H0 nf Hf) as (r' & E & HSS). fold m len in E.
      destruct (valid_type (r_type r) && (r_class r =? 1)); [|discriminate]. rewrite E. cbn [bind combine map add_op snd fst run run_op]. pose proof (same_stored_add raw ignore parallel get inf c _ _ (clk (it_rec i)) HSS) as HX.
      destruct (add_item raw ignore parallel get inf c r' (clk (it_rec i))) as [[e1 c1]| | |]; destruct (add_item raw ignore parallel get inf c rec (clk (it_rec i))) as [[e2 c2]| | |]; cbn [bind snd] in *; congruence.
    + inversion HR; subst. exists 0%nat. intros nf c fuel _. destruct (valid_type (r_type r) && (r_class r =? 1)); [discriminate|]. reflexivity.
Qed.
Lemma run_app ops ops' c : run raw ignore parallel get c (ops ++ ops') = let! c' := run raw ignore parallel get c ops in run raw ignore parallel get c' ops'.
Proof. revert c. induction ops as [|o ops IH]; intros c; cbn [app run bind]; [reflexivity|]. destruct (run_op raw ignore parallel get c o); cbn [bind]; [apply IH|reflexivity..]. Qed.
Lemma keep_app a b : keep (a ++ b) = keep a ++ keep b.
Proof. unfold keep. apply filter_app. Qed.
Lemma combine_app {A B} (a a' : list A) (b b' : list B) : length a = length b -> combine (a ++ a') (b ++ b') = combine a b ++ combine a' b'.
Proof. revert b. induction a as [|x a IH]; intros [|y b] H; try discriminate; cbn [app combine]; [reflexivity|]. f_equal. apply IH. cbn in H. lia. Qed.

Lemma forall2_length {A B} (P : A -> B -> Prop) a b : Forall2 P a b -> length a = length b.
Proof. induction 1; cbn [length]; congruence. Qed.
(** What the loop does once it is at the item [x]. *)
Lemma loop_stored xs : forall i pre x recs, at_item m (Z.of_nat len) i pre x xs post ->
  Forall2 (stored_as g) (keep (rrs_of (it_rec i + 1) (length (pre ++ enc_item x)) xs)) recs ->
  exists f0, forall nf fuel c, (f0 <= nf)%nat -> (length xs < fuel)%nat ->
    add_loop raw ignore parallel get nf host buf clk fuel m len inf i c
    = run raw ignore parallel get c (map (add_op inf clk) (combine (keep (rrs_of (it_rec i + 1) (length (pre ++ enc_item x)) xs)) recs)).
Proof.
  induction xs as [|y ys IH]; intros i pre x recs HA HR.
  - exists 0%nat. intros nf [|fuel] c _ Hf; [lia|]. cbn [add_loop]. rewrite (at_last _ _ _ _ _ _ HA). reflexivity.
  - destruct (at_next _ _ _ _ _ _ _ _ HA) as (i' & EN & HA' & Hrec & _).
    change (y :: ys) with ([y] ++ ys) in HR. rewrite rrs_of_app in HR. rewrite keep_app in HR. apply Forall2_app_inv_l in HR. destruct HR as (r1 & r2 & HR1 & HR2 & ->). rewrite <- Hrec in HR1, HR2.
    cbn [map concat length] in HR2. rewrite app_nil_r, <- app_length in HR2.
    destruct (IH i' _ y r2 HA' HR2) as (f2 & H2).
    destruct (step_stored i' _ y ys r1 HA' HR1) as (f1 & H1).
    exists (Nat.max f1 f2). intros nf [|fuel] c Hf Hfu; [lia|]. cbn [length] in Hfu. cbn [add_loop]. rewrite EN. cbn [bind]. rewrite (H1 nf c fuel ltac:(lia)).
    change (y :: ys) with ([y] ++ ys). rewrite rrs_of_app, keep_app, combine_app by (rewrite <- Hrec; exact (forall2_length _ _ _ HR1)). rewrite map_app, run_app, <- Hrec.
    destruct (run raw ignore parallel get c _) as [c1| | |]; cbn [bind]; try reflexivity. rewrite (H2 nf fuel c1 ltac:(lia) ltac:(lia)).
    cbn [map concat length]. rewrite app_nil_r, <- app_length. reflexivity.
Qed.

Lemma items_stored recs : good_msg g -> m_qs g <> [] -> Forall is_byte post -> Forall2 (stored_as g) (to_cache g) recs ->
  exists f0, forall nf fuel first domain c, (f0 <= nf)%nat -> (length (items_of g) < fuel)%nat -> inf = get domain ->
    add_items raw ignore parallel get nf host buf clk fuel first m len domain c =
      if negb first && negb parallel then Ret (0, c)
      else let! c' := run raw ignore parallel get c (map (add_op inf clk) (combine (to_cache g) recs)) in Ret (0, c').
Proof.
  intros Hg Hq Hpost HR. destruct (iter_init_start g post P_unknown 0 0 0 Hg Hpost Hq) as (i & EI & HA). unfold to_cache in *. rewrite <- rrs_records in *.
  destruct (items_of g) as [|x xs] eqn:EX; [unfold items_of in EX; destruct (m_qs g); [contradiction|discriminate]|].
  destruct (at_first g post i (Z.of_nat len) x xs Hg HA ltac:(unfold len; lia) EX) as (i' & EN & HA' & Hrec & _).
  change (x :: xs) with ([x] ++ xs) in HR. rewrite rrs_of_app in HR. fold keep in HR. rewrite keep_app in HR. apply Forall2_app_inv_l in HR. destruct HR as (r1 & r2 & HR1 & HR2 & ->).
  assert (H12 : 12%nat = length (header g)) by (symmetry; apply header_length; apply Hg). rewrite H12 in EN, HR1, HR2 |- *. rewrite <- Hrec in HR1, HR2. cbn [map concat length] in HR2. rewrite app_nil_r, <- app_length in HR2.
  destruct (step_stored i' _ x xs r1 HA' HR1) as (f1 & H1). destruct (loop_stored xs i' _ x r2 HA' HR2) as (f2 & H2).
  exists (Nat.max f1 f2). intros nf [|fuel] first domain c Hf Hfu ->; [lia|]. cbn [length] in Hfu. unfold add_items. destruct (negb first && negb parallel); [reflexivity|].
  assert (HL : (12 <= len)%nat). { unfold len. rewrite enc_msg_items, app_length, <- H12. lia. }
  destruct (parser_init_some _ HL) as (pi & ->). fold m in EI. rewrite EI. cbn [bind add_loop]. fold m in EN. rewrite EN. cbn [bind]. rewrite (H1 nf c fuel ltac:(lia)).
  change (x :: xs) with ([x] ++ xs). fold keep. rewrite rrs_of_app, keep_app, combine_app by (rewrite <- Hrec; exact (forall2_length _ _ _ HR1)). rewrite map_app, run_app, <- Hrec.
  destruct (run raw ignore parallel get c _) as [c1| | |]; cbn [bind]; try reflexivity. rewrite (H2 nf fuel c1 ltac:(lia) ltac:(lia)).
  cbn [map concat length]. rewrite app_nil_r, <- app_length. reflexivity.
Qed.
End Loop.
