From Verif Require Import Base BaseFacts Name_Model Name_Spec Name_Proofs Parser_Model Parser_Spec Parser_Proofs Parser_Walk
  Gen_Model Gen_Spec Gen_Proofs Compress_Spec.
Require Import ZifyBool ZifyNat.

Lemma extent_in_enc n : forall fuel dlen pre post ll, good_name n ->
  (length (pre ++ enc_name n) <= dlen)%nat -> (length (pre ++ enc_name n ++ post) < fuel + length pre)%nat ->
  exists rd, name_loop fuel true dlen (pre ++ enc_name n ++ post) (length pre) None 0 ll false = Ret (Some (ll + length (enc_name n))%nat, rd).
Proof.
  destruct n as [ls tl]. induction ls as [|l ls IH]; intros fuel dlen pre post ll [HL HT] Hd Hf.
  - unfold enc_name in *. cbn [en_labels en_tail enc_labels app] in *. destruct fuel as [|fuel]; [rewrite app_length in Hf; lia|]. cbn [name_loop].
    destruct tl as [[hi lo]|].
    + assert (E : nth_error (pre ++ [hi; lo] ++ post) (length pre) = Some hi).
      { rewrite nth_error_app2, Nat.sub_diag by lia. reflexivity. }
      rewrite (rd8_some _ _ _ E). cbn [bind]. destruct (hi =? 0) eqn:E0; [lia|]. unfold is_ptr.
      destruct (192 <=? hi) eqn:E1; [|lia]. cbn [name_end length]. eexists. reflexivity.
    + assert (E : nth_error (pre ++ [0] ++ post) (length pre) = Some 0).
      { rewrite nth_error_app2, Nat.sub_diag by lia. reflexivity. }
      rewrite (rd8_some _ _ _ E). cbn [bind]. change (0 =? 0) with true. cbv iota. cbn [name_end length].
      eexists. do 3 f_equal. lia.
  - cbn in HL, HT. inversion HL as [|? ? [Hl _] HL']; subst.
    unfold enc_name in *. cbn [en_labels en_tail enc_labels] in *.
    set (tail := match tl with Some (hi, lo) => [hi; lo] | None => [0] end) in *.
    assert (Hre : pre ++ ((Z.of_nat (length l) :: l ++ enc_labels ls) ++ tail) ++ post
        = (pre ++ Z.of_nat (length l) :: l) ++ (enc_labels ls ++ tail) ++ post).
    { rewrite <- !app_assoc. cbn. rewrite <- !app_assoc. reflexivity. }
    assert (Hlen : length ((Z.of_nat (length l) :: l ++ enc_labels ls) ++ tail) = (S (length l) + length (enc_labels ls ++ tail))%nat).
    { rewrite !app_length. cbn [length]. rewrite app_length. lia. }
    destruct fuel as [|fuel]; [rewrite !app_length in Hf; lia|]. cbn [name_loop].
    assert (E : nth_error (pre ++ ((Z.of_nat (length l) :: l ++ enc_labels ls) ++ tail) ++ post) (length pre) = Some (Z.of_nat (length l))).
    { rewrite nth_error_app2, Nat.sub_diag by lia. reflexivity. }
    rewrite (rd8_some _ _ _ E). cbn [bind]. destruct (Z.of_nat (length l) =? 0) eqn:E0; [lia|]. unfold is_ptr.
    destruct (192 <=? Z.of_nat (length l)) eqn:E1; [lia|]. rewrite Nat2Z.id.
    rewrite app_length, Hlen in Hd.
    destruct (Nat.ltb_spec dlen (length pre + length l)); [lia|]. cbn [andb].
    destruct (IH fuel dlen (pre ++ Z.of_nat (length l) :: l) post (ll + (length l + 1))%nat) as [rd Hrd].
    + split; auto.
    + rewrite !app_length in *. cbn [length]. lia.
    + rewrite Hre in Hf. rewrite !app_length in *. cbn [length] in *. lia.
    + rewrite Hre. replace (length pre + (1 + length l))%nat with (length (pre ++ Z.of_nat (length l) :: l)) by (rewrite app_length; cbn [length]; lia).
      rewrite Hrd. exists rd. do 3 f_equal. rewrite Hlen. lia.
Qed.

Lemma name_extent_in_enc n dlen pre post m : good_name n -> m = pre ++ enc_name n ++ post ->
  (length (pre ++ enc_name n) <= dlen)%nat ->
  name_extent_in m dlen (length pre) = Ret (Z.of_nat (length (enc_name n))).
Proof.
  intros Hg -> Hd. unfold name_extent_in.
  destruct (extent_in_enc n (S (length (pre ++ enc_name n ++ post))) dlen pre post 0 Hg Hd ltac:(lia)) as [rd ->].
  reflexivity.
Qed.

(** the two stores of one compression *)
Lemma compress_write A N R post h l : (2 <= length N)%nat ->
  let m := A ++ N ++ R ++ post in let dlen := (length A + length N + length R)%nat in let d := (length N - 2)%nat in
  exists moved m1 tail, rdn m (length A + d) (dlen - (length A + d)) = Ret moved /\ bwrite m (length A) moved = Ret m1 /\
    bwrite m1 (length A) [h; l] = Ret (A ++ [h; l] ++ R ++ tail) /\ length tail = (length post + d)%nat /\
    (Forall is_byte m -> Forall is_byte tail).
Proof.
  intros HN m dlen d.
  assert (HNs : exists N1 a b, N = N1 ++ [a; b] /\ length N1 = d).
  { exists (firstn d N). pose proof (firstn_skipn d N) as E. pose proof (skipn_length d N) as HL.
    destruct (skipn d N) as [|a [|b [|? ?]]]; cbn in HL; unfold d in *; try lia.
    exists a, b. split; [symmetry; exact E|]. rewrite firstn_length. lia. }
  destruct HNs as (N1 & a & b & HNe & HN1).
  set (moved := [a; b] ++ R). exists moved.
  assert (Hlm : length moved = (2 + length R)%nat) by reflexivity.
  set (tl := skipn (length A + length moved) m).
  assert (HW : bwrite m (length A) moved = Ret (A ++ moved ++ tl)).
  { rewrite bwrite_ok.
    - unfold m at 1. rewrite firstn_app, firstn_all, Nat.sub_diag, firstn_O, app_nil_r. reflexivity.
    - unfold m. rewrite !app_length. lia. }
  exists (A ++ moved ++ tl), tl. split; [|split; [exact HW|split; [|split]]].
  - unfold rdn. rewrite (slice_at (A ++ N1) moved post m); [reflexivity| | |].
    + unfold m, moved. rewrite HNe, <- !app_assoc. reflexivity.
    + rewrite app_length. lia.
    + unfold dlen. lia.
  - unfold moved. rewrite <- app_assoc. rewrite bwrite_ok by (rewrite !app_length; cbn; lia).
    rewrite firstn_app, firstn_all, Nat.sub_diag, firstn_O, app_nil_r. f_equal. f_equal. f_equal.
    rewrite skipn_app, skipn_all2 by (cbn; lia). cbn [length app].
    replace (length A + 2 - length A)%nat with 2%nat by lia. reflexivity.
  - unfold tl, m. rewrite skipn_length, !app_length. lia.
  - intros HF. unfold tl. rewrite <- (firstn_skipn (length A + length moved) m) in HF. apply Forall_app in HF. tauto.
Qed.

Definition set_name (r : rr) (n : ename) : rr := mk_rr n (r_type r) (r_class r) (r_ttl r) (r_data r).
Definition ptr_to (o : nat) : ename := mk_ename [] (Some (192 + Z.of_nat o / 256, Z.of_nat o mod 256)).

Fixpoint comp (o last : nat) (rs : list rr) : list rr :=
  match rs with
  | [] => []
  | r :: rs' =>
    if r_class r =? 1
    then let r' := set_name r (ptr_to last) in
         r' :: comp (o + length (enc_rr r')) (if r_type r =? 5 then (o + 12)%nat else last) rs'
    else r :: comp (o + length (enc_rr r)) last rs'
  end.

Lemma enc_rr_set_name r n : exists R, enc_rr (set_name r n) = enc_name n ++ R /\ enc_rr r = enc_name (r_name r) ++ R /\
  length R = (10 + length (r_data r))%nat.
Proof.
  eexists. split; [reflexivity|]. split; [reflexivity|]. cbn [set_name r_type r_class r_ttl r_data].
  rewrite !app_length, !be16_length, be32_length. lia.
Qed.

Lemma ptr_good o : Z.of_nat o < 16384 -> good_name (ptr_to o).
Proof. intros H. unfold ptr_to, good_name. cbn [en_labels en_tail]. split; [constructor|]. lia. Qed.
Lemma make_pointer_ptr o : Z.of_nat o < 16384 -> make_pointer o = enc_name (ptr_to o).
Proof. intros H. unfold make_pointer, ptr_to, enc_name. cbn [en_labels en_tail enc_labels app]. f_equal. lia. Qed.
Lemma set_name_good r o : Z.of_nat o < 16384 -> good_rr r -> good_rr (set_name r (ptr_to o)).
Proof. intros Ho (_ & H). split; [now apply ptr_good|exact H]. Qed.

Definition compressible (rs : list rr) : Prop := Forall (fun r => r_class r = 1 -> (2 <= length (enc_name (r_name r)))%nat) rs.

Lemma comp_loop rs : forall ts fuel m dlen i pre x post last,
  at_item m (Z.of_nat dlen) i pre x (map (IR P_answer) rs ++ ts) post ->
  dlen = length (pre ++ concat (map enc_item (x :: map (IR P_answer) rs ++ ts))) ->
  Forall (fun y => item_purpose y <> P_answer) ts ->
  compressible rs -> Z.of_nat dlen <= 16384 -> (last <= length (pre ++ enc_item x))%nat -> (length rs < fuel)%nat ->
  let o := length (pre ++ enc_item x) in
  exists post', length post' = (length post + (length (concat (map enc_rr rs)) - length (concat (map enc_rr (comp o last rs)))))%nat /\
  (length (concat (map enc_rr (comp o last rs))) <= length (concat (map enc_rr rs)))%nat /\
  (Forall is_byte m -> Forall is_byte post') /\
  compress_loop fuel m dlen i last =
    Ret (Z.of_nat (length (pre ++ enc_item x ++ concat (map enc_rr (comp o last rs)) ++ concat (map enc_item ts))),
         pre ++ enc_item x ++ concat (map enc_rr (comp o last rs)) ++ concat (map enc_item ts) ++ post').
Proof.
  induction rs as [|r rs IH]; intros ts fuel m dlen i pre x post last HA Hd HT HC H14 Hlast Hf o;
    (destruct fuel as [|fuel]; [lia|]); cbn [compress_loop].
  - cbn [map app comp concat] in *. exists post. split; [lia|]. split; [lia|].
    split. { rewrite (at_mem _ _ _ _ _ _ _ HA). rewrite !Forall_app. tauto. }
    assert (Hm : m = pre ++ enc_item x ++ concat (map enc_item ts) ++ post).
    { rewrite (at_mem _ _ _ _ _ _ _ HA). cbn [map concat]. rewrite <- !app_assoc. reflexivity. }
    destruct ts as [|y ys].
    + rewrite (at_last _ _ _ _ _ _ HA). cbn [bind]. rewrite Hd, Hm. cbn [map concat app]. rewrite !app_nil_r. reflexivity.
    + destruct (at_next _ _ _ _ _ _ _ _ HA) as (i' & HN & HA' & _). rewrite HN. cbn [bind].
      rewrite (at_purpose _ _ _ _ _ _ _ HA'). pose proof (Forall_inv HT) as HTy. cbn beta in HTy.
      rewrite purpose_eqb_neq by exact HTy. cbn [negb]. rewrite Hd, Hm. reflexivity.
  - cbn [map app] in HA. destruct (at_next _ _ _ _ _ _ _ _ HA) as (i' & HN & HA' & _). rewrite HN. cbn [bind].
    rewrite (at_purpose _ _ _ _ _ _ _ HA'). cbn [item_purpose purpose_eqb negb].
    destruct (at_view _ _ _ _ _ _ _ HA') as [Hty Hkl]. cbn [view_item v_type v_class] in Hty, Hkl. rewrite Hkl.
    inversion HC as [|? ? HC1 HC2]; subst x0 l.
    pose proof (at_good _ _ _ _ _ _ _ HA') as Hgr. destruct Hgr as (Hgr & _).
    destruct (r_class r =? 1) eqn:EC; cbn [negb].
    + (* compressed *)
      assert (HC1' := HC1 ltac:(lia)). subst o.
      set (A := pre ++ enc_item x) in *. set (N := enc_name (r_name r)) in *.
      destruct (enc_rr_set_name r (ptr_to last)) as (R0 & ER' & ER & HR0). fold N in ER.
      set (TS := concat (map enc_item (map (IR P_answer) rs ++ ts))) in *.
      assert (Hm : m = A ++ N ++ (R0 ++ TS) ++ post).
      { rewrite (at_mem _ _ _ _ _ _ _ HA'). cbn [map concat enc_item]. fold TS. rewrite ER, <- !app_assoc. reflexivity. }
      assert (Hdl : dlen = (length A + length N + length (R0 ++ TS))%nat).
      { rewrite Hd. cbn [map concat app enc_item]. fold TS. rewrite ER. unfold A. rewrite !app_length. lia. }
      assert (Hn2 : name_extent_in m dlen (length A) = Ret (Z.of_nat (length N))).
      { apply (name_extent_in_enc (r_name r) dlen A ((R0 ++ TS) ++ post)); auto; [apply Hgr|]. fold N. rewrite app_length. lia. }
      rewrite Hn2. cbn [bind]. destruct (Z.of_nat (length N) - 2 <? 0) eqn:E2; [lia|].
      replace (Z.to_nat (Z.of_nat (length N) - 2)) with (length N - 2)%nat by lia.
      destruct (Nat.ltb_spec dlen (length A + (length N - 2))); [lia|].
      assert (Hlast14 : Z.of_nat last < 16384) by lia.
      pose proof (compress_write A N (R0 ++ TS) post (192 + Z.of_nat last / 256) (Z.of_nat last mod 256) HC1') as HW.
      cbn zeta in HW. rewrite <- Hm, <- Hdl in HW. destruct HW as (moved & m1 & tail & Hmv & Hw1 & Hw2 & Htl & Htb).
      rewrite Hmv. cbn [bind]. rewrite Hw1. cbn [bind]. rewrite (make_pointer_ptr last Hlast14).
      change (enc_name (ptr_to last)) with [192 + Z.of_nat last / 256; Z.of_nat last mod 256]. rewrite Hw2. cbn [bind].
      set (r' := set_name r (ptr_to last)) in *.
      set (m2 := A ++ [192 + Z.of_nat last / 256; Z.of_nat last mod 256] ++ (R0 ++ TS) ++ tail).
      assert (Hm2 : m2 = A ++ concat (map enc_item (IR P_answer r' :: map (IR P_answer) rs ++ ts)) ++ tail).
      { unfold m2. cbn [map concat enc_item]. fold TS. rewrite ER'. rewrite <- !app_assoc. reflexivity. }
      assert (Hgr' : good_item (IR P_answer r')).
      { split; [apply set_name_good; auto|]. split; discriminate. }
      set (dlen' := (dlen - (length N - 2))%nat).
      assert (Hr'len : length (enc_rr r') = (2 + length R0)%nat).
      { rewrite ER', app_length. reflexivity. }
      assert (Hdlen' : dlen' = length (A ++ concat (map enc_item (IR P_answer r' :: map (IR P_answer) rs ++ ts)))).
      { unfold dlen'. cbn [map concat enc_item]. fold TS. rewrite app_length, app_length, Hr'len. rewrite app_length in Hdl. lia. }
      assert (HA2 : at_item m2 (Z.of_nat dlen') i' A (IR P_answer r') (map (IR P_answer) rs ++ ts) tail).
      { constructor; auto.
        - apply (at_goods _ _ _ _ _ _ _ HA').
        - rewrite Hdlen'. lia.
        - apply (at_pos _ _ _ _ _ _ _ HA').
        - apply (at_rec _ _ _ _ _ _ _ HA').
        - apply (at_purpose _ _ _ _ _ _ _ HA').
        - intros p r0 E. inversion E; subst. apply (at_dlen _ _ _ _ _ _ _ HA' P_answer r eq_refl).
        - apply (at_sec _ _ _ _ _ _ _ HA'). }
      assert (Hlastd : (if it_type i' =? 5 then rec_dpos m2 (length A) else Ret last) =
                       Ret (if r_type r =? 5 then (length A + 12)%nat else last)).
      { rewrite Hty. destruct (r_type r =? 5); [|reflexivity].
        assert (Hm3 : m2 = A ++ enc_item (IR P_answer r') ++ (TS ++ tail)).
        { rewrite Hm2. cbn [map concat]. fold TS. rewrite <- !app_assoc. reflexivity. }
        pose proof (item_fields m2 A (IR P_answer r') _ Hgr' Hm3) as HI. cbn zeta in HI.
        destruct HI as (_ & _ & _ & _ & _ & _ & _ & ->). rewrite Hr'len. f_equal.
        change (r_data r') with (r_data r). lia. }
      rewrite Hlastd. cbn [bind].
      set (last' := if r_type r =? 5 then (length A + 12)%nat else last) in *.
      specialize (IH ts fuel m2 dlen' i' A (IR P_answer r') tail last' HA2 Hdlen' HT HC2).
      destruct IH as (post' & HL1 & HL2 & HB & HE).
      { unfold dlen'. lia. }
      { unfold last'. rewrite app_length. cbn [enc_item]. rewrite Hr'len. destruct (r_type r =? 5); unfold A in *; lia. }
      { cbn [length] in Hf. lia. }
      cbn [comp]. rewrite EC. fold r'. fold last'. cbn [enc_item] in HE, HL1, HL2.
      rewrite (app_length A (enc_rr r')) in HE, HL1, HL2. cbn [map concat].
      exists post'. split; [|split; [|split]].
      * rewrite Hr'len in *. rewrite !app_length, Hr'len, ER, app_length. lia.
      * rewrite Hr'len in *. rewrite !app_length, Hr'len, ER, app_length. lia.
      * intros Hb. apply HB. unfold m2. rewrite Hm in Hb. specialize (Htb ltac:(rewrite Hm; exact Hb)). rewrite !Forall_app in *.
        repeat split; try tauto. unfold is_byte. repeat constructor; lia.
      * rewrite HE. unfold A. rewrite <- !app_assoc. reflexivity.
    + (* skipped *)
      assert (Hm : m = (pre ++ enc_item x) ++ concat (map enc_item (IR P_answer r :: map (IR P_answer) rs ++ ts)) ++ post)
        by apply (at_mem _ _ _ _ _ _ _ HA').
      specialize (IH ts fuel m dlen i' (pre ++ enc_item x) (IR P_answer r) post last HA').
      destruct IH as (post' & HL1 & HL2 & HB & HE); auto.
      { rewrite Hd. cbn [map concat app]. rewrite <- !app_assoc. reflexivity. }
      { rewrite app_length. lia. }
      { cbn [length] in Hf. lia. }
      cbn [comp]. rewrite EC. cbn [enc_item] in HE, HL1, HL2.
      rewrite (app_length (pre ++ enc_item x) (enc_rr r)) in HE, HL1, HL2. fold o in HE, HL1, HL2. cbn [map concat].
      exists post'. split; [|split; [|split]].
      * rewrite !app_length. lia.
      * rewrite !app_length. lia.
      * exact HB.
      * rewrite HE. rewrite <- !app_assoc. reflexivity.
Qed.

(** GotoAnswers ends at the last question *)
Lemma goto_items qs : forall ts fuel m dlen i pre x post,
  at_item m dlen i pre x (qs ++ ts) post -> it_rec i + Z.of_nat (length qs) = it_ql i -> qs <> [] -> (length qs <= fuel)%nat ->
  exists i' pre' x', goto_loop fuel m dlen i = Ret i' /\ at_item m dlen i' pre' x' ts post /\
    pre' ++ enc_item x' = pre ++ concat (map enc_item (x :: qs)).
Proof.
  induction qs as [|q qs IH]; intros ts fuel m dlen i pre x post HA Hr Hq Hf; [congruence|].
  destruct fuel as [|fuel]; [cbn in Hf; lia|]. cbn [goto_loop]. cbn [app] in HA.
  destruct (at_next _ _ _ _ _ _ _ _ HA) as (i' & HN & HA' & Hr' & Hsc). rewrite HN. cbn [bind].
  replace (it_ql i') with (it_ql i) by apply Hsc. cbn [length] in *.
  destruct qs as [|q2 qs].
  - destruct (it_rec i' =? it_ql i) eqn:E; [|cbn in Hr; lia].
    exists i', (pre ++ enc_item x), q. split; [reflexivity|]. split; [exact HA'|].
    cbn [map concat]. rewrite <- !app_assoc, app_nil_r. reflexivity.
  - destruct (it_rec i' =? it_ql i) eqn:E; [cbn [length] in Hr; lia|].
    destruct (IH ts fuel m dlen i' (pre ++ enc_item x) q post HA') as (i2 & pre2 & x2 & HE & HA2 & HP).
    + replace (it_ql i') with (it_ql i) by apply Hsc. lia.
    + discriminate.
    + lia.
    + exists i2, pre2, x2. split; [exact HE|]. split; [exact HA2|]. rewrite HP. cbn [map concat]. rewrite <- !app_assoc. reflexivity.
Qed.

Lemma goto_answers_ok g post m dlen i0 q qs fuel :
  good_msg g -> m = enc_msg g ++ post -> m_qs g = q :: qs -> Z.of_nat (length (enc_msg g)) <= dlen ->
  at_start m i0 g -> (length (m_qs g) <= fuel)%nat ->
  exists i' pre' x', goto_loop fuel m dlen i0 = Ret i' /\
    at_item m dlen i' pre' x' (map (IR P_answer) (m_an g) ++ map (IR P_nameserver) (m_ns g) ++ map (IR P_additional) (m_ar g)) post /\
    pre' ++ enc_item x' = header g ++ concat (map enc_q (m_qs g)).
Proof.
  intros Hg Hm Hq Hd HS Hf. subst m.
  assert (Hi : items_of g = IQ q :: (map IQ qs ++ map (IR P_answer) (m_an g) ++ map (IR P_nameserver) (m_ns g) ++ map (IR P_additional) (m_ar g))).
  { unfold items_of. rewrite Hq. reflexivity. }
  destruct (at_first g post i0 dlen _ _ Hg HS Hd Hi) as (i1 & HN & HA & Hr & Hsc).
  rewrite Hq in Hf. cbn [length] in Hf. destruct fuel as [|fuel]; [lia|]. cbn [goto_loop]. rewrite HN. cbn [bind].
  assert (Hql : it_ql i1 = 1 + Z.of_nat (length qs)).
  { replace (it_ql i1) with (it_ql i0) by apply Hsc. rewrite (as_ql _ _ _ HS), Hq. cbn [length]. lia. }
  rewrite Hr, Hql. destruct qs as [|q2 qs].
  - exists i1, (header g), (IQ q). split; [reflexivity|]. split; [exact HA|]. rewrite Hq. cbn. rewrite app_nil_r. reflexivity.
  - destruct (1 =? 1 + Z.of_nat (length (q2 :: qs))) eqn:E; [cbn [length] in E; lia|].
    destruct (goto_items (map IQ (q2 :: qs)) _ fuel _ _ _ _ _ _ HA) as (i2 & pre2 & x2 & HE & HA2 & HP).
    + rewrite map_length, Hr, Hql. reflexivity.
    + discriminate.
    + rewrite map_length. lia.
    + exists i2, pre2, x2. split; [exact HE|]. split; [exact HA2|]. rewrite HP, Hq. cbn [map concat]. rewrite map_map. reflexivity.
Qed.

Lemma comp_length o last rs : length (comp o last rs) = length rs.
Proof. revert o last. induction rs as [|r rs IH]; intros o last; cbn; auto. destruct (r_class r =? 1); cbn; auto. Qed.

Lemma enc_with_answers g an : length an = length (m_an g) ->
  enc_msg (with_answers g an) = (header g ++ concat (map enc_q (m_qs g))) ++ concat (map enc_rr an) ++
     concat (map enc_item (map (IR P_nameserver) (m_ns g) ++ map (IR P_additional) (m_ar g))).
Proof.
  intros Hl. unfold enc_msg, header, with_answers. cbn [m_idflags m_qs m_an m_ns m_ar]. rewrite Hl.
  rewrite map_app, concat_app, !enc_items_rrs. rewrite <- !app_assoc. reflexivity.
Qed.
Lemma enc_self g : enc_msg g = (header g ++ concat (map enc_q (m_qs g))) ++ concat (map enc_rr (m_an g)) ++
     concat (map enc_item (map (IR P_nameserver) (m_ns g) ++ map (IR P_additional) (m_ar g))).
Proof. destruct g as [a b c d e]. apply (enc_with_answers (mk_msg a b c d e) c eq_refl). Qed.

Lemma compress_ok g q qs post fuel : good_msg g -> m_qs g = q :: qs -> compressible (m_an g) -> Z.of_nat (length (enc_msg g)) <= 16384 ->
  Forall is_byte post -> (length (m_qs g) <= fuel)%nat -> (length (m_an g) < fuel)%nat ->
  let an' := comp (12 + qs_len (m_qs g)) 12 (m_an g) in
  exists post', dns_compress fuel (enc_msg g ++ post) (length (enc_msg g)) =
     Ret (Z.of_nat (length (enc_msg (with_answers g an'))), enc_msg (with_answers g an') ++ post') /\
  length (enc_msg (with_answers g an') ++ post') = length (enc_msg g ++ post) /\
  (length (enc_msg (with_answers g an')) <= length (enc_msg g))%nat /\ Forall is_byte post'.
Proof.
  intros Hg Hq HC H14 Hpost Hf1 Hf2 an'.
  assert (Hne : m_qs g <> []) by (rewrite Hq; discriminate).
  unfold dns_compress, parser_init. pose proof Hg as (Hid & _). pose proof (header_length g Hid) as Hh.
  assert (Hlen12 : (12 <= length (enc_msg g))%nat) by (rewrite enc_msg_items, app_length; lia).
  destruct (Nat.ltb_spec (length (enc_msg g)) 12); [lia|].
  destruct (iter_init_start g post P_unknown 0 0 0 Hg Hpost Hne) as (i & HI & HS). rewrite HI. cbn [bind].
  assert (Hi : items_of g = IQ q :: (map IQ qs ++ map (IR P_answer) (m_an g) ++ map (IR P_nameserver) (m_ns g) ++ map (IR P_additional) (m_ar g))).
  { unfold items_of. rewrite Hq. reflexivity. }
  destruct (at_first g post i (Z.of_nat (length (enc_msg g))) _ _ Hg HS ltac:(lia) Hi) as (i1 & HN & HA & Hr & Hsc).
  rewrite HN. cbn [bind]. rewrite (at_purpose _ _ _ _ _ _ _ HA). cbn [item_purpose purpose_eqb].
  unfold goto_answers.
  set (i0 := iter_info i1 None (it_rec i1) (it_purpose i1) (it_type i1) (it_klass i1) (it_dlen i1)).
  assert (HS0 : at_start (enc_msg g ++ post) i0 g).
  { assert (Hsc0 : same_counts i i0) by (eapply same_counts_trans; [exact Hsc|apply same_counts_info]).
    constructor; [reflexivity| | | |].
    - replace (it_all i0) with (it_all i) by apply Hsc0. apply (as_all _ _ _ HS).
    - replace (it_ql i0) with (it_ql i) by apply Hsc0. apply (as_ql _ _ _ HS).
    - replace (it_qf i0) with (it_qf i) by apply Hsc0. apply (as_qf _ _ _ HS).
    - intros k y Hk. rewrite <- (determine_purpose_counts i i0) by assumption. apply (as_sec _ _ _ HS k y Hk). }
  rewrite (as_qf _ _ _ HS0). change (0 <? 1) with true. cbv iota.
  destruct (goto_answers_ok g post _ (Z.of_nat (length (enc_msg g))) i0 q qs fuel Hg eq_refl Hq ltac:(lia) HS0 Hf1)
    as (i2 & pre & x & HE & HA2 & HP).
  rewrite HE. cbn [bind].
  set (ts := map (IR P_nameserver) (m_ns g) ++ map (IR P_additional) (m_ar g)) in *.
  assert (Hlq : length (pre ++ enc_item x) = (12 + qs_len (m_qs g))%nat).
  { rewrite HP, app_length, Hh. reflexivity. }
  destruct (comp_loop (m_an g) ts fuel (enc_msg g ++ post) (length (enc_msg g)) i2 pre x post 12) as (post' & HL1 & HL2 & HB & HE2); auto.
  - cbn [map concat]. rewrite app_assoc, map_app, concat_app, HP, enc_items_rrs. unfold ts. rewrite enc_self. reflexivity.
  - unfold ts. apply Forall_app. split; apply Forall_map, Forall_forall; cbn; discriminate.
  - rewrite Hlq. unfold qs_len. rewrite Hq. cbn [map concat]. rewrite app_length. unfold enc_q. rewrite !app_length, !be16_length. lia.
  - rewrite Hlq in *. fold an' in HE2, HL1, HL2.
    assert (Hal : length an' = length (m_an g)) by apply comp_length.
    pose proof (enc_with_answers g an' Hal) as EW. fold ts in EW.
    pose proof (enc_self g) as ES. fold ts in ES.
    exists post'. rewrite HE2. split; [|split; [|split]].
    + rewrite EW, <- HP. rewrite <- !app_assoc. reflexivity.
    + rewrite EW, ES, !app_length. lia.
    + rewrite EW, ES, !app_length. lia.
    + apply HB. apply Forall_app. split; auto. now apply enc_msg_bytes.
Qed.

(** ** Meaning of the compressed names *)
Lemma denotes_plain ls : forall pre post, good_name (plain ls) ->
  exists w, denotes 63 (pre ++ enc_name (plain ls) ++ post) (length pre) ls w.
Proof.
  intros pre post [HL _]. cbn in HL. unfold enc_name, plain. cbn [en_labels en_tail].
  revert pre. induction ls as [|l ls IH]; intros pre.
  - exists 1%nat. constructor. cbn [enc_labels app]. rewrite nth_error_app2, Nat.sub_diag by lia. reflexivity.
  - inversion HL as [|? ? [Hl _] HL']; subst. cbn [enc_labels].
    destruct (IH HL' (pre ++ Z.of_nat (length l) :: l)) as [w Hw].
    set (t := enc_labels ls) in *.
    assert (E : pre ++ ((Z.of_nat (length l) :: l ++ t) ++ [0]) ++ post = (pre ++ Z.of_nat (length l) :: l) ++ (t ++ [0]) ++ post).
    { rewrite <- !app_assoc. cbn. rewrite <- !app_assoc. reflexivity. }
    exists (S (length l) + w)%nat. eapply D_label.
    + rewrite nth_error_app2, Nat.sub_diag by lia. reflexivity.
    + lia.
    + apply (slice_at (pre ++ [Z.of_nat (length l)]) l (t ++ [0] ++ post)); [|rewrite app_length; cbn; lia|reflexivity].
      rewrite <- !app_assoc. cbn. rewrite <- !app_assoc. reflexivity.
    + rewrite E. replace (S (length pre) + length l)%nat with (length (pre ++ Z.of_nat (length l) :: l)) by (rewrite app_length; cbn; lia).
      exact Hw.
Qed.

Lemma denotes_ptr pre o post ls w : Z.of_nat o < 16384 ->
  denotes 63 (pre ++ enc_name (ptr_to o) ++ post) o ls w ->
  denotes 63 (pre ++ enc_name (ptr_to o) ++ post) (length pre) ls 2.
Proof.
  intros Ho HD. set (m := pre ++ enc_name (ptr_to o) ++ post) in *. eapply D_ptr with (hi := 192 + Z.of_nat o / 256) (lo := Z.of_nat o mod 256).
  - unfold m. rewrite nth_error_app2, Nat.sub_diag by lia. reflexivity.
  - unfold m. rewrite nth_error_app2 by lia. replace (S (length pre) - length pre)%nat with 1%nat by lia. reflexivity.
  - lia.
  - lia.
  - replace (Z.to_nat ((192 + Z.of_nat o / 256 - 192) * 256 + Z.of_nat o mod 256)) with o by lia. exact HD.
Qed.

Lemma name_ok_good c : name_ok c -> good_name (plain c).
Proof.
  intros H. split; [|exact I]. cbn. eapply Forall_impl; [|exact H]. cbn. intros l [Hl HF]. split; [exact Hl|].
  eapply Forall_impl; [|exact HF]. unfold is_byte. cbn. lia.
Qed.

Lemma chain_denotes rs : forall pre post cur last,
  Forall good_rr rs -> answer_chain cur rs -> Z.of_nat last < 16384 ->
  Z.of_nat (length (pre ++ concat (map enc_rr (comp (length pre) last rs)))) <= 16384 ->
  forall m, m = pre ++ concat (map enc_rr (comp (length pre) last rs)) ++ post ->
  (exists w, denotes 63 m last cur w) ->
  Forall2 (fun r v => exists w, denotes 63 m (v_pos v) (en_labels (r_name r)) w) rs
    (view_rrs P_answer (length pre) (comp (length pre) last rs)) /\
  Forall2 same_but_name rs (comp (length pre) last rs) /\ Forall good_rr (comp (length pre) last rs).
Proof.
  induction rs as [|r rs IH]; intros pre post cur last HG HC Hl H14 m Hm0 HD; [cbn; auto|].
  inversion HG as [|? ? Hgr HG']; subst x l. cbn [answer_chain] in HC. cbn [comp] in *.
  destruct (r_class r =? 1) eqn:EC.
  - destruct HC as (Hn & Hne & HC). set (r' := set_name r (ptr_to last)) in *.
    set (last' := if r_type r =? 5 then (length pre + 12)%nat else last) in *.
    destruct (enc_rr_set_name r (ptr_to last)) as (R0 & ER' & ER & HR0). fold r' in ER'.
    assert (Hpl : (length pre + length (enc_rr r'))%nat = length (pre ++ enc_rr r')) by (rewrite app_length; reflexivity).
    rewrite Hpl in *. cbn [map concat] in H14.
    set (rest := comp (length (pre ++ enc_rr r')) last' rs) in *.
    assert (Hm : m = (pre ++ enc_rr r') ++ concat (map enc_rr rest) ++ post).
    { rewrite Hm0. cbn [map concat]. rewrite <- !app_assoc. reflexivity. }
    assert (HN : exists cur', answer_chain cur' rs /\ exists w, denotes 63 m last' cur' w).
    { unfold last'. destruct (r_type r =? 5) eqn:E5.
      - destruct HC as (c & Hc & Hdat & HC). exists c. split; [exact HC|].
        destruct (denotes_plain c (pre ++ enc_name (ptr_to last) ++ be16 (r_type r) ++ be16 (r_class r) ++ be32 (r_ttl r) ++ be16 (Z.of_nat (length (r_data r))))
           (concat (map enc_rr rest) ++ post) (name_ok_good c Hc)) as [w Hw].
        exists w. rewrite !app_length, !be16_length, be32_length in Hw.
        replace (length pre + 12)%nat with (length pre + (length (enc_name (ptr_to last)) + (2 + (2 + (4 + 2)))))%nat by (cbn; lia).
        rewrite Hm. rewrite enc_labels_wire, <- Hdat in Hw.
        replace ((pre ++ enc_rr r') ++ concat (map enc_rr rest) ++ post) with
          ((pre ++ enc_name (ptr_to last) ++ be16 (r_type r) ++ be16 (r_class r) ++ be32 (r_ttl r) ++ be16 (Z.of_nat (length (r_data r)))) ++ r_data r ++ concat (map enc_rr rest) ++ post); [exact Hw|].
        unfold enc_rr at 2. unfold r', set_name. cbn [r_name r_type r_class r_ttl r_data]. rewrite <- !app_assoc. reflexivity.
      - exists cur. split; [exact HC|exact HD]. }
    destruct HN as (cur' & HC' & HD').
    destruct (fun a b => IH (pre ++ enc_rr r') post cur' last' HG' HC' a b m Hm) as (I1 & I2 & I3).
    + unfold last'. rewrite ER', !app_length in H14. cbn [length enc_name ptr_to en_labels en_tail enc_labels app] in H14.
      destruct (r_type r =? 5); [|lia]. destruct HC as (c & _ & Hdat & _).
      assert (1 <= length (r_data r))%nat by (rewrite Hdat; destruct c; cbn [wire length]; lia). lia.
    + fold rest. rewrite <- app_assoc. exact H14.
    + exact HD'.
    + fold rest in I1, I2, I3. split; [|split].
      * cbn [view_rrs]. rewrite Hpl. constructor; [|exact I1]. cbn [v_pos]. exists 2%nat. rewrite Hn. cbn [plain en_labels].
        destruct HD as [w0 HD]. assert (Em : m = pre ++ enc_name (ptr_to last) ++ (R0 ++ concat (map enc_rr rest) ++ post)).
        { rewrite Hm, ER', <- !app_assoc. reflexivity. }
        rewrite Em in HD |- *. eapply denotes_ptr; eauto.
      * constructor; [repeat split|exact I2].
      * constructor; [|exact I3]. apply set_name_good; auto.
  - destruct HC as (Hn & HC).
    assert (Hpl : (length pre + length (enc_rr r))%nat = length (pre ++ enc_rr r)) by (rewrite app_length; reflexivity).
    rewrite Hpl in *. cbn [map concat] in H14.
    set (rest := comp (length (pre ++ enc_rr r)) last rs) in *.
    assert (Hm : m = (pre ++ enc_rr r) ++ concat (map enc_rr rest) ++ post).
    { rewrite Hm0. cbn [map concat]. rewrite <- !app_assoc. reflexivity. }
    destruct (fun b => IH (pre ++ enc_rr r) post cur last HG' HC Hl b m Hm) as (I1 & I2 & I3).
    + fold rest. rewrite <- app_assoc. exact H14.
    + exact HD.
    + fold rest in I1, I2, I3. split; [|split].
      * cbn [view_rrs]. rewrite Hpl. constructor; [|exact I1]. cbn [v_pos].
        destruct r as [[ls tl] ty kl ttl data]. cbn in Hn. subst tl. cbn [r_name en_labels].
        destruct Hgr as (Hgn & _). cbn [r_name] in Hgn.
        destruct (denotes_plain ls pre (be16 ty ++ be16 kl ++ be32 ttl ++ be16 (Z.of_nat (length data)) ++ data ++ concat (map enc_rr rest) ++ post) Hgn) as [w Hw].
        exists w. rewrite Hm. unfold enc_rr at 1. cbn [r_name r_type r_class r_ttl r_data]. rewrite <- !app_assoc in *. exact Hw.
      * constructor; [repeat split|exact I2].
      * constructor; [exact Hgr|exact I3].
Qed.

Lemma chain_compressible rs : forall cur, answer_chain cur rs -> Forall good_rr rs -> compressible rs.
Proof.
  induction rs as [|r rs IH]; intros cur HC HG; [constructor|]. inversion HG as [|? ? Hgr HG']; subst.
  cbn in HC. destruct (r_class r =? 1) eqn:EC.
  - destruct HC as (Hn & Hne & HC). constructor.
    + intros _. rewrite Hn. destruct cur as [|l ls]; [congruence|]. unfold enc_name, plain. cbn [en_labels en_tail enc_labels].
      rewrite app_length. cbn. lia.
    + destruct (r_type r =? 5); [destruct HC as (c & _ & _ & HC)|]; eapply IH; eauto.
  - constructor; [lia|]. eapply IH; [apply HC|auto].
Qed.
