(** Generate, initialisation from an existing message, copied records. *)
From Verif Require Import Base BaseFacts Name_Model Name_Spec Name_Proofs Parser_Model Parser_Spec Parser_Proofs Parser_Walk
  Gen_Model Gen_Spec Gen_Proofs Compress_Spec Compress_Proofs.
Require Import ZifyBool ZifyNat.

Lemma some_inj {A} (a b : A) : Some a = Some b -> a = b. Proof. congruence. Qed.

Lemma cstr_app t r : Forall (fun c => c <> 0) t -> cstr (t ++ 0 :: r) = t.
Proof.
  induction t as [|c t IH]; intros H; cbn; [reflexivity|]. inversion H; subst.
  destruct (c =? 0) eqn:E; [lia|]. now rewrite IH.
Qed.
Lemma dotted_nonzero ls : name_ok ls -> Forall (fun c => c <> 0) (dotted ls).
Proof.
  induction ls as [|l [|l2 ls] IH]; intros H; [constructor| |].
  - inversion H as [|? ? [_ Hl] _]; subst. cbn. eapply Forall_impl; [|exact Hl]. cbn. lia.
  - inversion H as [|? ? [_ Hl] H']; subst. change (dotted (l :: l2 :: ls)) with (l ++ 46 :: dotted (l2 :: ls)).
    apply Forall_app. split; [eapply Forall_impl; [|exact Hl]; cbn; lia|]. constructor; [lia|]. now apply IH.
Qed.

(** the record data handed to Generate and the call it stands for *)
Inductive generate_data : Z -> list Z -> sop -> list (list Z) -> Z -> Z -> Prop :=
| GD_raw ty data n kl ttl : ty = 1 \/ ty = 28 \/ ty = 65 \/ ty = 16 -> generate_data ty data (SRaw n ty kl data ttl) n kl ttl
| GD_cname c rest n kl ttl : name_ok c -> generate_data 5 (dotted c ++ 0 :: rest) (SCName n c ttl) n kl ttl
| GD_mx pref s rest n kl ttl : name_ok s -> 0 <= pref < 65536 ->
    generate_data 15 (be16 pref ++ dotted s ++ 0 :: rest) (SMX n pref s ttl) n kl ttl.

Lemma str_in_ok s rest : str_in (s ++ 0 :: rest) = Ret (cstr (s ++ 0 :: rest)).
Proof. unfold str_in. rewrite existsb_app. cbn [existsb]. change (0 =? 0) with true. rewrite orb_true_r. reflexivity. Qed.
Lemma generate_step ty data s n kl ttl g : generate_data ty data s n kl ttl ->
  gen_generate (dotted n) ty kl data ttl g = gen_step (call_of s) g.
Proof.
  intros H. destruct H as [ty data n kl ttl Hty|c rest n kl ttl Hc|pref s rest n kl ttl Hs Hp]; unfold gen_generate.
  - destruct Hty as [->|[->|[->| ->]]]; reflexivity.
  - cbn [Z.eqb Pos.eqb orb call_of gen_step]. rewrite str_in_ok. cbn [bind]. rewrite cstr_app by now apply dotted_nonzero. reflexivity.
  - change ((15 =? 1) || (15 =? 28) || (15 =? 65) || (15 =? 16)) with false.
    change ((15 =? 5) || (15 =? 12) || (15 =? 2)) with false. change (15 =? 15) with true. cbv iota.
    rewrite (rd16_at [] pref (dotted s ++ 0 :: rest) (be16 pref ++ dotted s ++ 0 :: rest) 0 eq_refl eq_refl Hp). cbn [bind].
    cbn [call_of gen_step]. change (skipn 2 (be16 pref ++ dotted s ++ 0 :: rest)) with (dotted s ++ 0 :: rest).
    rewrite str_in_ok. cbn [bind]. rewrite cstr_app by now apply dotted_nonzero. reflexivity.
Qed.

(** ** The spec messages are well-formed *)
Definition good_parts (g : message) : Prop :=
  length (m_idflags g) = 4%nat /\ Forall is_byte (m_idflags g) /\
  Forall good_q (m_qs g) /\ Forall good_rr (m_an g) /\ Forall good_rr (m_ns g) /\ Forall good_rr (m_ar g).

Lemma wire_enc c : wire c = enc_name (plain c). Proof. symmetry. apply enc_labels_wire. Qed.

Lemma sop_rr_good s r : sop_ok s -> sop_rr s = Some r -> good_rr r.
Proof.
  intros HO HE. destruct s; cbn [sop_rr] in HE; try discriminate; apply some_inj in HE; subst r; cbn [sop_ok] in HO; unfold ttl_ok in *;
    unfold good_rr; cbn [r_name r_type r_class r_ttl r_data].
  - destruct HO as (Hn & Hc & Ht & Hl). split; [now apply name_ok_good|]. repeat split; try lia.
    rewrite wire_enc. apply enc_name_bytes. now apply name_ok_good.
  - destruct HO as (Hn & Hc & Ht & Hp & Hl). split; [now apply name_ok_good|].
    rewrite app_length, be16_length. repeat split; try lia.
    apply Forall_app. split; [apply be16_bytes|]. rewrite wire_enc. apply enc_name_bytes. now apply name_ok_good.
  - destruct HO as (Hn & Hl & Hb & Ht). split; [now apply name_ok_good|]. rewrite Hl. repeat split; auto; lia.
  - destruct HO as (Hn & Hl & Hb & Ht). split; [now apply name_ok_good|]. rewrite Hl. repeat split; auto; lia.
  - split; [apply name_ok_good; constructor|]. repeat split; auto; cbn; lia.
  - destruct HO as (Hn & Ht1 & Hk & Ht & Hl & Hb). split; [now apply name_ok_good|]. repeat split; auto; lia.
Qed.

Lemma add_rr_good p r g : good_parts g -> good_rr r -> good_parts (add_rr p r g).
Proof.
  intros (H1 & H2 & H3 & H4 & H5 & H6) Hr. unfold good_parts. destruct p; cbn [add_rr m_idflags m_qs m_an m_ns m_ar];
    repeat split; auto; apply Forall_app; auto.
Qed.
Lemma spec_step_good s c st : sop_ok s -> good_parts (fst st) -> good_parts (fst (spec_step s c st)).
Proof.
  intros HO HG. destruct st as [m p]. unfold spec_step. destruct (c =? 0); [|exact HG].
  destruct (sop_rr s) as [r|] eqn:E.
  - pose proof (sop_rr_good s r HO E) as Hr. destruct s; try discriminate; cbn [fst]; now apply add_rr_good.
  - destruct s; try discriminate; cbn [fst] in *; [|exact HG].
    destruct HG as (H1 & H2 & H3 & H4 & H5 & H6). unfold good_parts. cbn [m_idflags m_qs m_an m_ns m_ar].
    repeat split; auto. apply Forall_app. split; auto. constructor; [|constructor].
    cbn in HO. destruct HO as (Hn & Ht & Hk). split; [now apply name_ok_good|]. cbn. lia.
Qed.
Lemma spec_run_good ss : forall cs st, Forall sop_ok ss -> good_parts (fst st) -> good_parts (fst (spec_run ss cs st)).
Proof.
  induction ss as [|s ss IH]; intros cs st HO HG; cbn; auto. destruct cs as [|c cs]; auto.
  inversion HO; subst. apply IH; auto. now apply spec_step_good.
Qed.

(** ** Starting from a copy of a message *)
Definition last_section (g : message) : purpose :=
  match m_ar g, m_ns g, m_an g with
  | _ :: _, _, _ => P_additional | [], _ :: _, _ => P_nameserver | [], [], _ :: _ => P_answer | [], [], [] => P_question
  end.
Definition stripped (g : message) : message := mk_msg (m_idflags g) (m_qs g) (m_an g) [] [].

Lemma strip_items xs : forall ts fuel m dlen i pre x post,
  at_item m dlen i pre x (xs ++ ts) post ->
  Forall (fun y => item_purpose y = P_question \/ item_purpose y = P_answer) xs ->
  Forall (fun y => item_purpose y = P_nameserver \/ item_purpose y = P_additional) ts ->
  (length xs < fuel)%nat ->
  strip_loop fuel m dlen i = Ret (match ts with [] => dlen | _ => Z.of_nat (length (pre ++ concat (map enc_item (x :: xs)))) end).
Proof.
  induction xs as [|y xs IH]; intros ts fuel m dlen i pre x post HA HX HT Hf; (destruct fuel as [|fuel]; [lia|]); cbn [strip_loop].
  - cbn [app] in HA. destruct ts as [|t ts].
    + rewrite (at_last _ _ _ _ _ _ HA). reflexivity.
    + destruct (at_next _ _ _ _ _ _ _ _ HA) as (i' & HN & HA' & _). rewrite HN. cbn [bind].
      rewrite (at_purpose _ _ _ _ _ _ _ HA'). pose proof (Forall_inv HT) as Ht. cbn beta in Ht.
      destruct Ht as [-> | ->]; cbn [purpose_eqb orb map concat]; rewrite app_nil_r; reflexivity.
  - cbn [app] in HA. destruct (at_next _ _ _ _ _ _ _ _ HA) as (i' & HN & HA' & _). rewrite HN. cbn [bind].
    rewrite (at_purpose _ _ _ _ _ _ _ HA'). pose proof (Forall_inv HX) as Hx. cbn beta in Hx.
    replace (purpose_eqb (item_purpose y) P_question || purpose_eqb (item_purpose y) P_answer) with true
      by (destruct Hx as [-> | ->]; reflexivity).
    cbn [length] in Hf.
    rewrite (IH ts fuel m dlen i' _ _ _ HA' (Forall_inv_tail HX) HT) by lia.
    cbn [map concat]. destruct ts; [reflexivity|]. rewrite <- !app_assoc. reflexivity.
Qed.

Lemma stripped_prefix g : enc_msg g = header g ++ (concat (map enc_q (m_qs g)) ++ concat (map enc_rr (m_an g))) ++
   concat (map enc_rr (m_ns g)) ++ concat (map enc_rr (m_ar g)).
Proof. unfold enc_msg, header. rewrite <- !app_assoc. reflexivity. Qed.

Lemma good_bytes_pre g : good_msg g -> Forall is_byte (enc_msg g ++ []).
Proof. intros. rewrite app_nil_r. now apply enc_msg_bytes. Qed.

Lemma striped_length_ok g post fuel : good_msg g -> m_qs g <> [] -> Forall is_byte post -> (length (items_of g) < fuel)%nat ->
  striped_length fuel (enc_msg g ++ post) (length (enc_msg g)) = Ret (Z.of_nat (12 + qs_len (m_qs g) + rrs_len (m_an g))).
Proof.
  intros Hg Hq Hp Hf. unfold striped_length, parser_init. pose proof Hg as (Hid & _). pose proof (header_length g Hid) as Hh.
  assert (Hlen12 : (12 <= length (enc_msg g))%nat) by (rewrite enc_msg_items, app_length; lia).
  destruct (Nat.ltb_spec (length (enc_msg g)) 12); [lia|].
  destruct (iter_init_start g post P_unknown 0 0 0 Hg Hp Hq) as (i & HI & HS). rewrite HI. cbn [bind].
  destruct (m_qs g) as [|q qs] eqn:Eq; [congruence|].
  set (ts := map (IR P_nameserver) (m_ns g) ++ map (IR P_additional) (m_ar g)).
  set (xs := map IQ qs ++ map (IR P_answer) (m_an g)).
  assert (Hi : items_of g = IQ q :: (xs ++ ts)).
  { unfold items_of, xs, ts. rewrite Eq. cbn [map app]. rewrite <- !app_assoc. reflexivity. }
  destruct (at_first g post i (Z.of_nat (length (enc_msg g))) _ _ Hg HS ltac:(lia) Hi) as (i1 & HN & HA & Hr & Hsc).
  destruct fuel as [|fuel]; [lia|]. cbn [strip_loop]. rewrite HN. cbn [bind].
  rewrite (at_purpose _ _ _ _ _ _ _ HA). cbn [item_purpose purpose_eqb orb].
  rewrite (strip_items xs ts fuel _ _ _ _ _ _ HA).
  - f_equal. assert (HL : length (header g ++ concat (map enc_item (IQ q :: xs))) = (12 + qs_len (m_qs g) + rrs_len (m_an g))%nat).
    { rewrite app_length, Hh. cbn [map concat enc_item]. unfold xs. rewrite map_app, concat_app, enc_items_qs, enc_items_rrs, !app_length.
      unfold qs_len, rrs_len. rewrite Eq. cbn [map concat]. rewrite app_length. lia. }
    rewrite Eq in HL. destruct ts as [|t ts'] eqn:Et; [|rewrite HL; reflexivity].
    f_equal. rewrite <- HL. rewrite enc_msg_items, Hi, app_nil_r. reflexivity.
  - unfold xs. apply Forall_app. split; apply Forall_map, Forall_forall; cbn; auto.
  - unfold ts. apply Forall_app. split; apply Forall_map, Forall_forall; cbn; auto.
  - rewrite Hi in Hf. cbn [length] in Hf. rewrite app_length in Hf. lia.
Qed.

Lemma bwrite_app a b c l : length l = length b -> bwrite (a ++ b ++ c) (length a) l = Ret (a ++ l ++ c).
Proof.
  intros H. rewrite bwrite_ok by (rewrite !app_length; lia).
  rewrite firstn_app, firstn_all, Nat.sub_diag, firstn_O, app_nil_r. do 2 f_equal. f_equal.
  rewrite skipn_app, skipn_all2 by lia. replace (length a + length l - length a)%nat with (length b) by lia.
  rewrite skipn_app, skipn_all, Nat.sub_diag. reflexivity.
Qed.

Lemma last_num (q a n r : nat) : q <> O ->
  (if 0 <? Z.of_nat r then 10%nat else if 0 <? Z.of_nat n then 8%nat else if 0 <? Z.of_nat a then 6%nat else 4%nat) =
  (match r, n, a with S _, _, _ => 10 | O, S _, _ => 8 | O, O, S _ => 6 | O, O, O => 4 end)%nat.
Proof. destruct r, n, a; reflexivity. Qed.

Lemma last_section_num g :
  sec_num (last_section g) = (match length (m_ar g), length (m_ns g), length (m_an g) with S _, _, _ => 10 | O, S _, _ => 8 | O, O, S _ => 6 | O, O, O => 4 end)%nat.
Proof. unfold last_section. destruct (m_ar g), (m_ns g), (m_an g); reflexivity. Qed.

Lemma last_section_later g : later_empty (last_section g) g.
Proof. unfold last_section. destruct (m_ar g) eqn:E1, (m_ns g) eqn:E2, (m_an g) eqn:E3; cbn; auto. Qed.

Lemma sec_num_ok p : num_ok (sec_num p). Proof. destruct p; unfold num_ok; cbn; auto 6. Qed.

Lemma init_copy_plain fuel b g post : good_msg g -> m_qs g <> [] -> (length (enc_msg g) <= length b)%nat ->
  exists g', gen_init_copy fuel b (enc_msg g ++ post) (length (enc_msg g)) false = Ret (Some g') /\
    built g' (g, last_section g) /\ length (g_buf g') = length b /\ g_itr g' = length (enc_msg g).
Proof.
  intros Hg Hq Hl. destruct (msg_counts g post Hg) as (E4 & E6 & E8 & E10). pose proof Hg as (Hid & _).
  pose proof (header_length g Hid) as Hh.
  assert (Hlen12 : (12 <= length (enc_msg g))%nat) by (rewrite enc_msg_items, app_length; lia).
  unfold gen_init_copy, rd16. rewrite E4, E6, E8, E10. cbn [bind].
  destruct (Z.of_nat (length (enc_msg g)) <? 0) eqn:E0; [lia|]. rewrite Nat2Z.id.
  unfold rdn. rewrite (slice_at [] (enc_msg g) post (enc_msg g ++ post) 0 _ eq_refl eq_refl eq_refl). cbn [bind].
  rewrite bwrite_ok by lia. cbn [bind firstn app Nat.add].
  rewrite (last_num (length (m_qs g))) by (destruct (m_qs g); [congruence|discriminate]). rewrite <- last_section_num.
  eexists. split; [reflexivity|]. split; [|split].
  - constructor; cbn [g_buf g_itr g_num fst snd].
    + constructor; cbn [g_buf g_itr g_num]; [rewrite app_length, skipn_length; lia|apply sec_num_ok].
    + reflexivity.
    + exact Hid.
    + rewrite firstn_app, firstn_all, Nat.sub_diag, firstn_O, app_nil_r. reflexivity.
    + apply last_section_later.
  - cbn [g_buf]. rewrite app_length, skipn_length. lia.
  - reflexivity.
Qed.

Lemma init_copy_strip fuel b g post : good_msg g -> m_qs g <> [] -> Forall is_byte post -> (length (items_of g) < fuel)%nat ->
  (length (enc_msg (stripped g)) <= length b)%nat ->
  exists g', gen_init_copy fuel b (enc_msg g ++ post) (length (enc_msg g)) true = Ret (Some g') /\
    built g' (stripped g, last_section (stripped g)) /\ length (g_buf g') = length b /\ g_itr g' = length (enc_msg (stripped g)).
Proof.
  intros Hg Hq Hp Hf Hl. destruct (msg_counts g post Hg) as (E4 & E6 & E8 & E10). pose proof Hg as (Hid & _).
  pose proof (header_length g Hid) as Hh.
  unfold gen_init_copy. unfold rd16 at 1 2 3 4. rewrite E4, E6, E8, E10. cbn [bind].
  rewrite (striped_length_ok g post fuel Hg Hq Hp Hf). cbn [bind].
  set (n := (12 + qs_len (m_qs g) + rrs_len (m_an g))%nat).
  destruct (Z.of_nat n <? 0) eqn:E0; [lia|]. rewrite Nat2Z.id.
  set (body := concat (map enc_q (m_qs g)) ++ concat (map enc_rr (m_an g))).
  set (hd := m_idflags g ++ be16 (Z.of_nat (length (m_qs g))) ++ be16 (Z.of_nat (length (m_an g)))).
  assert (Hhd : length hd = 8%nat) by (unfold hd; rewrite !app_length, Hid; reflexivity).
  set (c2 := be16 (Z.of_nat (length (m_ns g))) ++ be16 (Z.of_nat (length (m_ar g)))).
  assert (Hpre : enc_msg g ++ post = (hd ++ c2 ++ body) ++ (concat (map enc_rr (m_ns g)) ++ concat (map enc_rr (m_ar g)) ++ post)).
  { unfold enc_msg, hd, c2, body. rewrite <- !app_assoc. reflexivity. }
  assert (Hn : n = length (hd ++ c2 ++ body)).
  { unfold n, qs_len, rrs_len, c2, body. rewrite !app_length, Hhd, !be16_length. lia. }
  assert (HS : enc_msg (stripped g) = hd ++ [0;0;0;0] ++ body).
  { unfold enc_msg, stripped, hd, body. cbn [m_idflags m_qs m_an m_ns m_ar map concat length]. rewrite !app_nil_r, <- !app_assoc. reflexivity. }
  assert (HSl : length (enc_msg (stripped g)) = n).
  { rewrite HS, Hn, !app_length. reflexivity. }
  unfold rdn. rewrite Hpre. rewrite (slice_at [] (hd ++ c2 ++ body) _ ((hd ++ c2 ++ body) ++ concat (map enc_rr (m_ns g)) ++ concat (map enc_rr (m_ar g)) ++ post) 0 n eq_refl eq_refl Hn). cbn [bind].
  rewrite bwrite_ok by lia. cbn [bind firstn app Nat.add]. rewrite <- app_assoc, <- app_assoc.
  replace 8%nat with (length hd) by exact Hhd. rewrite (bwrite_app hd c2) by reflexivity. cbn [bind].
  change (0 <? 0) with false. cbv iota.
  assert (Hnum : (if 0 <? Z.of_nat (length (m_an g)) then 6%nat else 4%nat) = sec_num (last_section (stripped g))).
  { unfold last_section, stripped. cbn. destruct (m_an g); reflexivity. }
  rewrite Hnum. rewrite <- Hn.
  assert (Hall : hd ++ [0;0;0;0] ++ body ++ skipn n b = enc_msg (stripped g) ++ skipn n b).
  { rewrite HS, <- !app_assoc. reflexivity. }
  eexists. split; [reflexivity|]. cbn [g_buf g_itr]. rewrite Hall. split; [|split].
  - constructor; cbn [g_buf g_itr g_num fst snd].
    + constructor; cbn [g_buf g_itr g_num]; [rewrite app_length, skipn_length, HSl; unfold n in *; lia|apply sec_num_ok].
    + reflexivity.
    + exact Hid.
    + rewrite <- HSl. rewrite firstn_app, firstn_all, Nat.sub_diag, firstn_O, app_nil_r. reflexivity.
    + apply last_section_later.
  - rewrite app_length, skipn_length. lia.
  - congruence.
Qed.
