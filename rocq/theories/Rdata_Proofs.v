From Coq Require Import String.
From Verif Require Import Base BaseFacts List2Facts Name_Model Name_Proofs Parser_Model Gen_Model Slist_Model Replace_Props Addr_Model Cht_Model Cache_Model Rdata_Model.
Require Import ZifyBool ZifyNat.

(** * Replacing in a part of the buffer *)
Lemma replaced_count p r c x y : p <> [] -> replaced p r c x y -> (c <= length x)%nat.
Proof. intros Hp. assert (1 <= length p)%nat by (destruct p; [contradiction|cbn [length]; lia]). induction 1 as [x Hn|a b c y Hm H' IH]; [lia|]. rewrite !app_length. lia. Qed.
Lemma replaced_no0 p r c x y : ~ In 0 r -> replaced p r c x y -> ~ In 0 x -> ~ In 0 y.
Proof.
  intros Hr. induction 1 as [x Hn|a b c y Hm H' IH]; [auto|]. intros Hx. rewrite !in_app_iff in *. intros [H|[H|H]]; [apply Hx; auto|auto|]. apply IH; [|exact H]. intros X. apply Hx. auto.
Qed.
Lemma replace_checked_ok p r c x y rest size fuel : p <> [] -> ~ In 0 x -> ~ In 0 r -> replaced p r c x y -> (size <= length (x ++ 0%Z :: rest))%nat ->
  Z.of_nat (length y) + 1 < 2147483648 -> (length x < fuel)%nat ->
  if Nat.leb (length y + 1) size
  then exists rest', replace_checked fuel (x ++ 0 :: rest) p r (Z.of_nat size) = Ret (Some (y ++ 0 :: rest')) /\ length (y ++ 0 :: rest') = length (x ++ 0 :: rest)
  else replace_checked fuel (x ++ 0 :: rest) p r (Z.of_nat size) = Ret None.
Proof.
  intros Hp Hx Hr H Hsz Hs Hf. pose proof (replaced_count _ _ _ _ _ Hp H) as Hc. unfold replace_checked. rewrite zlen_ok by exact Hx. rewrite firstn_app_l.
  rewrite (count_sub_ok p r Hp c x y H fuel ltac:(lia)). cbn [bind]. replace (Z.of_nat (length x) + 1 + (Z.of_nat (length r) - Z.of_nat (length p)) * Z.of_nat c) with (Z.of_nat (length y) + 1) by (rewrite (replaced_length p r c x y H); lia).
  rewrite (Z.mod_small _ 18446744073709551616) by lia. rewrite (Z.mod_small _ 4294967296) by lia. destruct (Z.ltb_spec (Z.of_nat (length y) + 1) 2147483648); [|lia]. rewrite Z.gtb_ltb.
  destruct (Nat.leb_spec (length y + 1) size) as [HL|HL].
  - destruct (Z.ltb_spec (Z.of_nat size) (Z.of_nat (length y) + 1)); [lia|]. destruct (replace_loop_ok p r Hp Hr c x y H Hx [] rest fuel ltac:(lia)) as (rest' & E & Hl); [cbn [length app]; lia|]. cbn [app length] in *. rewrite E. exists rest'. split; [reflexivity|exact Hl].
  - destruct (Z.ltb_spec (Z.of_nat size) (Z.of_nat (length y) + 1)); [reflexivity|lia].
Qed.

Lemma bwrite_at0 (b l : list Z) : (length l <= length b)%nat -> bwrite b 0 l = Ret (l ++ skipn (length l) b).
Proof. intros H. unfold bwrite, write. cbn [Nat.add firstn app]. destruct (Nat.leb_spec (length l) (length b)); [reflexivity|lia]. Qed.
Lemma give_up_ok b : b <> [] -> exists b', give_up b = Ret (-1, b', 0) /\ length b' = length b.
Proof.
  intros H. unfold give_up. assert (1 <= length b)%nat by (destruct b; [contradiction|cbn [length]; lia]). rewrite bwrite_at0 by (cbn [length]; lia). cbn [bind]. eexists. split; [reflexivity|]. rewrite app_length, skipn_length. cbn [length]. lia.
Qed.

(** What the common part of the field parsers does. *)
Lemma put_text_ok fmt pre val b size c1 f1 : ~ In 0 fmt -> ~ In 0 pre -> replaced [37; 116] pre c1 fmt f1 -> (size <= length b)%nat -> Z.of_nat (length f1) + 1 < 2147483648 ->
  ((size < length fmt + 1)%nat -> put_text fmt pre val b size = Ret (-1, b, 0)) /\
  ((length fmt + 1 <= size)%nat ->
   if Nat.ltb size (length f1 + 1) then exists b', put_text fmt pre val b size = Ret (-1, b', 0) /\ length b' = length b
   else match val with
        | Ret None => exists b', put_text fmt pre val b size = Ret (-1, b', 0) /\ length b' = length b
        | Ret (Some (v, used)) => ~ In 0 v -> forall c2 f2, replaced [37; 118] v c2 f1 f2 -> Z.of_nat (length f2) + 1 < 2147483648 ->
            if Nat.ltb size (length f2 + 1) then exists b', put_text fmt pre val b size = Ret (-1, b', 0) /\ length b' = length b
            else exists rest, put_text fmt pre val b size = Ret (Z.of_nat (length f2), f2 ++ 0 :: rest, used) /\ length (f2 ++ 0 :: rest) = length b
        | UBR => put_text fmt pre val b size = UBR
        | UBW => put_text fmt pre val b size = UBW
        | Fuel => put_text fmt pre val b size = Fuel
        end).
Proof.
  intros Hf Hp R1 Hb Hl. unfold put_text. destruct (Nat.ltb_spec size (length fmt + 1)) as [H1|H1].
  - split; [reflexivity|lia].
  - split; [lia|intros _]. rewrite bwrite_at0 by (rewrite app_length; cbn [length]; lia). cbn [bind].
    set (r0 := skipn (length (fmt ++ [0])) b). assert (L0 : length (fmt ++ 0 :: r0) = length b). { unfold r0. rewrite app_length. cbn [length]. rewrite skipn_length, app_length. cbn [length]. lia. }
    rewrite <- app_assoc. cbn [app].
    pose proof (replace_checked_ok [37; 116] pre c1 fmt f1 r0 size (S (length b)) ltac:(discriminate) Hf Hp R1 ltac:(lia) Hl ltac:(lia)) as HR1.
    destruct (Nat.leb_spec (length f1 + 1) size) as [H2|H2]; destruct (Nat.ltb_spec size (length f1 + 1)) as [H3|H3]; try lia.
    + destruct HR1 as (r1 & -> & L1). cbn [bind]. assert (G1 : f1 ++ 0 :: r1 <> []) by (destruct f1; discriminate).
      destruct val as [[[v used]|]| | |]; cbn [bind]; try reflexivity.
      * intros Hv c2 f2 R2 Hl2. pose proof (replaced_no0 _ _ _ _ _ Hp R1 Hf) as Hf1.
        pose proof (replace_checked_ok [37; 118] v c2 f1 f2 r1 size (S (length b)) ltac:(discriminate) Hf1 Hv R2 ltac:(lia) Hl2 ltac:(lia)) as HR2.
        destruct (Nat.leb_spec (length f2 + 1) size) as [H4|H4]; destruct (Nat.ltb_spec size (length f2 + 1)) as [H5|H5]; try lia.
        -- destruct HR2 as (r2 & -> & L2). cbn [bind]. rewrite zlen_ok by (exact (replaced_no0 _ _ _ _ _ Hv R2 Hf1)). exists r2. split; [reflexivity|lia].
        -- rewrite HR2. cbn [bind]. destruct (give_up_ok _ G1) as (b' & -> & L'). exists b'. split; [reflexivity|lia].
      * destruct (give_up_ok _ G1) as (b' & -> & L'). exists b'. split; [reflexivity|lia].
    + rewrite HR1. cbn [bind]. destruct (give_up_ok (fmt ++ 0 :: r0)) as (b' & -> & L'); [destruct fmt; discriminate|]. exists b'. split; [reflexivity|lia].
Qed.

(** * Names for the cache *)
Lemma no_t x : ~ In 37 x -> forall a b, x <> a ++ [37; 116] ++ b.
Proof. intros H a b ->. apply H, in_app_iff. right. left. reflexivity. Qed.
Lemma fmt_v_t pre : replaced [37; 116] pre 0 [37; 118] [37; 118].
Proof. constructor. intros [|x [|y [|z a]]] b E; discriminate E. Qed.
Lemma fmt_v_v v : replaced [37; 118] v 1 [37; 118] v.
Proof.
  assert (H : replaced [37; 118] v 1 ([] ++ [37; 118] ++ []) ([] ++ v ++ [])).
  { apply replaced_one; [intros; cbn [length]; lia|]. constructor. intros a b E. destruct a; discriminate. }
  cbn [app] in H. rewrite app_nil_r in H. exact H.
Qed.
Lemma cstr_in0 l : ~ In 0 (cstr l).
Proof. induction l as [|c l IH]; cbn [cstr]; [auto|]. destruct (Z.eqb_spec c 0); [auto|]. intros [H|H]; [congruence|auto]. Qed.
Lemma cstr_len0 l : In 0 l -> (length (cstr l) < length l)%nat.
Proof. induction l as [|c l IH]; cbn [cstr In length]; [intros []|]. destruct (Z.eqb_spec c 0); cbn [length]; [lia|]. intros [H|H]; [congruence|]. specialize (IH H). lia. Qed.
Lemma field_name_text nf m len host pos v used : field_text nf m len host FName pos = Ret (Some (v, used)) -> ~ In 0 v /\ (length v < length host)%nat.
Proof.
  unfold field_text. unfold get_host_name. pose proof (name_loop_safe nf true len m pos host 0 0 false ltac:(lia)) as HS. destruct (name_loop nf true len m pos (Some host) 0 0 false) as [[[n|] [b|]]| | |]; cbn [bind]; try discriminate.
  destruct HS as (b' & Hb & HL & H0). assert (b' = b) by congruence. subst b'. intros H. assert (Hv : v = cstr b) by congruence. subst v. split; [apply cstr_in0|]. rewrite <- HL. apply cstr_len0, H0. discriminate.
Qed.
Lemma field_name_safe nf m len host pos : field_text nf m len host FName pos <> UBW.
Proof.
  unfold field_text, get_host_name. pose proof (name_loop_safe nf true len m pos host 0 0 false ltac:(lia)) as HS. destruct (name_loop nf true len m pos (Some host) 0 0 false) as [[[n|] [b|]]| | |]; cbn [bind]; try discriminate. contradiction.
Qed.
Lemma name_to_cache nf m len host pre pos b size : (size <= length b)%nat -> length host = 254%nat -> ~ In 0 pre ->
  match field_text nf m len host FName pos with
  | Ret (Some (v, used)) =>
    if Nat.leb (length v + 1) size && Nat.leb 3 size then exists rest, field_parse nf m len host None pre FName pos b size = Ret (Z.of_nat (length v + 1), v ++ 0 :: rest, used) /\ length (v ++ 0 :: rest) = length b
    else exists b', field_parse nf m len host None pre FName pos b size = Ret (-1, b', 0) /\ length b' = length b
  | Ret None => exists b', field_parse nf m len host None pre FName pos b size = Ret (-1, b', 0) /\ length b' = length b
  | UBR => (3 <= size)%nat -> field_parse nf m len host None pre FName pos b size = UBR
  | UBW => False
  | Fuel => (3 <= size)%nat -> field_parse nf m len host None pre FName pos b size = Fuel
  end.
Proof.
  intros Hb Hh Hp. pose proof (put_text_ok [37; 118] pre (field_text nf m len host FName pos) b size 0 [37; 118] ltac:(cbn; intuition discriminate) Hp (fmt_v_t pre) Hb ltac:(cbn [length]; lia)) as (P1 & P2). cbn [length Nat.add] in P1, P2. cbn [field_parse].
  pose proof (field_name_safe nf m len host pos) as HS. destruct (field_text nf m len host FName pos) as [[[v used]|]| | |] eqn:E; [| | |congruence|].
  - destruct (field_name_text _ _ _ _ _ _ _ E) as (Hv & Lv). destruct (Nat.leb_spec 3 size) as [H3|H3].
    + specialize (P2 H3). destruct (Nat.ltb_spec size 3); [lia|]. specialize (P2 Hv 1%nat v (fmt_v_v v) ltac:(lia)). rewrite andb_true_r.
      destruct (Nat.ltb_spec size (length v + 1)) as [HL|HL]; destruct (Nat.leb_spec (length v + 1) size) as [HL2|HL2]; try lia.
      * destruct P2 as (b' & -> & L'). cbn [bind]. exists b'. split; [reflexivity|exact L'].
      * destruct P2 as (rest & -> & L'). cbn [bind]. exists rest. split; [|exact L']. destruct (Z.ltb_spec (Z.of_nat (length v)) 0); [lia|]. do 3 f_equal. lia.
    + rewrite andb_false_r. rewrite P1 by lia. cbn [bind]. exists b. split; reflexivity.
  - destruct (Nat.leb_spec 3 size) as [H3|H3].
    + specialize (P2 H3). destruct (Nat.ltb_spec size 3); [lia|]. destruct P2 as (b' & -> & L'). cbn [bind]. exists b'. split; [reflexivity|exact L'].
    + rewrite P1 by lia. cbn [bind]. exists b. split; reflexivity.
  - intros H3. specialize (P2 H3). destruct (Nat.ltb_spec size 3); [lia|]. rewrite P2. reflexivity.
  - intros H3. specialize (P2 H3). destruct (Nat.ltb_spec size 3); [lia|]. rewrite P2. reflexivity.
Qed.

(** * The data for the cache, of any packet *)
From Verif Require Import Cache_Spec Alias_Spec Rdata_Spec.
Definition shape_ok (ty dl : Z) (d : list Z) : Prop :=
  (ty = 5 \/ ty = 12 \/ ty = 2 -> text_data d) /\ (ty = 15 -> (exists a b d', d = a :: b :: d' /\ text_data d') \/ (dl <= 2 /\ length d = 2%nat)).
Lemma firstn_S_app (v rest : list Z) : firstn (Z.to_nat (Z.of_nat (length v + 1))) (v ++ 0 :: rest) = v ++ [0].
Proof. rewrite Nat2Z.id. rewrite firstn_app. replace (length v + 1 - length v)%nat with 1%nat by lia. rewrite firstn_all2 by lia. reflexivity. Qed.
Lemma type_text_no0 ty : ~ In 0 (type_text ty).
Proof.
  unfold type_text, type_name. destruct (find (fun p => fst p =? ty) type_list) as [p|] eqn:E; cbn [option_map]; [|cbn; intuition discriminate].
  apply find_some in E. destruct E as (E & _). assert (H : forallb (fun p => forallb (fun c => negb (c =? 0)) (snd p)) type_list = true) by (vm_compute; reflexivity).
  rewrite forallb_forall in H. specialize (H p E). rewrite forallb_forall in H. intros H0. specialize (H 0 H0). discriminate.
Qed.
Lemma name_text_shape nf m len host pos v used : field_text nf m len host FName pos = Ret (Some (v, used)) -> length host = 254%nat -> text_data (v ++ [0]).
Proof. intros H Hh. apply field_name_text in H. destruct H as (H & HL). exists v. split; [reflexivity|]. split; [exact H|lia]. Qed.
Lemma name_parse_shape nf m len host pre pos b size n b' used : (size <= length b)%nat -> length host = 254%nat -> ~ In 0 pre ->
  field_parse nf m len host None pre FName pos b size = Ret (n, b', used) ->
  length b' = length b /\ n <= Z.of_nat size /\ (n = -1 \/ (0 < n /\ text_data (firstn (Z.to_nat n) b'))).
Proof.
  intros Hb Hh Hp H. pose proof (name_to_cache nf m len host pre pos b size Hb Hh Hp) as HN. destruct (field_text nf m len host FName pos) as [[[v u]|]| | |] eqn:E; [| | |contradiction|].
  - destruct (Nat.leb_spec (length v + 1) size) as [H1|H1]; [destruct (Nat.leb_spec 3 size) as [H3|H3]|]; cbn [andb] in HN.
    + destruct HN as (rest & E2 & HL). rewrite E2 in H. assert (n = Z.of_nat (length v + 1) /\ b' = v ++ 0 :: rest) as (-> & ->) by (split; congruence). split; [exact HL|]. split; [lia|]. right. split; [lia|]. rewrite firstn_S_app. eapply name_text_shape; eauto.
    + destruct HN as (b2 & E2 & HL). assert (n = -1 /\ b' = b2) as (-> & ->) by (split; congruence). split; [exact HL|]. split; [lia|auto].
    + destruct HN as (b2 & E2 & HL). assert (n = -1 /\ b' = b2) as (-> & ->) by (split; congruence). split; [exact HL|]. split; [lia|auto].
  - destruct HN as (b2 & E2 & HL). assert (n = -1 /\ b' = b2) as (-> & ->) by (split; congruence). split; [exact HL|]. split; [lia|auto].
  - destruct (Nat.leb_spec 3 size) as [H3|H3]; [rewrite HN in H by exact H3; discriminate|]. cbn [field_parse] in H. unfold put_text in H. destruct (Nat.ltb_spec size (length [37; 118] + 1)) as [_|X]; [|cbn [length] in X; lia]. cbn [bind] in H. change (-1 <? 0) with true in H. cbv iota in H. assert (n = -1 /\ b' = b) as (-> & ->) by (split; congruence). split; [reflexivity|]. split; [lia|auto].
  - destruct (Nat.leb_spec 3 size) as [H3|H3]; [rewrite HN in H by exact H3; discriminate|]. cbn [field_parse] in H. unfold put_text in H. destruct (Nat.ltb_spec size (length [37; 118] + 1)) as [_|X]; [|cbn [length] in X; lia]. cbn [bind] in H. change (-1 <? 0) with true in H. cbv iota in H. assert (n = -1 /\ b' = b) as (-> & ->) by (split; congruence). split; [reflexivity|]. split; [lia|auto].
Qed.
Lemma name_parse_safe nf m len host pre pos b size : (size <= length b)%nat -> length host = 254%nat -> ~ In 0 pre ->
  field_parse nf m len host None pre FName pos b size <> UBW.
Proof.
  intros Hb Hh Hp. pose proof (name_to_cache nf m len host pre pos b size Hb Hh Hp) as HN. destruct (Nat.leb_spec 3 size) as [H3|H3].
  - destruct (field_text nf m len host FName pos) as [[[v u]|]| | |] eqn:E; [| | |contradiction|].
    + destruct (Nat.leb (length v + 1) size); cbn [andb] in HN; destruct HN as (? & -> & _); discriminate.
    + destruct HN as (? & -> & _). discriminate.
    + rewrite HN by exact H3. discriminate.
    + rewrite HN by exact H3. discriminate.
  - cbn [field_parse]. unfold put_text. destruct (Nat.ltb_spec size (length [37; 118] + 1)) as [_|X]; [discriminate|cbn [length] in X; lia].
Qed.
Lemma f16_to_cache nf m len host pre pos b size : (size <= length b)%nat ->
  (exists n b' used, field_parse nf m len host None pre F16 pos b size = Ret (n, b', used) /\ length b' = length b /\
     ((n = -1 /\ (size < 2)%nat) \/ (n = 2 /\ used = 2 /\ (2 <= size)%nat /\ exists d, rdn m pos 2 = Ret d /\ b' = d ++ skipn 2 b))) \/
  field_parse nf m len host None pre F16 pos b size = UBR.
Proof.
  intros Hb. cbn [field_parse fixed_size]. destruct (Nat.ltb_spec size 2) as [H|H]; [left; exists (-1), b, 0; split; [reflexivity|]; split; [reflexivity|left; auto]|].
  unfold rdn. destruct (slice m pos 2) as [d|] eqn:E; [|right; reflexivity]. left. assert (Ld : length d = 2%nat) by (exact (slice_length _ _ _ _ E)).
  cbn [bind]. rewrite bwrite_at0 by lia. rewrite Ld. cbn [bind]. do 3 eexists. split; [reflexivity|]. split; [rewrite app_length, skipn_length; lia|]. right. split; [reflexivity|]. split; [reflexivity|]. split; [exact H|]. eauto.
Qed.
Lemma text_data_app0 v rest : text_data (v ++ [0]) -> text_data (firstn (length v + 1) (v ++ 0 :: rest)).
Proof. intros H. pose proof (firstn_S_app v rest) as E. rewrite Nat2Z.id in E. rewrite E. exact H. Qed.
Lemma name_loop_null_safe : forall fuel hb dlen m pos bi ll rd, name_loop fuel hb dlen m pos None bi ll rd <> UBW.
Proof.
  induction fuel as [|fuel IH]; intros hb dlen m pos bi ll rd; cbn [name_loop]; [discriminate|]. unfold rd8. destruct (nth_error m pos) as [c|]; cbn [bind]; [|discriminate].
  destruct (c =? 0); [discriminate|]. destruct (is_ptr c); [discriminate|]. destruct (hb && Nat.ltb dlen (pos + Z.to_nat c))%bool; [discriminate|]. apply IH.
Qed.
Lemma jump_safe m pos : jump m pos <> UBW.
Proof. unfold jump, name_extent. pose proof (name_loop_null_safe (S (length m)) false 0 m pos 0 0 false) as HN. destruct (name_loop _ false 0 m pos None 0 0 false); try discriminate. congruence. Qed.
(** MX: two bytes, then the name if the data is longer than that. *)
Lemma mx_to_cache nf m len host data dl b size : (size <= length b)%nat -> length host = 254%nat ->
  parse_data nf m len host None mx_fields data dl dl b size 0 <> UBW /\
  forall n b', parse_data nf m len host None mx_fields data dl dl b size 0 = Ret (n, b') ->
    length b' = length b /\ n <= Z.of_nat size /\ (n <= 0 \/ (0 < n /\ shape_ok 15 dl (firstn (Z.to_nat n) b'))).
Proof.
  intros Hb Hh. cbn [parse_data mx_fields]. destruct (Z.leb_spec dl 0) as [Hd|Hd]; [split; [discriminate|intros n b' H; assert (n = Z.of_nat 0 /\ b' = b) as (-> & ->) by (split; congruence); split; [reflexivity|]; split; [lia|left; lia]]|].
  replace (Z.to_nat (Z.of_nat data + dl - dl)) with data by lia. cbn [skipn firstn app]. rewrite Nat.sub_0_r.
  destruct (f16_to_cache nf m len host (txt "preference"%string) data b size Hb) as [(n1 & b1 & u1 & E1 & L1 & H1)|E1]; [|rewrite E1; split; discriminate]. rewrite E1. cbn [bind].
  destruct H1 as [(-> & _)|(-> & -> & Hs & d & Ed & Eb)].
  { change (-1 <=? 0) with true. cbv iota. split; [discriminate|]. intros n b' H. assert (n = -1 /\ b' = b1) as (-> & ->) by (split; congruence). split; [exact L1|]. split; [lia|left; lia]. }
  change (2 <=? 0) with false. cbv iota. assert (Ld : length d = 2%nat) by (unfold rdn in Ed; destruct (slice m data 2) as [d0|] eqn:Es; [|discriminate]; assert (d0 = d) by congruence; subst d0; exact (slice_length _ _ _ _ Es)).
  change (0 + Z.to_nat 2)%nat with 2%nat. destruct d as [|x [|y [|z d]]]; cbn [length] in Ld; try discriminate Ld. cbn [app] in Eb.
  destruct (Z.leb_spec (dl - 2) 0) as [Hd2|Hd2].
  { split; [discriminate|]. intros n b' H. assert (n = Z.of_nat 2 /\ b' = b1) as (-> & ->) by (split; congruence). split; [exact L1|]. split; [lia|]. right. split; [lia|]. split; [lia|]. intros _. right. split; [lia|]. rewrite Eb. reflexivity. }
  set (pos2 := Z.to_nat (Z.of_nat data + dl - (dl - 2))). assert (Lk : length (skipn 2 b1) = (length b - 2)%nat) by (rewrite skipn_length; lia).
  assert (Hp : ~ In 0 (txt "mail exchanger"%string)) by (cbn; intuition discriminate).
  pose proof (name_parse_safe nf m len host (txt "mail exchanger"%string) pos2 (skipn 2 b1) (size - 2) ltac:(lia) Hh Hp) as HS.
  destruct (field_parse nf m len host None (txt "mail exchanger"%string) FName pos2 (skipn 2 b1) (size - 2)) as [[[n2 b2] u2]| | |] eqn:E2; cbn [bind]; [|split; discriminate|congruence|split; discriminate].
  assert (Hk : (size - 2 <= length (skipn 2 b1))%nat) by lia. destruct (name_parse_shape _ _ _ _ _ _ _ _ _ _ _ Hk Hh Hp E2) as (L2 & Hn2 & H2).
  assert (Lf : length (firstn 2 b1) = 2%nat) by (rewrite firstn_length; lia). assert (Ef : firstn 2 b1 = [x; y]) by (rewrite Eb; reflexivity).
  destruct H2 as [-> |(Hp2 & HT)].
  { change (-1 <=? 0) with true. cbv iota. split; [discriminate|]. intros n b' H. assert (n = -1 /\ b' = firstn 2 b1 ++ b2) as (-> & ->) by (split; congruence). split; [rewrite app_length; lia|]. split; [lia|left; lia]. }
  destruct (Z.leb_spec n2 0); [lia|]. split; [discriminate|]. intros n b' H0. assert (n = Z.of_nat (2 + Z.to_nat n2) /\ b' = firstn 2 b1 ++ b2) as (-> & ->) by (split; congruence).
  split; [rewrite app_length; lia|]. split; [lia|]. right. split; [lia|]. split; [lia|]. intros _. left. exists x, y, (firstn (Z.to_nat n2) b2). split; [|exact HT]. rewrite Nat2Z.id, Ef. reflexivity.
Qed.
Lemma to_cache_shape nf m len host i pos b size : (size <= length b)%nat -> length host = 254%nat -> 0 <= it_dlen i -> valid_type (it_type i) = true ->
  to_cache_data nf m len host i pos b size <> UBW /\
  forall n b', to_cache_data nf m len host i pos b size = Ret (n, b') ->
    length b' = length b /\ n <= Z.of_nat size /\ (n <= 0 \/ (0 < n /\ shape_ok (it_type i) (it_dlen i) (firstn (Z.to_nat n) b'))).
Proof.
  intros Hb Hh Hd Hv. unfold to_cache_data. unfold rec_dpos. pose proof (jump_safe m pos) as HJ.
  destruct (jump m pos) as [p| | |]; cbn [bind]; [|split; discriminate|congruence|split; discriminate].
  destruct (negb (it_type i =? 41) && negb (it_klass i =? 1))%bool; [split; [discriminate|intros n b' H; assert (n = 0 /\ b' = b) as (-> & ->) by (split; congruence); split; [reflexivity|split; [lia|left; lia]]]|].
  destruct ((it_type i =? 1) || (it_type i =? 28) || (it_type i =? 65) || (it_type i =? 16))%bool eqn:E1.
  - destruct (Z.leb_spec (Z.of_nat size) (it_dlen i)) as [HL|HL]; [split; [discriminate|intros n b' H; assert (n = 0 /\ b' = b) as (-> & ->) by (split; congruence); split; [reflexivity|split; [lia|left; lia]]]|].
    unfold rdn. destruct (slice m (p + 10) (Z.to_nat (it_dlen i))) as [d|] eqn:E; cbn [bind]; [|split; discriminate].
    assert (Ld : length d = Z.to_nat (it_dlen i)) by (exact (slice_length _ _ _ _ E)).
    rewrite bwrite_at0 by lia. cbn [bind]. split; [discriminate|]. intros n b' H. assert (n = it_dlen i /\ b' = d ++ skipn (length d) b) as (-> & ->) by (split; congruence).
    split; [rewrite app_length, skipn_length; lia|]. split; [lia|]. destruct (Z.leb_spec (it_dlen i) 0); [left; lia|]. right. split; [lia|]. split; intros; lia.
  - destruct ((it_type i =? 5) || (it_type i =? 12) || (it_type i =? 2))%bool eqn:E2.
    + unfold parse_one. pose proof (name_parse_safe nf m len host (type_text (it_type i)) (p + 10) b size Hb Hh (type_text_no0 _)) as HS.
      destruct (field_parse nf m len host None (type_text (it_type i)) FName (p + 10) b size) as [[[n2 b2] u2]| | |] eqn:E; cbn [bind]; [|split; discriminate|congruence|split; discriminate].
      split; [discriminate|]. intros n b' H. assert (n2 = n /\ b2 = b') as (-> & ->) by (split; congruence).
      destruct (name_parse_shape _ _ _ _ _ _ _ _ _ _ _ Hb Hh (type_text_no0 _) E) as (L2 & Hn2 & H2). split; [exact L2|]. split; [exact Hn2|]. destruct H2 as [-> |(H2 & HT)]; [left; lia|]. right. split; [exact H2|]. split; [auto|intros; lia].
    + unfold valid_type in Hv. destruct (Z.eqb_spec (it_type i) 15) as [E3|E3]; [|lia]. rewrite E3. apply mx_to_cache; assumption.
Qed.

(** * Any packet *)
Lemma slice_bytes (m : list Z) i n d : Forall is_byte m -> slice m i n = Some d -> Forall is_byte d.
Proof. intros HF H. apply slice_some in H. destruct H as (_ & ->). assert (HS : Forall is_byte (skipn i m)) by (rewrite <- (firstn_skipn i m) in HF; apply Forall_app in HF; apply HF). rewrite <- (firstn_skipn n (skipn i m)) in HS. apply Forall_app in HS. apply HS. Qed.
Lemma rd16_range m i v : Forall is_byte m -> rd16 m i = Ret v -> 0 <= v < 65536.
Proof.
  intros HF. unfold rd16, get16. destruct (slice m i 2) as [d|] eqn:E; cbn [option_map]; [|discriminate]. intros H. assert (v = from16 d) by congruence. subst v.
  pose proof (slice_bytes _ _ _ _ HF E) as HB. pose proof (slice_length _ _ _ _ E) as HL. destruct d as [|a [|b [|? ?]]]; try discriminate HL. inversion HB as [|? ? Ha HB2]; subst. inversion HB2 as [|? ? Hb _]; subst. unfold is_byte in *. cbn [from16]. lia.
Qed.
Lemma rd32_range m i v : Forall is_byte m -> rd32 m i = Ret v -> 0 <= v < 4294967296.
Proof.
  intros HF. unfold rd32, get32. destruct (slice m i 4) as [d|] eqn:E; cbn [option_map]; [|discriminate]. intros H. assert (v = from32 d) by congruence. subst v.
  pose proof (slice_bytes _ _ _ _ HF E) as HB. pose proof (slice_length _ _ _ _ E) as HL. destruct d as [|a [|b [|e [|f [|? ?]]]]]; try discriminate HL.
  rewrite Forall_forall in HB. pose proof (HB a ltac:(cbn; auto)). pose proof (HB b ltac:(cbn; auto)). pose proof (HB e ltac:(cbn; auto)). pose proof (HB f ltac:(cbn; auto)). unfold is_byte in *. cbn [from32]. lia.
Qed.
Lemma iter_at_info m dlen i p r pos i' : Forall is_byte m -> iter_at m dlen i p r = Ret (Some pos, i') ->
  0 <= it_type i' < 65536 /\ 0 <= it_klass i' < 65536 /\ (it_purpose i' <> P_question -> 0 <= it_dlen i' < 65536).
Proof.
  intros HF. unfold iter_at. destruct ((it_all i <? r) || (dlen <? Z.of_nat p))%bool; [discriminate|]. unfold rec_type, rec_class, rec_dlen. destruct (jump m p) as [q| | |] eqn:Ej; cbn [bind]; try discriminate.
  destruct (rd16 m q) as [ty| | |] eqn:E1; cbn [bind]; try discriminate. destruct (rd16 m (q + 2)) as [kl| | |] eqn:E2; cbn [bind]; try discriminate.
  destruct (negb (purpose_eqb (determine_purpose i r) P_unknown) && negb (ty =? 0) && negb (kl =? 0))%bool; [|discriminate].
  destruct (purpose_eqb (determine_purpose i r) P_question) eqn:EP; cbn [bind].
  - intros H. assert (Hi : i' = iter_info i (Some p) r (determine_purpose i r) ty kl (it_dlen i)) by congruence. subst i'. cbn [iter_info it_type it_klass it_purpose it_dlen].
    split; [eapply rd16_range; eauto|]. split; [eapply rd16_range; eauto|]. intros X. exfalso. apply X. destruct (determine_purpose i r); try discriminate; reflexivity.
  - destruct (rd16 m (q + 8)) as [dl| | |] eqn:E3; cbn [bind]; try discriminate. intros H. assert (Hi : i' = iter_info i (Some p) r (determine_purpose i r) ty kl dl) by congruence. subst i'. cbn [iter_info it_type it_klass it_purpose it_dlen].
    split; [eapply rd16_range; eauto|]. split; [eapply rd16_range; eauto|]. intros _. eapply rd16_range; eauto.
Qed.
Lemma iter_next_info m dlen i pos i' : Forall is_byte m -> iter_next m dlen i = Ret (Some pos, i') ->
  0 <= it_type i' < 65536 /\ 0 <= it_klass i' < 65536 /\ (it_purpose i' <> P_question -> 0 <= it_dlen i' < 65536).
Proof.
  intros HF. unfold iter_next. destruct (it_pos i) as [p|]; [|apply iter_at_info; exact HF]. destruct (it_rec i <? it_all i); [|discriminate]. destruct (name_extent m p) as [n| | |]; cbn [bind]; try discriminate.
  destruct (_ <? _); [discriminate|]. apply iter_at_info; exact HF.
Qed.
Lemma rd16_safe m i : rd16 m i <> UBW. Proof. unfold rd16. destruct (get16 m i); discriminate. Qed.
Lemma iter_at_safe m dlen i p r : iter_at m dlen i p r <> UBW.
Proof.
  unfold iter_at. destruct ((it_all i <? r) || (dlen <? Z.of_nat p))%bool; [discriminate|]. unfold rec_type, rec_class, rec_dlen. pose proof (jump_safe m p). destruct (jump m p) as [q| | |] eqn:Ej; cbn [bind]; try discriminate; [|congruence].
  pose proof (rd16_safe m q). destruct (rd16 m q) as [ty| | |] eqn:E1; cbn [bind]; try discriminate; [|congruence]. pose proof (rd16_safe m (q + 2)). destruct (rd16 m (q + 2)) as [kl| | |] eqn:E2; cbn [bind]; try discriminate; [|congruence].
  destruct (negb (purpose_eqb (determine_purpose i r) P_unknown) && negb (ty =? 0) && negb (kl =? 0))%bool; [|discriminate].
  destruct (purpose_eqb (determine_purpose i r) P_question) eqn:EP; cbn [bind]; [discriminate|]. pose proof (rd16_safe m (q + 8)). destruct (rd16 m (q + 8)) as [dl| | |] eqn:E3; cbn [bind]; try discriminate. congruence.
Qed.
Lemma iter_next_safe m dlen i : iter_next m dlen i <> UBW.
Proof.
  unfold iter_next. destruct (it_pos i) as [p|]; [|apply iter_at_safe]. destruct (it_rec i <? it_all i); [|discriminate]. unfold name_extent. pose proof (name_loop_null_safe (S (length m)) false 0 m p 0 0 false) as HN.
  destruct (name_loop _ false 0 m p None 0 0 false) as [n| | |]; cbn [bind]; try discriminate; [|congruence]. destruct (_ <? _); [discriminate|]. apply iter_at_safe.
Qed.

Lemma record_of_ok nf m len host i pos buf : Forall is_byte m -> length host = 254%nat -> length buf = 512%nat ->
  0 <= it_type i < 65536 -> it_klass i = 1 -> 0 <= it_dlen i -> valid_type (it_type i) = true ->
  record_of nf m len host i pos buf <> UBW /\
  forall r, record_of nf m len host i pos buf = Ret (Some r) -> rec_ok r /\ r_class r = 1 /\ valid_type (r_type r) = true /\ (r_data r <> [] -> data_ok (r_type r) (r_data r) \/ short_mx r).
Proof.
  intros HF Hh Hb Ht Hk Hd Hv. unfold record_of, get_host_name. pose proof (name_loop_safe nf true len m pos (skipn 1 buf) 0 0 false ltac:(lia)) as HS.
  destruct (name_loop nf true len m pos (Some (skipn 1 buf)) 0 0 false) as [[[n|] [b|]]| | |]; cbn [bind]; try (split; discriminate); [|contradiction].
  destruct HS as (b' & Eb & HL & H0). assert (b' = b) by congruence. subst b'. rewrite skipn_length in HL. set (t := triplet (cstr b) (it_type i) (it_klass i)) in *. set (k := (1 + length t + 1)%nat) in *.
  assert (HT : forall d n', (n' <= 0 \/ (0 < n' /\ shape_ok (it_type i) (it_dlen i) (firstn (Z.to_nat n') d))) -> forall ttl r, rec_ttl m pos = Ret ttl ->
     Ret (Some (mk_rec (cstr b) (it_type i) (it_klass i) ttl (firstn (Z.to_nat n') d))) = Ret (Some r) -> rec_ok r /\ r_class r = 1 /\ valid_type (r_type r) = true /\ (r_data r <> [] -> data_ok (r_type r) (r_data r) \/ short_mx r)).
  { intros d n' Hs ttl r Et H. assert (Er : r = mk_rec (cstr b) (it_type i) (it_klass i) ttl (firstn (Z.to_nat n') d)) by congruence. subst r. unfold rec_ok, short_mx. cbn [r_name r_type r_class r_ttl r_data].
    split; [split; [apply cstr_in0|]; split; [exact Ht|]; split; [lia|]; unfold rec_ttl in Et; destruct (jump m pos); cbn [bind] in Et; try discriminate; eapply rd32_range; eauto|].
    split; [exact Hk|]. split; [exact Hv|]. intros Hne. destruct Hs as [Hs|(_ & S1 & S2)]; [replace (Z.to_nat n') with 0%nat in Hne by lia; contradiction|].
    destruct (Z.eq_dec (it_type i) 15) as [E|E].
    - destruct (S2 E) as [S3|(_ & S3)]; [left; split; [exact S1|intros _; exact S3]|right; auto].
    - left. split; [exact S1|intros; contradiction]. }
  pose proof (jump_safe m pos) as HJ. assert (HR : rec_ttl m pos <> UBW). { unfold rec_ttl. destruct (jump m pos); cbn [bind]; try congruence. unfold rd32. destruct (get32 _ _); discriminate. }
  destruct (Nat.leb_spec 512 k) as [Hk2|Hk2]; cbn [bind].
  - destruct (rec_ttl m pos) as [ttl| | |] eqn:Et; cbn [bind]; try (split; discriminate); [|congruence]. split; [discriminate|]. intros r H. eapply (HT [] 0); [left; lia|reflexivity|exact H].
  - destruct (to_cache_shape nf m len host i pos (skipn (k - 1) b) (512 - k)) as (S1 & S2); [rewrite skipn_length; lia|exact Hh|exact Hd|exact Hv|].
    destruct (to_cache_data nf m len host i pos (skipn (k - 1) b) (512 - k)) as [[n' d]| | |]; cbn [bind fst snd]; try (split; discriminate); [|congruence]. destruct (S2 n' d eq_refl) as (_ & _ & S3).
    destruct (rec_ttl m pos) as [ttl| | |] eqn:Et; cbn [bind]; try (split; discriminate); [|congruence]. split; [discriminate|]. intros r H. eapply (HT d n'); [exact S3|reflexivity|exact H].
Qed.
Lemma add_item_no_data raw ignore parallel get inf c r now : r_data r = [] -> exists e, add_item raw ignore parallel get inf c r now = Ret (e, c).
Proof. intros H. unfold add_item, item_of. rewrite H. destruct (Nat.leb 512 _); [eauto|]. destruct (Nat.leb 512 _); [eauto|]. destruct (Nat.leb 512 _); eauto. Qed.
Lemma run_cons raw ignore parallel get c o ops : run raw ignore parallel get c (o :: ops) = let! c' := run_op raw ignore parallel get c o in run raw ignore parallel get c' ops.
Proof. reflexivity. Qed.
Lemma add_loop_ok raw ignore parallel get nf host buf clk m len inf : Forall is_byte m -> length host = 254%nat -> length buf = 512%nat -> forall fuel i c,
  exists ops, Forall packet_op ops /\
    (add_loop raw ignore parallel get nf host buf clk fuel m len inf i c = run raw ignore parallel get c ops \/
     add_loop raw ignore parallel get nf host buf clk fuel m len inf i c = UBR \/ add_loop raw ignore parallel get nf host buf clk fuel m len inf i c = Fuel).
Proof.
  intros HF Hh Hb. induction fuel as [|fuel IH]; intros i c; [exists []; split; [constructor|right; right; reflexivity]|]. cbn [add_loop].
  pose proof (iter_next_safe m (Z.of_nat len) i) as HS. destruct (iter_next m (Z.of_nat len) i) as [[[pos|] i']| | |] eqn:E; cbn [bind]; [| |exists []; auto|congruence|exists []; auto]; [|exists []; split; [constructor|left; reflexivity]].
  destruct (iter_next_info _ _ _ _ _ HF E) as (H1 & H2 & H3).
  destruct (negb (purpose_eqb (it_purpose i') P_unknown) && negb (purpose_eqb (it_purpose i') P_question) && valid_type (it_type i') && (it_klass i' =? 1))%bool eqn:EC; [|apply IH].
  assert (HQ : it_purpose i' <> P_question) by (intros X; rewrite X in EC; cbn in EC; discriminate). specialize (H3 HQ).
  destruct (record_of_ok nf m len host i' pos buf HF Hh Hb H1 ltac:(lia) ltac:(lia) ltac:(lia)) as (R1 & R2). destruct (record_of nf m len host i' pos buf) as [[r|]| | |] eqn:ER; cbn [bind]; [|apply IH|exists []; auto|congruence|exists []; auto].
  destruct (R2 r eq_refl) as (R3 & R4 & R5 & R6). destruct (list_eq_dec Z.eq_dec (r_data r) []) as [En|En].
  - destruct (add_item_no_data raw ignore parallel get inf c r (clk (it_rec i')) En) as (e & ->). cbn [bind snd]. apply IH.
  - assert (HP : packet_op (OAdd inf r (clk (it_rec i')))) by (cbn [packet_op]; exact (conj R3 (conj R4 (conj R5 (conj En (R6 En)))))). destruct (add_item raw ignore parallel get inf c r (clk (it_rec i'))) as [[e c']| | |] eqn:EA; cbn [bind snd].
    + destruct (IH i' c') as (ops & Ho & HI). exists (OAdd inf r (clk (it_rec i')) :: ops). split; [constructor; assumption|]. rewrite run_cons. cbn [run_op]. rewrite EA. cbn [bind snd]. exact HI.
    + exists [OAdd inf r (clk (it_rec i'))]. split; [constructor; [exact HP|constructor]|]. right. left. reflexivity.
    + exists [OAdd inf r (clk (it_rec i'))]. split; [constructor; [exact HP|constructor]|]. left. rewrite run_cons. cbn [run_op]. rewrite EA. reflexivity.
    + exists [OAdd inf r (clk (it_rec i'))]. split; [constructor; [exact HP|constructor]|]. right. right. reflexivity.
Qed.
