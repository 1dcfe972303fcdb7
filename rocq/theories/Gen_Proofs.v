From Verif Require Import Base BaseFacts Name_Model Name_Spec Name_Proofs Parser_Model Parser_Spec Parser_Proofs Gen_Model Gen_Spec.
Require Import ZifyBool ZifyNat.

Definition num_ok (n : nat) : Prop := n = 4%nat \/ n = 6%nat \/ n = 8%nat \/ n = 10%nat \/ n = 12%nat.
Record ginv (g : gen) : Prop := mk_ginv {
  gi_len : (12 <= g_itr g <= length (g_buf g))%nat;
  gi_num : num_ok (g_num g) }.

Definition splice (b : list Z) (i : nat) (l : list Z) : list Z := firstn i b ++ l ++ skipn (i + length l) b.

Lemma splice_length b i l : (i + length l <= length b)%nat -> length (splice b i l) = length b.
Proof. intros H. unfold splice. rewrite !app_length, firstn_length, skipn_length. lia. Qed.
Lemma splice_firstn b i l : (i + length l <= length b)%nat -> firstn (i + length l) (splice b i l) = firstn i b ++ l.
Proof.
  intros H. unfold splice. rewrite app_assoc. rewrite firstn_app.
  rewrite firstn_all2; [|rewrite app_length, firstn_length; lia].
  rewrite app_length, firstn_length.
  replace (i + length l - (Nat.min i (length b) + length l))%nat with O by lia.
  rewrite firstn_O, app_nil_r. reflexivity.
Qed.
Lemma splice_firstn_before b i l j : (i <= length b)%nat -> (j <= i)%nat -> firstn j (splice b i l) = firstn j b.
Proof.
  intros H Hj. unfold splice. rewrite firstn_app, firstn_firstn, firstn_length.
  replace (Nat.min j i) with j by lia. replace (j - Nat.min i (length b))%nat with O by lia.
  rewrite firstn_O, app_nil_r. reflexivity.
Qed.
Lemma splice_nil b i : splice b i [] = b.
Proof. unfold splice. cbn. rewrite Nat.add_0_r. apply firstn_skipn. Qed.
Lemma splice_twice b i l1 l2 : (i + length l1 + length l2 <= length b)%nat ->
  splice (splice b i l1) (i + length l1) l2 = splice b i (l1 ++ l2).
Proof.
  intros H. unfold splice. rewrite (splice_splice b l1 l2 i (i + length l1)%nat) by lia.
  rewrite app_length. do 3 f_equal. lia.
Qed.

Lemma put_fits g l : (g_itr g + length l <= length (g_buf g))%nat ->
  put g l = Ret (mk_gen (splice (g_buf g) (g_itr g) l) (g_itr g + length l) (g_num g)).
Proof. intros H. unfold put. rewrite bwrite_ok by assumption. reflexivity. Qed.
Lemma put_overflow g l : (length (g_buf g) < g_itr g + length l)%nat -> put g l = UBW.
Proof.
  intros H. unfold put, bwrite, write. destruct (Nat.leb_spec (g_itr g + length l) (length (g_buf g))); [lia|reflexivity].
Qed.

(** A checked part writes [l] or fails without any effect. *)
Definition cpart (p : part) (l : list Z) : Prop := forall g, (g_itr g <= length (g_buf g))%nat ->
  ((g_itr g + length l <= length (g_buf g))%nat /\
     p g = Ret (0, mk_gen (splice (g_buf g) (g_itr g) l) (g_itr g + length l) (g_num g))) \/
  ((length (g_buf g) < g_itr g + length l)%nat /\ exists c, c <> 0 /\ p g = Ret (c, g)).

Lemma bytes_cpart l : cpart (bytes_part l) l.
Proof.
  intros g Hg. unfold bytes_part, left_length.
  destruct (Z.of_nat (length (g_buf g)) - Z.of_nat (g_itr g) <? Z.of_nat (length l)) eqn:E.
  - right. split; [lia|]. exists (-1). split; [lia|reflexivity].
  - left. split; [lia|]. rewrite put_fits by lia. reflexivity.
Qed.

Definition name_bytes (name : list Z) : list Z :=
  match name with [] => [0] | _ => label_scan name (0 :: name ++ [0]) 0 1 end.

Lemma upd_length m : forall i v, length (upd m i v) = length m.
Proof. induction m as [|x m IH]; intros [|i] v; cbn; auto. Qed.
Lemma label_scan_length s : forall m lab i, length (label_scan s m lab i) = length m.
Proof. induction s as [|c s IH]; intros m lab i; cbn [label_scan]; auto. destruct (c =? 46); rewrite IH; apply upd_length. Qed.
Lemma name_bytes_length name : Z.of_nat (length (name_bytes name)) = label_length name.
Proof.
  unfold name_bytes, label_length. destruct name as [|c name]; [reflexivity|].
  rewrite label_scan_length. cbn [length]. rewrite app_length. cbn [length]. lia.
Qed.

Lemma name_cpart name : cpart (name_part name) (name_bytes name).
Proof.
  intros g Hg. pose proof (name_bytes_length name) as HL. unfold name_part, left_length. destruct name as [|c name].
  - cbn in HL. cbn [name_bytes length].
    destruct (Z.of_nat (length (g_buf g)) - Z.of_nat (g_itr g) <? 1) eqn:E.
    + right. split; [lia|]. exists (-1). split; [lia|reflexivity].
    + left. split; [lia|]. rewrite put_fits by (cbn; lia). reflexivity.
  - destruct (Z.of_nat (length (g_buf g)) - Z.of_nat (g_itr g) <? label_length (c :: name)) eqn:E.
    + right. split; [lia|]. exists (-2). split; [lia|reflexivity].
    + left. split; [lia|]. unfold labelize.
      destruct (Nat.ltb_spec (length (c :: name) + 2) (length (c :: name) + 2)); [lia|].
      change (label_scan (c :: name) (0 :: (c :: name) ++ [0]) 0 1) with (name_bytes (c :: name)).
      rewrite put_fits by lia. reflexivity.
Qed.

Lemma name_bytes_wire ls : name_ok ls -> name_bytes (dotted ls) = wire ls.
Proof.
  intros H. pose proof (labelize_wire 63 ls (length (dotted ls) + 2)) as HL.
  assert (E : labelize (dotted ls) (length (dotted ls) + 2) = Some (wire ls)).
  { apply HL; auto; [lia|]. destruct ls; [cbn; lia|]. rewrite wire_length by discriminate. lia. }
  unfold labelize in E. unfold name_bytes. destruct (dotted ls) as [|c t] eqn:Ed.
  - inversion E. reflexivity.
  - destruct (Nat.ltb _ _); inversion E. reflexivity.
Qed.

(** The count is incremented inside of the header. *)
Definition bump (b : list Z) (num : nat) : list Z :=
  match get16 b num with Some v => splice b num (be16 (v + 1)) | None => b end.

Lemma get16_ok b i : (i + 2 <= length b)%nat -> exists v, get16 b i = Some v.
Proof.
  intros H. unfold get16, slice. destruct (Nat.leb_spec (i + 2) (length b)); [|lia]. cbn. eauto.
Qed.

Lemma incr_count_ok g : (g_num g + 2 <= length (g_buf g))%nat ->
  incr_count g = Ret (mk_gen (bump (g_buf g) (g_num g)) (g_itr g) (g_num g)).
Proof.
  intros H. unfold incr_count, rd16, bump. destruct (get16_ok _ _ H) as [v ->]. cbn [bind].
  rewrite bwrite_ok by (rewrite be16_length; lia). reflexivity.
Qed.

Definition parts_ok (ps : list (Z * part)) (ls : list (list Z)) : Prop :=
  Forall2 (fun p l => cpart (snd p) l /\ fst p < 0) ps ls.

Definition gen_append (g : gen) (l : list Z) : gen :=
  mk_gen (bump (splice (g_buf g) (g_itr g) l) (g_num g)) (g_itr g + length l) (g_num g).

(** Effect of a failing call: codes below zero, the bytes built so far and the header untouched. *)
Definition failed (g g' : gen) (code : Z) : Prop :=
  code < 0 /\ g_num g' = g_num g /\ length (g_buf g') = length (g_buf g) /\
  (g_itr g <= g_itr g' <= length (g_buf g))%nat /\ firstn (g_itr g) (g_buf g') = firstn (g_itr g) (g_buf g).

Lemma run_parts_ok ps : forall ls g, parts_ok ps ls -> ginv g -> (g_num g <= 10)%nat ->
  ((g_itr g + length (concat ls) <= length (g_buf g))%nat /\ run_parts ps g = Ret (0, gen_append g (concat ls))) \/
  ((length (g_buf g) < g_itr g + length (concat ls))%nat /\ exists code g', run_parts ps g = Ret (code, g') /\ failed g g' code).
Proof.
  induction ps as [|[code p] ps IH]; intros ls g HP HG HN.
  - inversion HP; subst. left. destruct HG as [HL Hn]. cbn [run_parts concat length]. split; [lia|].
    rewrite incr_count_ok by lia. cbn [bind]. unfold gen_append. rewrite splice_nil. cbn. rewrite Nat.add_0_r. reflexivity.
  - inversion HP as [|? l ? ls' [HC Hcode] HP']; subst. cbn [snd fst] in *. cbn [run_parts concat].
    destruct HG as [HL Hn]. rewrite app_length.
    destruct (HC g ltac:(lia)) as [[Hf E]|[Hf (c & Hc & E)]]; rewrite E; cbn [bind fst snd].
    + change (0 =? 0) with true. cbv iota.
      set (g1 := mk_gen (splice (g_buf g) (g_itr g) l) (g_itr g + length l) (g_num g)).
      assert (HL1 : length (g_buf g1) = length (g_buf g)) by (apply splice_length; assumption).
      assert (HG1 : ginv g1) by (constructor; [rewrite HL1; cbn; lia|exact Hn]).
      destruct (IH ls' g1 HP' HG1 HN) as [[Hf2 E2]|[Hf2 (c2 & g2 & E2 & HF)]].
      * left. rewrite HL1 in Hf2. cbn in Hf2. split; [lia|]. rewrite E2. f_equal. f_equal.
        unfold gen_append, g1. cbn [g_buf g_itr g_num]. rewrite app_length. f_equal; [|lia].
        rewrite splice_twice by lia. reflexivity.
      * right. rewrite HL1 in Hf2. cbn in Hf2. split; [lia|]. exists c2, g2. split; [exact E2|].
        destruct HF as (Hc & Hnum & HLen & Hit & Hfi). cbn [g1 g_itr g_num] in Hnum, Hit, Hfi. rewrite HL1 in HLen, Hit.
        repeat split; auto; try lia.
        { change (g_buf g1) with (splice (g_buf g) (g_itr g) l) in Hfi. apply (f_equal (firstn (g_itr g))) in Hfi. rewrite !firstn_firstn in Hfi.
          replace (Nat.min (g_itr g) (g_itr g + length l)) with (g_itr g) in Hfi by lia.
          rewrite Hfi. apply splice_firstn_before; lia. }
    + destruct (c =? 0) eqn:E0; [lia|]. right. split; [lia|]. exists code, g. split; [reflexivity|].
      repeat split; auto; lia.
Qed.

Lemma bump_length b n : (n + 2 <= length b)%nat -> length (bump b n) = length b.
Proof. intros H. unfold bump. destruct (get16 b n); [apply splice_length; rewrite be16_length; lia|reflexivity]. Qed.

Lemma gen_append_inv g l : ginv g -> (g_num g <= 10)%nat -> (g_itr g + length l <= length (g_buf g))%nat -> ginv (gen_append g l).
Proof.
  intros [HL Hn] H10 Hf. constructor; [|exact Hn]. unfold gen_append. cbn [g_buf g_itr].
  rewrite bump_length, splice_length by (rewrite ?splice_length by lia; lia). lia.
Qed.

Lemma rr_allowed_num g : num_ok (g_num g) -> rr_allowed g = true -> (6 <= g_num g <= 10)%nat.
Proof.
  unfold rr_allowed, cur_purpose. intros [H|[H|[H|[H|H]]]]; rewrite H; cbn; try discriminate; lia.
Qed.
Lemma question_num g : num_ok (g_num g) -> purpose_eqb (cur_purpose g) P_question = true -> g_num g = 4%nat.
Proof. unfold cur_purpose. intros [H|[H|[H|[H|H]]]]; rewrite H; cbn; try discriminate; auto. Qed.
Lemma additional_num g : num_ok (g_num g) -> purpose_eqb (cur_purpose g) P_additional = true -> g_num g = 10%nat.
Proof. unfold cur_purpose. intros [H|[H|[H|[H|H]]]]; rewrite H; cbn; try discriminate; auto. Qed.

(** Bytes of the record a call appends. *)
Definition op_bytes (o : gop) : list Z :=
  match o with
  | OQuestion name ty kl => name_bytes name ++ be16 ty ++ be16 kl
  | OCName name cname ttl =>
      name_bytes name ++ be16 5 ++ be16 1 ++ be32 ttl ++ be16 (label_length cname) ++ name_bytes cname
  | OMX name pref server ttl =>
      name_bytes name ++ be16 15 ++ be16 1 ++ be32 ttl ++ be16 (label_length server + 2) ++ be16 pref ++ name_bytes server
  | OA name ip ttl => name_bytes name ++ be16 1 ++ be16 1 ++ be32 ttl ++ be16 4 ++ ip
  | OAAAA name ip ttl => name_bytes name ++ be16 28 ++ be16 1 ++ be32 ttl ++ be16 16 ++ ip
  | OEDns size => [0] ++ be16 41 ++ be16 size ++ be32 0 ++ be16 0
  | ORaw name ty kl data ttl =>
      name_bytes name ++ be16 ty ++ be16 kl ++ be32 ttl ++ be16 (Z.of_nat (length data)) ++ data
  | ONext => []
  end.

Definition raw_fits (o : gop) (g : gen) : Prop :=
  match o with
  | ORaw _ _ _ _ _ => (g_itr g + length (op_bytes o) <= length (g_buf g))%nat
  | _ => True
  end.

Definition op_section (o : gop) (p : purpose) : bool :=
  match o with
  | OQuestion _ _ _ => purpose_eqb p P_question
  | OEDns _ => purpose_eqb p P_additional
  | ONext => true
  | _ => purpose_eqb p P_answer || purpose_eqb p P_nameserver || purpose_eqb p P_additional
  end.

Ltac parts := unfold parts_ok; repeat (apply Forall2_cons; [split; [cbn [snd]; first [apply bytes_cpart | apply name_cpart]|cbn; lia]|]); apply Forall2_nil.

Lemma run_parts_split ps : forall g ls qs,
  parts_ok ps ls -> ginv g -> (g_itr g + length (concat ls) <= length (g_buf g))%nat ->
  run_parts (ps ++ qs) g =
  run_parts qs (mk_gen (splice (g_buf g) (g_itr g) (concat ls)) (g_itr g + length (concat ls)) (g_num g)).
Proof.
  induction ps as [|[code p] ps IH]; intros g ls qs HP HG HF.
  - inversion HP; subst. cbn. rewrite splice_nil, Nat.add_0_r. destruct g; reflexivity.
  - inversion HP as [|? l ? ls' [HC Hcode] HP']; subst. cbn [app run_parts concat snd fst] in *. rewrite app_length in HF.
    destruct HG as [HL Hn].
    destruct (HC g ltac:(lia)) as [[Hf E]|[Hf _]]; [|lia]. rewrite E. cbn [bind fst snd].
    change (0 =? 0) with true. cbv iota.
    rewrite (IH _ ls' qs HP'); cbn [g_buf g_itr g_num].
    + rewrite splice_twice by lia. rewrite app_length, Nat.add_assoc. reflexivity.
    + constructor; cbn; [rewrite splice_length by lia; lia|exact Hn].
    + rewrite splice_length by lia. lia.
Qed.

Lemma run_parts_split_fail ps : forall g ls qs,
  parts_ok ps ls -> ginv g -> (length (g_buf g) < g_itr g + length (concat ls))%nat ->
  exists code g', run_parts (ps ++ qs) g = Ret (code, g') /\ failed g g' code.
Proof.
  induction ps as [|[code p] ps IH]; intros g ls qs HP HG HF.
  - inversion HP; subst. cbn in HF. destruct HG. lia.
  - inversion HP as [|? l ? ls' [HC Hcode] HP']; subst. cbn [app run_parts concat snd fst] in *. rewrite app_length in HF.
    destruct HG as [HL Hn].
    destruct (HC g ltac:(lia)) as [[Hf E]|[Hf (c & Hc & E)]]; rewrite E; cbn [bind fst snd].
    + change (0 =? 0) with true. cbv iota.
      set (g1 := mk_gen (splice (g_buf g) (g_itr g) l) (g_itr g + length l) (g_num g)).
      assert (HL1 : length (g_buf g1) = length (g_buf g)) by (apply splice_length; assumption).
      assert (HG1 : ginv g1) by (constructor; [rewrite HL1; cbn; lia|exact Hn]).
      destruct (IH g1 ls' qs HP' HG1) as (c2 & g2 & E2 & Hc & Hnum & HLen & Hit & Hfi).
      { rewrite HL1. cbn [g1 g_itr]. lia. }
      exists c2, g2. split; [exact E2|].
      cbn [g1 g_itr g_num] in Hnum, Hit, Hfi. rewrite HL1 in HLen, Hit.
      repeat split; auto; try lia.
      change (g_buf g1) with (splice (g_buf g) (g_itr g) l) in Hfi. apply (f_equal (firstn (g_itr g))) in Hfi.
      rewrite !firstn_firstn in Hfi.
      replace (Nat.min (g_itr g) (g_itr g + length l)) with (g_itr g) in Hfi by lia.
      rewrite Hfi. apply splice_firstn_before; lia.
    + destruct (c =? 0) eqn:E0; [lia|]. exists code, g. split; [reflexivity|]. repeat split; auto; lia.
Qed.

(** Only the unchecked copy of RawData can leave the buffer, and it does whenever the record does not fit but
    everything before the data does. *)
Lemma raw_misfit n ty kl d t g : ginv g -> ~ raw_fits (ORaw n ty kl d t) g ->
  let pre := name_bytes n ++ be16 ty ++ be16 kl ++ be32 t ++ be16 (Z.of_nat (length d)) in
  (rr_allowed g = false /\ gen_step (ORaw n ty kl d t) g = Ret (1, g)) \/
  (rr_allowed g = true /\ d = [] /\ gen_step (ORaw n ty kl d t) g = Ret (2, g)) \/
  (rr_allowed g = true /\ d <> [] /\ (length (g_buf g) < g_itr g + length pre)%nat /\
     exists c g', gen_step (ORaw n ty kl d t) g = Ret (c, g') /\ failed g g' c) \/
  (rr_allowed g = true /\ d <> [] /\ (g_itr g + length pre <= length (g_buf g))%nat /\ gen_step (ORaw n ty kl d t) g = UBW).
Proof.
  intros HG HR pre. cbn [gen_step]. unfold gen_raw. destruct (rr_allowed g) eqn:E; [|left; auto].
  destruct d as [|c data]; [right; left; auto|]. right; right. set (d := c :: data) in *.
  cbn [raw_fits op_bytes] in HR.
  assert (Hcat : name_bytes n ++ be16 ty ++ be16 kl ++ be32 t ++ be16 (Z.of_nat (length d)) ++ d = pre ++ d)
    by (unfold pre; rewrite <- !app_assoc; reflexivity).
  rewrite Hcat, app_length in HR.
  pose proof (run_parts_split [(-1, name_part n); (-2, u16_part ty); (-3, u16_part kl); (-4, u32_part t);
                       (-5, u16_part (Z.of_nat (length d)))] g
     [name_bytes n; be16 ty; be16 kl; be32 t; be16 (Z.of_nat (length d))] [(0, raw_part d)] ltac:(parts) HG) as HS.
  pose proof (run_parts_split_fail [(-1, name_part n); (-2, u16_part ty); (-3, u16_part kl); (-4, u32_part t);
                       (-5, u16_part (Z.of_nat (length d)))] g
     [name_bytes n; be16 ty; be16 kl; be32 t; be16 (Z.of_nat (length d))] [(0, raw_part d)] ltac:(parts) HG) as HSF.
  cbn [app concat] in HS, HSF. rewrite app_nil_r in HS, HSF. fold pre in HS, HSF.
  destruct (Nat.ltb_spec (length (g_buf g)) (g_itr g + length pre)) as [Hl|Hl].
  - left. split; [reflexivity|]. split; [discriminate|]. split; [exact Hl|]. apply HSF. exact Hl.
  - right. split; [reflexivity|]. split; [discriminate|]. split; [exact Hl|]. rewrite HS by lia. cbn [run_parts].
    unfold raw_part. rewrite put_overflow; [reflexivity|]. cbn [g_itr g_buf]. rewrite splice_length by lia. lia.
Qed.

Lemma raw_fits_dec o g : raw_fits o g \/ ~ raw_fits o g.
Proof. destruct o; cbn [raw_fits]; try (left; exact I). lia. Qed.

Lemma gen_step_cases_fit o g : ginv g -> raw_fits o g -> o <> ONext ->
  (op_section o (cur_purpose g) = false /\ gen_step o g = Ret (1, g)) \/
  (exists n ty kl ttl, o = ORaw n ty kl [] ttl /\ op_section o (cur_purpose g) = true /\ gen_step o g = Ret (2, g)) \/
  (op_section o (cur_purpose g) = true /\ (g_num g <= 10)%nat /\ (g_itr g + length (op_bytes o) <= length (g_buf g))%nat /\
      gen_step o g = Ret (0, gen_append g (op_bytes o))) \/
  (op_section o (cur_purpose g) = true /\ (length (g_buf g) < g_itr g + length (op_bytes o))%nat /\
      exists code g', gen_step o g = Ret (code, g') /\ failed g g' code).
Proof.
  intros HG HR HNx. pose proof (gi_num g HG) as Hn.
  destruct o as [name ty kl|name cname ttl|name pref server ttl|name ip ttl|name ip ttl|size|name ty kl data ttl|];
    [| | | | | | |congruence]; cbn [gen_step op_section].
  - unfold gen_question. destruct (purpose_eqb (cur_purpose g) P_question) eqn:E; [|left; auto].
    right; right. apply question_num in E; auto.
    destruct (run_parts_ok [(-1, name_part name); (-2, u16_part ty); (-3, u16_part kl)]
               [name_bytes name; be16 ty; be16 kl] g ltac:(parts) HG ltac:(lia)) as [[Hf HE]|[Hf HE]];
      cbn [concat] in *; rewrite ?app_nil_r in *; [left|right]; repeat split; auto; lia.
  - unfold gen_cname. destruct (rr_allowed g) eqn:E; [|left; auto].
    right; right. pose proof (rr_allowed_num g Hn E). unfold rr_allowed in E.
    destruct (run_parts_ok [(-1, name_part name); (-2, u16_part 5); (-3, u16_part 1); (-4, u32_part ttl);
                  (-5, u16_part (label_length cname)); (-6, name_part cname)]
               [name_bytes name; be16 5; be16 1; be32 ttl; be16 (label_length cname); name_bytes cname] g ltac:(parts) HG ltac:(lia)) as [[Hf HE]|[Hf HE]];
      cbn [concat] in *; rewrite ?app_nil_r in *; [left|right]; repeat split; auto; lia.
  - unfold gen_mx. destruct (rr_allowed g) eqn:E; [|left; auto].
    right; right. pose proof (rr_allowed_num g Hn E). unfold rr_allowed in E.
    destruct (run_parts_ok [(-1, name_part name); (-2, u16_part 15); (-3, u16_part 1); (-4, u32_part ttl);
                  (-5, u16_part (label_length server + 2)); (-6, u16_part pref); (-7, name_part server)]
               [name_bytes name; be16 15; be16 1; be32 ttl; be16 (label_length server + 2); be16 pref; name_bytes server] g ltac:(parts) HG ltac:(lia)) as [[Hf HE]|[Hf HE]];
      cbn [concat] in *; rewrite ?app_nil_r in *; [left|right]; repeat split; auto; lia.
  - unfold gen_a. destruct (rr_allowed g) eqn:E; [|left; auto].
    right; right. pose proof (rr_allowed_num g Hn E). unfold rr_allowed in E.
    destruct (run_parts_ok [(-1, name_part name); (-2, u16_part 1); (-3, u16_part 1); (-4, u32_part ttl);
                  (-5, u16_part 4); (-6, bytes_part ip)]
               [name_bytes name; be16 1; be16 1; be32 ttl; be16 4; ip] g ltac:(parts) HG ltac:(lia)) as [[Hf HE]|[Hf HE]];
      cbn [concat] in *; rewrite ?app_nil_r in *; [left|right]; repeat split; auto; lia.
  - unfold gen_aaaa. destruct (rr_allowed g) eqn:E; [|left; auto].
    right; right. pose proof (rr_allowed_num g Hn E). unfold rr_allowed in E.
    destruct (run_parts_ok [(-1, name_part name); (-2, u16_part 28); (-3, u16_part 1); (-4, u32_part ttl);
                  (-5, u16_part 16); (-6, bytes_part ip)]
               [name_bytes name; be16 28; be16 1; be32 ttl; be16 16; ip] g ltac:(parts) HG ltac:(lia)) as [[Hf HE]|[Hf HE]];
      cbn [concat] in *; rewrite ?app_nil_r in *; [left|right]; repeat split; auto; lia.
  - unfold gen_edns. destruct (purpose_eqb (cur_purpose g) P_additional) eqn:E; [|left; auto].
    right; right. apply additional_num in E; auto.
    destruct (run_parts_ok [(-1, name_part []); (-2, u16_part 41); (-3, u16_part size); (-4, u32_part 0);
                  (-5, u16_part 0)]
               [name_bytes []; be16 41; be16 size; be32 0; be16 0] g ltac:(parts) HG ltac:(lia)) as [[Hf HE]|[Hf HE]];
      cbn [concat] in *; rewrite ?app_nil_r in *; [left|right]; repeat split; auto; lia.
  - unfold gen_raw. destruct (rr_allowed g) eqn:E; [|left; auto].
    destruct data as [|c data].
    { right; left. exists name, ty, kl, ttl. repeat split; auto. }
    right; right; left. pose proof (rr_allowed_num g Hn E). unfold rr_allowed in E.
    split; [exact E|]. split; [lia|]. split; [exact HR|].
    set (d := c :: data) in *. cbn [raw_fits op_bytes] in HR. cbn [op_bytes].
    pose proof (run_parts_split [(-1, name_part name); (-2, u16_part ty); (-3, u16_part kl); (-4, u32_part ttl);
                         (-5, u16_part (Z.of_nat (length d)))] g
       [name_bytes name; be16 ty; be16 kl; be32 ttl; be16 (Z.of_nat (length d))] [(0, raw_part d)] ltac:(parts) HG) as HS.
    cbn [app concat] in HS. rewrite app_nil_r in HS.
    set (pre := name_bytes name ++ be16 ty ++ be16 kl ++ be32 ttl ++ be16 (Z.of_nat (length d))) in *.
    assert (Hcat : name_bytes name ++ be16 ty ++ be16 kl ++ be32 ttl ++ be16 (Z.of_nat (length d)) ++ d = pre ++ d)
      by (unfold pre; rewrite <- !app_assoc; reflexivity).
    rewrite Hcat in *. rewrite app_length in HR. rewrite HS by lia. clear HS.
    cbn [run_parts]. unfold raw_part. rewrite put_fits; cbn [g_itr g_buf g_num]; [|rewrite splice_length; lia].
    cbn [bind fst snd]. change (0 =? 0) with true. cbv iota.
    destruct HG as [HL _].
    rewrite splice_twice by lia. rewrite incr_count_ok; cbn [g_itr g_buf g_num].
    + cbn [bind]. unfold gen_append. rewrite app_length, Nat.add_assoc. reflexivity.
    + rewrite splice_length by (rewrite app_length; lia). lia.
Qed.

Lemma gen_step_cases o g : ginv g -> gen_step o g <> UBW -> o <> ONext ->
  (op_section o (cur_purpose g) = false /\ gen_step o g = Ret (1, g)) \/
  (exists n ty kl ttl, o = ORaw n ty kl [] ttl /\ op_section o (cur_purpose g) = true /\ gen_step o g = Ret (2, g)) \/
  (op_section o (cur_purpose g) = true /\ (g_num g <= 10)%nat /\ (g_itr g + length (op_bytes o) <= length (g_buf g))%nat /\
      gen_step o g = Ret (0, gen_append g (op_bytes o))) \/
  (op_section o (cur_purpose g) = true /\ (length (g_buf g) < g_itr g + length (op_bytes o))%nat /\
      exists code g', gen_step o g = Ret (code, g') /\ failed g g' code).
Proof.
  intros HG HU HN. destruct (raw_fits_dec o g) as [HR|HR]; [now apply gen_step_cases_fit|].
  destruct o as [| | | | | |n ty kl d t|]; try (exfalso; apply HR; exact I).
  destruct (raw_misfit n ty kl d t g HG HR) as [[H1 H2]|[(H1 & -> & H2)|[(H1 & H2 & H3 & H4)|(_ & _ & _ & H2)]]].
  - left. auto.
  - right; left. exists n, ty, kl, t. auto.
  - right; right; right. split; [exact H1|]. split; [|exact H4]. cbn [raw_fits] in HR. lia.
  - congruence.
Qed.

Lemma gen_step_next g : ginv g -> gen_step ONext g = Ret (0, next_purpose g) /\ ginv (next_purpose g).
Proof.
  intros [HL Hn]. split; [reflexivity|]. unfold next_purpose, cur_purpose.
  destruct Hn as [H|[H|[H|[H|H]]]]; rewrite H; constructor; cbn; auto; unfold num_ok; auto; rewrite ?H; auto 8.
Qed.

Lemma failed_inv g g' c : ginv g -> failed g g' c -> ginv g'.
Proof. intros [HL Hn] (Hc & Hnum & Hlen & Hit & _). constructor; [lia|]. rewrite Hnum. exact Hn. Qed.

(** ** C08: any history *)
Lemma gen_step_safe o g : ginv g ->
  gen_step o g = UBW \/
  exists c g', gen_step o g = Ret (c, g') /\ ginv g' /\ length (g_buf g') = length (g_buf g).
Proof.
  intros HG. assert (HU : gen_step o g = UBW \/ gen_step o g <> UBW) by (destruct (gen_step o g); auto; right; discriminate).
  destruct HU as [HU|HU]; [left; exact HU|right].
  destruct (match o with ONext => true | _ => false end) eqn:E.
  - destruct o; try discriminate. destruct (gen_step_next g HG) as [HE HI].
    do 2 eexists. split; [exact HE|]. split; [exact HI|]. unfold next_purpose. destruct (cur_purpose g); reflexivity.
  - assert (HN : o <> ONext) by (intros ->; discriminate).
    destruct (gen_step_cases o g HG HU HN) as [(_ & H)|[(? & ? & ? & ? & _ & _ & H)|[(_ & H10 & Hf & H)|(_ & Hf & c & g' & H & HF)]]].
    + do 2 eexists. split; [exact H|]. auto.
    + do 2 eexists. split; [exact H|]. auto.
    + do 2 eexists. split; [exact H|]. split; [now apply gen_append_inv|].
      unfold gen_append. cbn. destruct HG as [HL _]. rewrite bump_length, splice_length by (rewrite ?splice_length by lia; lia). reflexivity.
    + do 2 eexists. split; [exact H|]. split; [eapply failed_inv; eauto|]. apply HF.
Qed.

Lemma gen_run_inv os : forall g cs g', ginv g -> gen_run os g = Ret (cs, g') ->
  ginv g' /\ length (g_buf g') = length (g_buf g) /\ length cs = length os.
Proof.
  induction os as [|o os IH]; intros g cs g' HG HE; cbn [gen_run] in HE.
  - inversion HE; subst. auto.
  - destruct (gen_step_safe o g HG) as [HU|(c & g1 & E & HG1 & HL1)]; [rewrite HU in HE; discriminate|].
    rewrite E in HE. cbn [bind snd fst] in HE. destruct (gen_run os g1) as [[cs2 g2]| | |] eqn:E2; try discriminate.
    cbn [bind fst snd] in HE. inversion HE; subst. destruct (IH g1 cs2 g' HG1 E2) as (H1 & H2 & H3).
    repeat split; try apply H1; try congruence. cbn. congruence.
Qed.

Lemma gen_run_no_raw os : forall g, ginv g -> (forall n ty kl d t, ~ In (ORaw n ty kl d t) os) ->
  exists cs g', gen_run os g = Ret (cs, g').
Proof.
  induction os as [|o os IH]; intros g HG HR; cbn [gen_run]; [eauto|].
  destruct (gen_step_safe o g HG) as [HU|(c & g1 & E & HG1 & HL1)].
  - exfalso. assert (Hf : raw_fits o g). { destruct o; try exact I. exfalso. eapply HR. left. reflexivity. }
    destruct (match o with ONext => true | _ => false end) eqn:E; [destruct o; discriminate|].
    assert (HN : o <> ONext) by (intros ->; discriminate).
    destruct (gen_step_cases_fit o g HG Hf HN) as [(_ & H)|[(? & ? & ? & ? & _ & _ & H)|[(_ & _ & _ & H)|(_ & _ & ? & ? & H & _)]]]; congruence.
  - rewrite E. cbn [bind fst snd].
    destruct (IH g1 HG1) as (cs & g2 & E2). { intros n ty kl d t Hin. eapply HR. right. exact Hin. }
    rewrite E2. cbn [bind fst snd]. eauto.
Qed.

(** ** C09 / C10: the message built *)
Lemma be16_mod v : be16 (v mod 65536) = be16 v.
Proof. unfold be16. f_equal; [|f_equal]; lia. Qed.
Lemma be16_succ v : be16 (v mod 65536 + 1) = be16 (v + 1).
Proof. rewrite <- (be16_mod (v mod 65536 + 1)), <- (be16_mod (v + 1)). f_equal. lia. Qed.

Lemma be16_inj_mod a b : be16 a = be16 b -> a mod 65536 = b mod 65536.
Proof. intros H. rewrite <- !from16_be16, H. reflexivity. Qed.

Definition sec_num (p : purpose) : nat :=
  match p with P_question => 4 | P_answer => 6 | P_nameserver => 8 | P_additional => 10 | P_unknown => 12 end.
(** sections after the current one are still empty *)
Definition later_empty (p : purpose) (g : message) : Prop :=
  match p with
  | P_question => m_an g = [] /\ m_ns g = [] /\ m_ar g = []
  | P_answer => m_ns g = [] /\ m_ar g = []
  | P_nameserver => m_ar g = []
  | _ => True
  end.

Lemma cur_purpose_sec p b i : cur_purpose (mk_gen b i (sec_num p)) = p.
Proof. destruct p; reflexivity. Qed.

(** The built bytes are the encoded message. *)
Record built (g : gen) (st : message * purpose) : Prop := mk_built {
  bl_inv : ginv g;
  bl_num : g_num g = sec_num (snd st);
  bl_id : length (m_idflags (fst st)) = 4%nat;
  bl_bytes : firstn (g_itr g) (g_buf g) = enc_msg (fst st);
  bl_later : later_empty (snd st) (fst st) }.

Lemma splice_app b i l : (i + length l <= length b)%nat -> (i <= length b)%nat ->
  firstn (i + length l) (splice b i l) = firstn i b ++ l.
Proof. intros; now apply splice_firstn. Qed.

(** bumping the count of a section in a buffer whose beginning is known *)
Lemma bump_header a v c tail n : n = length a ->
  bump (a ++ be16 v ++ c ++ tail) n = a ++ be16 (v + 1) ++ c ++ tail.
Proof.
  intros ->. unfold bump, get16. rewrite (slice_app a (be16 v) (c ++ tail) : slice _ _ 2 = _). cbn [option_map].
  rewrite from16_be16, be16_succ. unfold splice. rewrite firstn_app, firstn_all, Nat.sub_diag, firstn_O, app_nil_r.
  f_equal. f_equal. rewrite be16_length.
  rewrite skipn_app. rewrite skipn_all2 by lia. replace (length a + 2 - length a)%nat with 2%nat by lia. reflexivity.
Qed.

Lemma bump_header0 a v tail n : n = length a -> bump (a ++ be16 v ++ tail) n = a ++ be16 (v + 1) ++ tail.
Proof. exact (bump_header a v [] tail n). Qed.

Lemma firstn_skipn_eq {A} (b : list A) i l : firstn i b = l -> b = l ++ skipn i b.
Proof. intros <-. symmetry. apply firstn_skipn. Qed.

Lemma built_buf g st : built g st -> g_buf g = enc_msg (fst st) ++ skipn (g_itr g) (g_buf g).
Proof. intros [_ _ _ H _]. now apply firstn_skipn_eq. Qed.

Lemma append_firstn g l : ginv g -> (g_num g <= 10)%nat -> (g_itr g + length l <= length (g_buf g))%nat ->
  g_itr (gen_append g l) = (g_itr g + length l)%nat /\
  firstn (g_itr (gen_append g l)) (g_buf (gen_append g l)) = bump (firstn (g_itr g) (g_buf g) ++ l) (g_num g).
Proof.
  intros [HL Hn] H10 Hf. split; [reflexivity|]. unfold gen_append. cbn [g_itr g_buf].
  set (b := splice (g_buf g) (g_itr g) l).
  assert (Hb : length b = length (g_buf g)) by (apply splice_length; lia).
  assert (HF : firstn (g_itr g + length l) b = firstn (g_itr g) (g_buf g) ++ l) by (apply splice_firstn; lia).
  assert (HLn : length (firstn (g_itr g) (g_buf g) ++ l) = (g_itr g + length l)%nat).
  { rewrite app_length, firstn_length. lia. }
  set (pre := firstn (g_itr g) (g_buf g) ++ l) in *.
  assert (Hbe : b = pre ++ skipn (g_itr g + length l) b) by (apply firstn_skipn_eq; exact HF).
  assert (Hget : get16 b (g_num g) = get16 pre (g_num g)).
  { unfold get16. f_equal. rewrite Hbe.
    destruct (slice pre (g_num g) 2) as [x|] eqn:E; [now apply slice_app_some|].
    unfold slice in E. destruct (Nat.leb_spec (g_num g + 2) (length pre)); [discriminate|lia]. }
  unfold bump. rewrite Hget. destruct (get16_ok pre (g_num g) ltac:(lia)) as [v Ev]. rewrite Ev.
  unfold splice. rewrite !be16_length.
  rewrite firstn_app, firstn_firstn, firstn_length.
  replace (Nat.min (g_itr g + length l) (g_num g)) with (g_num g) by lia.
  replace (firstn (g_num g) b) with (firstn (g_num g) pre).
  2:{ rewrite Hbe. rewrite firstn_app. replace (g_num g - length pre)%nat with O by lia. rewrite firstn_O, app_nil_r. reflexivity. }
  f_equal. rewrite firstn_app, be16_length.
  replace (g_itr g + length l - Nat.min (g_num g) (length b))%nat with (2 + (g_itr g + length l - g_num g - 2))%nat by lia.
  rewrite firstn_all2 by (rewrite be16_length; lia). f_equal.
  replace (2 + (g_itr g + length l - g_num g - 2) - 2)%nat with (g_itr g + length l - g_num g - 2)%nat by lia.
  rewrite Hbe at 1. rewrite skipn_app. rewrite firstn_app, skipn_length.
  replace (g_itr g + length l - g_num g - 2 - (length pre - (g_num g + 2)))%nat with O by lia.
  rewrite firstn_O, app_nil_r. apply firstn_all2. rewrite skipn_length. lia.
Qed.

Lemma enc_labels_wire ls : enc_name (plain ls) = wire ls.
Proof.
  unfold enc_name, plain. cbn. induction ls as [|l ls IH]; cbn; [reflexivity|].
  rewrite <- IH, <- app_assoc. reflexivity.
Qed.

Lemma label_length_wire ls : name_ok ls -> label_length (dotted ls) = Z.of_nat (length (wire ls)).
Proof. intros H. rewrite <- name_bytes_wire by assumption. symmetry. apply name_bytes_length. Qed.

Lemma bytes_rr s r : sop_ok s -> sop_rr s = Some r -> op_bytes (call_of s) = enc_rr r.
Proof.
  intros HO. destruct s; cbn [sop_rr call_of op_bytes]; intros E; try discriminate E; apply (f_equal (fun o => match o with Some x => x | None => r end)) in E; subst r; unfold enc_rr; cbn [r_name r_type r_class r_ttl r_data];
    rewrite enc_labels_wire; cbn [sop_ok] in HO.
  - rewrite !name_bytes_wire, label_length_wire by tauto. reflexivity.
  - rewrite !name_bytes_wire, label_length_wire by tauto. rewrite app_length, be16_length.
    replace (Z.of_nat (2 + length (wire s))) with (Z.of_nat (length (wire s)) + 2) by lia. reflexivity.
  - destruct HO as (Hn & Hl & _). rewrite !name_bytes_wire by tauto. rewrite Hl. reflexivity.
  - destruct HO as (Hn & Hl & _). rewrite !name_bytes_wire by tauto. rewrite Hl. reflexivity.
  - reflexivity.
  - rewrite !name_bytes_wire by tauto. reflexivity.
Qed.

Lemma concat_map_snoc {A} (f : A -> list Z) l x : concat (map f (l ++ [x])) = concat (map f l) ++ f x.
Proof. rewrite map_app, concat_app. cbn. now rewrite app_nil_r. Qed.

Lemma enc_msg_add p r g : length (m_idflags g) = 4%nat -> later_empty p g ->
  p = P_answer \/ p = P_nameserver \/ p = P_additional ->
  bump (enc_msg g ++ enc_rr r) (sec_num p) = enc_msg (add_rr p r g).
Proof.
  intros Hid HL [->|[->| ->]]; cbn [later_empty sec_num add_rr] in *; unfold enc_msg; cbn [m_idflags m_qs m_an m_ns m_ar];
    rewrite app_length; cbn [length].
  - destruct HL as [-> ->]. cbn [map concat length].
    rewrite <- !app_assoc. rewrite (app_assoc (m_idflags g)).
    rewrite (bump_header (m_idflags g ++ be16 (Z.of_nat (length (m_qs g)))) (Z.of_nat (length (m_an g)))
       (be16 (Z.of_nat 0)) _ 6%nat) by (rewrite app_length, Hid; reflexivity).
    rewrite <- !app_assoc. rewrite concat_map_snoc. rewrite <- !app_assoc.
    replace (Z.of_nat (length (m_an g) + 1)) with (Z.of_nat (length (m_an g)) + 1) by lia. cbn [app]. rewrite !app_nil_r. reflexivity.
  - rewrite HL. cbn [map concat length].
    rewrite <- !app_assoc. rewrite (app_assoc (m_idflags g)). rewrite (app_assoc (m_idflags g ++ _)).
    rewrite (bump_header ((m_idflags g ++ be16 (Z.of_nat (length (m_qs g)))) ++ be16 (Z.of_nat (length (m_an g)))) (Z.of_nat (length (m_ns g)))
       (be16 (Z.of_nat 0)) _ 8%nat) by (rewrite !app_length, Hid; reflexivity).
    rewrite <- !app_assoc. rewrite concat_map_snoc. rewrite <- !app_assoc.
    replace (Z.of_nat (length (m_ns g) + 1)) with (Z.of_nat (length (m_ns g)) + 1) by lia. cbn [app]. rewrite ?app_nil_r. reflexivity.
  - rewrite <- !app_assoc. rewrite (app_assoc (m_idflags g)). rewrite (app_assoc (m_idflags g ++ _)).
    rewrite (app_assoc ((m_idflags g ++ _) ++ _)).
    rewrite (bump_header0 (((m_idflags g ++ be16 (Z.of_nat (length (m_qs g)))) ++ be16 (Z.of_nat (length (m_an g)))) ++ be16 (Z.of_nat (length (m_ns g)))) (Z.of_nat (length (m_ar g)))
       _ 10%nat) by (rewrite !app_length, Hid; reflexivity).
    rewrite <- !app_assoc. rewrite concat_map_snoc.
    replace (Z.of_nat (length (m_ar g) + 1)) with (Z.of_nat (length (m_ar g)) + 1) by lia. reflexivity.
Qed.

Lemma enc_msg_add_q q g : length (m_idflags g) = 4%nat -> later_empty P_question g ->
  bump (enc_msg g ++ enc_q q) 4 = enc_msg (mk_msg (m_idflags g) (m_qs g ++ [q]) (m_an g) (m_ns g) (m_ar g)).
Proof.
  intros Hid (Ha & Hn & Hr). unfold enc_msg; cbn [m_idflags m_qs m_an m_ns m_ar]. rewrite Ha, Hn, Hr.
  cbn [map concat length]. rewrite app_length; cbn [length]. rewrite <- !app_assoc.
  rewrite (bump_header (m_idflags g) (Z.of_nat (length (m_qs g))) (be16 (Z.of_nat 0)) _ 4%nat) by (rewrite Hid; reflexivity).
  rewrite concat_map_snoc. rewrite <- !app_assoc. cbn [app]. rewrite !app_nil_r.
  replace (Z.of_nat (length (m_qs g) + 1)) with (Z.of_nat (length (m_qs g)) + 1) by lia. reflexivity.
Qed.

Lemma built_purpose g st : built g st -> cur_purpose g = snd st.
Proof. intros [_ Hn _ _ _]. unfold cur_purpose. rewrite Hn. destruct (snd st); reflexivity. Qed.

Lemma built_step s g st c g' : built g st -> sop_ok s ->
  gen_step (call_of s) g = Ret (c, g') -> 0 <= c -> built g' (spec_step s c st).
Proof.
  intros HB HO HE Hc. assert (HR : gen_step (call_of s) g <> UBW) by congruence. pose proof (built_purpose g st HB) as HP. destruct st as [m p]. cbn [snd] in HP.
  destruct (match s with SNext => true | _ => false end) eqn:Es.
  { destruct s; try discriminate. cbn in HE. inversion HE; subst c g'. cbn. destruct HB as [HI Hn Hid Hb Hl].
    destruct (gen_step_next g HI) as [_ HI']. cbn [fst snd] in *.
    assert (Hnum : g_num (next_purpose g) = sec_num (spec_next p)).
    { unfold next_purpose. rewrite HP. destruct p; cbn in *; auto; lia. }
    constructor; cbn [fst snd]; auto.
    - unfold next_purpose. destruct (cur_purpose g); exact Hb.
    - destruct p; cbn in *; tauto. }
  assert (HN : call_of s <> ONext) by (destruct s; discriminate).
  destruct HB as [HI Hn Hid Hb Hl]. cbn [fst snd] in *.
  destruct (gen_step_cases (call_of s) g HI HR HN) as [(_ & H)|[(? & ? & ? & ? & _ & _ & H)|[(Hs & H10 & Hf & H)|(_ & Hf & c' & g2 & H & HF)]]];
    rewrite HE in H; inversion H; subst c g'; clear H.
  - unfold spec_step. change (1 =? 0) with false. cbv iota. constructor; auto.
  - unfold spec_step. change (2 =? 0) with false. cbv iota. constructor; auto.
  - destruct (append_firstn g (op_bytes (call_of s)) HI H10 Hf) as [Hit Hfi].
    rewrite Hb in Hfi. rewrite HP in *.
    assert (HI' : ginv (gen_append g (op_bytes (call_of s)))) by (apply gen_append_inv; auto).
    unfold spec_step. change (0 =? 0) with true. cbv iota.
    destruct (sop_rr s) as [r|] eqn:Er.
    + rewrite (bytes_rr s r HO Er) in *.
      assert (Hp3 : p = P_answer \/ p = P_nameserver \/ p = P_additional).
      { destruct s; try discriminate; destruct p; cbn in Hs; try discriminate; auto. }
      assert (HG : built (gen_append g (enc_rr r)) (add_rr p r m, p)).
      { rewrite Hn in Hfi. cbn [snd] in *. constructor; cbn [fst snd]; auto.
        - destruct Hp3 as [->|[->| ->]]; exact Hid.
        - rewrite Hfi. apply enc_msg_add; auto.
        - destruct Hp3 as [->|[->| ->]]; cbn in *; auto. }
      destruct s; try discriminate; cbn in Er; inversion Er; subst r; exact HG.
    + destruct s; try discriminate. destruct p; try discriminate. cbn [snd sec_num] in *.
      assert (Hby : op_bytes (call_of (SQuestion n ty kl)) = enc_q (mk_q (plain n) ty kl)).
      { cbn [call_of op_bytes]. unfold enc_q. cbn [q_name q_type q_class]. rewrite enc_labels_wire, name_bytes_wire by apply HO. reflexivity. }
      rewrite Hby in *. rewrite Hn in Hfi. constructor; cbn [fst snd]; auto.
      * rewrite Hfi. apply enc_msg_add_q; auto.
  - exfalso. destruct HF as (Hneg & _). lia.
Qed.

Lemma built_run ss : forall g st cs g', built g st -> Forall sop_ok ss ->
  gen_run (map call_of ss) g = Ret (cs, g') -> Forall (fun c => 0 <= c) cs -> built g' (spec_run ss cs st).
Proof.
  induction ss as [|s ss IH]; intros g st cs g' HB HO HE HC.
  - cbn in HE. inversion HE; subst. exact HB.
  - cbn [map gen_run] in HE. inversion HO as [|? ? HO1 HO2]; subst.
    destruct (gen_step (call_of s) g) as [[c g1]| | |] eqn:E1; try discriminate. cbn [bind fst snd] in HE.
    destruct (gen_run (map call_of ss) g1) as [[cs2 g2]| | |] eqn:E2; try discriminate. cbn [bind fst snd] in HE.
    inversion HE; subst cs g'. inversion HC as [|? ? HC1 HC2]; subst. cbn [spec_run].
    eapply IH; eauto. eapply built_step; eauto.
Qed.

Lemma gen_init_built b g : (12 <= length b)%nat -> gen_init b = Ret g ->
  built g (spec_init (firstn 4 b)) /\ length (g_buf g) = length b.
Proof.
  intros Hb. unfold gen_init, zero_counts. rewrite bwrite_ok by (cbn; lia). cbn [bind].
  set (z := [0;0;0;0;0;0;0;0]). set (B := firstn 4 b ++ z ++ skipn (4 + length z) b).
  assert (Hlen : length B = length b).
  { unfold B, z. rewrite !app_length, firstn_length, skipn_length. cbn [length]. lia. }
  assert (H12 : firstn 12 B = firstn 4 b ++ z).
  { unfold B, z. rewrite firstn_app, firstn_firstn, firstn_length. replace (Nat.min 12 4) with 4%nat by lia.
    replace (12 - Nat.min 4 (length b))%nat with 8%nat by lia. reflexivity. }
  clearbody B. intros H; injection H as H; subst g. split; [|exact Hlen].
  constructor; cbn [g_buf g_itr g_num fst snd spec_init sec_num m_idflags].
  - constructor; cbn [g_buf g_itr g_num]; [rewrite Hlen; lia|left; reflexivity].
  - reflexivity.
  - rewrite firstn_length; lia.
  - rewrite H12. reflexivity.
  - cbn. auto.
Qed.

(** ** C09 for all histories, failing calls included *)
Definition counts (cs : Z * Z * Z * Z) : list Z :=
  let '(q, a, n, r) := cs in be16 q ++ be16 a ++ be16 n ++ be16 r.
Record counted (g : gen) (st : message * purpose) : Prop := mk_counted {
  ct_inv : ginv g; ct_num : g_num g = sec_num (snd st);
  ct_hdr : firstn 8 (skipn 4 (g_buf g)) =
    counts (Z.of_nat (length (m_qs (fst st))), Z.of_nat (length (m_an (fst st))),
            Z.of_nat (length (m_ns (fst st))), Z.of_nat (length (m_ar (fst st)))) }.

Lemma split_header (b : list Z) : (12 <= length b)%nat ->
  b = firstn 4 b ++ firstn 8 (skipn 4 b) ++ skipn 12 b.
Proof.
  intros H. rewrite <- (firstn_skipn 4 b) at 1. f_equal.
  rewrite <- (firstn_skipn 8 (skipn 4 b)) at 1. f_equal. rewrite skipn_skipn'. reflexivity.
Qed.

Lemma header_of_firstn (b b' : list Z) n : (12 <= n)%nat -> firstn n b' = firstn n b ->
  firstn 8 (skipn 4 b') = firstn 8 (skipn 4 b).
Proof.
  intros Hn H. assert (E : firstn 12 b' = firstn 12 b).
  { apply (f_equal (firstn 12)) in H. rewrite !firstn_firstn in H. replace (Nat.min 12 n) with 12%nat in H by lia. exact H. }
  apply list_ext. intros j. rewrite !nth_error_firstn. destruct (Nat.ltb_spec j 8); [|reflexivity].
  rewrite !nth_error_skipn. apply (f_equal (fun l => nth_error l (4 + j))) in E.
  rewrite !nth_error_firstn in E. destruct (Nat.ltb_spec (4 + j) 12); [exact E|lia].
Qed.

Lemma firstn_header (a h t : list Z) : length a = 4%nat -> length h = 8%nat -> firstn 8 (skipn 4 (a ++ h ++ t)) = h.
Proof.
  intros Ha Hh. rewrite skipn_app, skipn_all2 by lia. rewrite Ha. cbn [Nat.sub skipn app].
  rewrite firstn_app, firstn_all2 by lia. rewrite Hh. cbn. apply app_nil_r.
Qed.

Lemma bump_counts b p q a n r : (12 <= length b)%nat ->
  firstn 8 (skipn 4 b) = counts (q, a, n, r) -> p <> P_unknown ->
  firstn 8 (skipn 4 (bump b (sec_num p))) =
  counts (match p with P_question => (q + 1, a, n, r) | P_answer => (q, a + 1, n, r)
                     | P_nameserver => (q, a, n + 1, r) | P_additional => (q, a, n, r + 1) | _ => (q, a, n, r) end).
Proof.
  intros Hb Hh Hp. rewrite (split_header b Hb) at 1. rewrite Hh. unfold counts. rewrite <- !app_assoc.
  assert (Hf : length (firstn 4 b) = 4%nat) by (rewrite firstn_length; lia).
  set (f := firstn 4 b) in *. set (t := skipn 12 b).
  destruct p; try congruence; cbn [sec_num].
  - rewrite (bump_header f q (be16 a) _ 4%nat) by lia.
    apply (firstn_header f (be16 (q + 1) ++ be16 a ++ be16 n ++ be16 r) t Hf eq_refl).
  - rewrite (app_assoc f). rewrite (bump_header (f ++ be16 q) a (be16 n) _ 6%nat) by (rewrite app_length, Hf; reflexivity).
    rewrite <- !app_assoc. apply (firstn_header f (be16 q ++ be16 (a + 1) ++ be16 n ++ be16 r) t Hf eq_refl).
  - rewrite (app_assoc f). rewrite (app_assoc (f ++ _)).
    rewrite (bump_header ((f ++ be16 q) ++ be16 a) n (be16 r) _ 8%nat) by (rewrite !app_length, Hf; reflexivity).
    rewrite <- !app_assoc. apply (firstn_header f (be16 q ++ be16 a ++ be16 (n + 1) ++ be16 r) t Hf eq_refl).
  - rewrite (app_assoc f). rewrite (app_assoc (f ++ _)). rewrite (app_assoc ((f ++ _) ++ _)).
    rewrite (bump_header0 (((f ++ be16 q) ++ be16 a) ++ be16 n) r _ 10%nat) by (rewrite !app_length, Hf; reflexivity).
    rewrite <- !app_assoc. apply (firstn_header f (be16 q ++ be16 a ++ be16 n ++ be16 (r + 1)) t Hf eq_refl).
Qed.

Lemma counted_step s g st c g' : counted g st ->
  gen_step (call_of s) g = Ret (c, g') -> counted g' (spec_step s c st).
Proof.
  intros HB HE. assert (HR : gen_step (call_of s) g <> UBW) by congruence. destruct st as [m p]. destruct HB as [HI Hn Hh]. cbn [fst snd] in *.
  assert (HP : cur_purpose g = p). { unfold cur_purpose. rewrite Hn. destruct p; reflexivity. }
  destruct (match s with SNext => true | _ => false end) eqn:Es.
  { destruct s; try discriminate. cbn in HE. inversion HE; subst c g'. cbn.
    destruct (gen_step_next g HI) as [_ HI']. constructor; cbn [fst snd]; auto.
    - unfold next_purpose. rewrite HP. destruct p; cbn in *; auto; lia.
    - unfold next_purpose. destruct (cur_purpose g); exact Hh. }
  assert (HN : call_of s <> ONext) by (destruct s; discriminate).
  destruct (gen_step_cases (call_of s) g HI HR HN) as [(_ & H)|[(? & ? & ? & ? & _ & _ & H)|[(Hs & H10 & Hf & H)|(_ & Hf & c' & g2 & H & HF)]]];
    rewrite HE in H; inversion H; subst c g'; clear H.
  - unfold spec_step. change (1 =? 0) with false. cbv iota. constructor; auto.
  - unfold spec_step. change (2 =? 0) with false. cbv iota. constructor; auto.
  - unfold spec_step. change (0 =? 0) with true. cbv iota. rewrite HP in Hs.
    assert (Hu : p <> P_unknown). { intros ->. destruct s; discriminate. }
    assert (HI' := gen_append_inv g _ HI H10 Hf).
    assert (Hbump : firstn 8 (skipn 4 (g_buf (gen_append g (op_bytes (call_of s))))) = counts
      (match p with P_question => (Z.of_nat (length (m_qs m)) + 1, Z.of_nat (length (m_an m)), Z.of_nat (length (m_ns m)), Z.of_nat (length (m_ar m)))
       | P_answer => (Z.of_nat (length (m_qs m)), Z.of_nat (length (m_an m)) + 1, Z.of_nat (length (m_ns m)), Z.of_nat (length (m_ar m)))
       | P_nameserver => (Z.of_nat (length (m_qs m)), Z.of_nat (length (m_an m)), Z.of_nat (length (m_ns m)) + 1, Z.of_nat (length (m_ar m)))
       | P_additional => (Z.of_nat (length (m_qs m)), Z.of_nat (length (m_an m)), Z.of_nat (length (m_ns m)), Z.of_nat (length (m_ar m)) + 1)
       | _ => (Z.of_nat (length (m_qs m)), Z.of_nat (length (m_an m)), Z.of_nat (length (m_ns m)), Z.of_nat (length (m_ar m))) end)).
    { unfold gen_append. cbn [g_buf]. rewrite Hn. cbn [snd]. destruct HI as [HL _]. apply bump_counts; auto.
      - rewrite splice_length by lia. lia.
      - rewrite <- Hh. apply (header_of_firstn _ _ (g_itr g)); [lia|]. apply splice_firstn_before; lia. }
    assert (HA : forall r, sop_rr s = Some r -> counted (gen_append g (op_bytes (call_of s))) (add_rr p r m, p)).
    { intros r Er. constructor; cbn [fst snd]; auto. rewrite Hbump.
      destruct s; try discriminate; destruct p; try discriminate; cbn [add_rr m_qs m_an m_ns m_ar]; rewrite app_length; cbn [length];
        rewrite Nat2Z.inj_add; reflexivity. }
    destruct s; try discriminate; try (eapply HA; reflexivity).
    destruct p; try discriminate. constructor; cbn [fst snd]; auto. rewrite Hbump. cbn [m_qs m_an m_ns m_ar].
    rewrite app_length; cbn [length]. rewrite Nat2Z.inj_add. reflexivity.
  - unfold spec_step. destruct HF as (Hneg & Hnum & Hlen & Hit & Hfi).
    destruct (c' =? 0) eqn:E0; [lia|]. constructor; cbn [fst snd].
    + eapply failed_inv; eauto. repeat split; eauto; lia.
    + congruence.
    + rewrite <- Hh. destruct HI as [HL _]. apply (header_of_firstn _ _ (g_itr g)); [lia|exact Hfi].
Qed.

Lemma counted_run ss : forall g st cs g', counted g st ->
  gen_run (map call_of ss) g = Ret (cs, g') -> counted g' (spec_run ss cs st).
Proof.
  induction ss as [|s ss IH]; intros g st cs g' HB HE.
  - cbn in HE. inversion HE; subst. exact HB.
  - cbn [map gen_run] in HE.
    destruct (gen_step (call_of s) g) as [[c g1]| | |] eqn:E1; try discriminate. cbn [bind fst snd] in HE.
    destruct (gen_run (map call_of ss) g1) as [[cs2 g2]| | |] eqn:E2; try discriminate. cbn [bind fst snd] in HE.
    inversion HE; subst cs g'. cbn [spec_run].
    eapply IH; eauto. eapply counted_step; eauto.
Qed.

Lemma counted_init b g : (12 <= length b)%nat -> gen_init b = Ret g -> counted g (spec_init (firstn 4 b)).
Proof.
  intros Hb H. destruct (gen_init_built b g Hb H) as [HB HL]. destruct HB as [HI Hn Hid Hby _]. constructor; auto.
  cbn [spec_init fst m_qs m_an m_ns m_ar length] in *.
  pose proof (header_of_firstn (enc_msg (mk_msg (firstn 4 b) [] [] [] [])) (g_buf g) (g_itr g)) as HH.
  destruct HI as [HL2 _]. rewrite HH; [|lia|].
  - unfold enc_msg. cbn [m_idflags m_qs m_an m_ns m_ar map concat length]. rewrite !app_nil_r.
    apply (firstn_header (firstn 4 b) (counts (Z.of_nat 0, Z.of_nat 0, Z.of_nat 0, Z.of_nat 0)) []); [exact Hid|reflexivity].
  - rewrite Hby. symmetry. apply firstn_all2. rewrite <- Hby. rewrite firstn_length. lia.
Qed.
