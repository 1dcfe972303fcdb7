From Coq Require Import String.
From Verif Require Import Base BaseFacts List2Facts Name_Model Name_Proofs Parser_Model Gen_Model Slist_Model Replace_Props Addr_Model Addr_Proofs Cht_Model Cache_Model Rdata_Model Rdata_Spec Rdata_Proofs.
Require Import ZifyBool ZifyNat.

(** * Numbers *)
Lemma digit_char d : 0 <= d < 16 -> 48 <= print_digit d <= 102.
Proof. intros H. unfold print_digit. destruct (Z.ltb_spec d 10); lia. Qed.
Lemma print_loop_chars fuel base : 2 <= base <= 16 -> forall v, 0 <= v -> Forall (fun c => 48 <= c <= 102) (print_loop fuel base v).
Proof.
  intros Hb. induction fuel as [|fuel IH]; intros v Hv; cbn [print_loop]; [constructor|]. destruct (Z.ltb_spec v base); [constructor; [apply digit_char; lia|constructor]|].
  apply Forall_app. split; [apply IH, Z.div_pos; lia|]. constructor; [|constructor]. apply digit_char. pose proof (Z.mod_pos_bound v base ltac:(lia)). lia.
Qed.
Lemma chars_no0 l : Forall (fun c => 48 <= c <= 102) l -> ~ In 0 l.
Proof. intros H X. rewrite Forall_forall in H. specialize (H _ X). lia. Qed.
Lemma chars_no37 l : Forall (fun c => 48 <= c <= 102) l -> ~ In 37 l.
Proof. intros H X. rewrite Forall_forall in H. specialize (H _ X). lia. Qed.
Lemma print_loop_len fuel base : forall v, (length (print_loop fuel base v) <= fuel)%nat.
Proof. induction fuel as [|fuel IH]; intros v; cbn [print_loop]; [reflexivity|]. destruct (v <? base); cbn [length]; [lia|]. rewrite app_length. specialize (IH (v / base)). cbn [length]. lia. Qed.
Lemma print_loop_short k : forall fuel v, 0 <= v < 10 ^ Z.of_nat k -> (1 <= k)%nat -> (length (print_loop fuel 10 v) <= k)%nat.
Proof.
  induction k as [|k IH]; intros fuel v Hv Hk; [lia|]. destruct fuel as [|fuel]; cbn [print_loop]; [cbn [length]; lia|]. destruct (Z.ltb_spec v 10); [cbn [length]; lia|]. rewrite app_length. cbn [length].
  assert (Hk1 : (1 <= k)%nat). { destruct k; [cbn in Hv; lia|lia]. }
  assert (Hd : 0 <= v / 10 < 10 ^ Z.of_nat k). { split; [apply Z.div_pos; lia|]. apply Z.div_lt_upper_bound; [lia|]. replace (Z.of_nat (S k)) with (Z.of_nat k + 1) in Hv by lia. rewrite Z.pow_add_r in Hv by lia. lia. }
  specialize (IH fuel (v / 10) Hd Hk1). lia.
Qed.
Lemma print_loop_digits fuel : forall v, 1 <= v < 10 ^ Z.of_nat fuel -> digits v (print_loop fuel 10 v).
Proof.
  induction fuel as [|fuel IH]; intros v Hv; [cbn in Hv; lia|]. cbn [print_loop]. destruct (Z.ltb_spec v 10) as [H|H].
  - unfold digits, print_digit. cbn [fold_left hd]. destruct (Z.ltb_spec v 10); [|lia]. split; [lia|]. split; [constructor; [lia|constructor]|]. split; [discriminate|lia].
  - pose proof (Z.div_mod v 10 ltac:(lia)) as HD. pose proof (Z.mod_pos_bound v 10 ltac:(lia)) as HM.
    assert (Hd : 1 <= v / 10 < 10 ^ Z.of_nat fuel). { split; [lia|]. apply Z.div_lt_upper_bound; [lia|]. replace (Z.of_nat (S fuel)) with (Z.of_nat fuel + 1) in Hv by lia. rewrite Z.pow_add_r in Hv by lia. lia. }
    destruct (IH _ Hd) as (D1 & D2 & D3 & D4). unfold digits. rewrite fold_left_app. cbn [fold_left]. rewrite D1. unfold print_digit. destruct (Z.ltb_spec (v mod 10) 10); [|lia]. split; [lia|].
    split; [apply Forall_app; split; [exact D2|constructor; [lia|constructor]]|]. split; [destruct (print_loop fuel 10 (v / 10)); discriminate|]. destruct (print_loop fuel 10 (v / 10)); [contradiction|exact D4].
Qed.
Lemma asc_chars fuel x z n : Forall is_byte x -> forall i, 0 <= i -> Forall (fun c => 48 <= c <= 102) (asc_loop fuel x z n i) /\ (length (asc_loop fuel x z n i) <= 9 * fuel)%nat.
Proof.
  intros HB. assert (HN : forall k, 0 <= nth k x 0). { intros k. destruct (nth_in_or_default k x 0) as [H| ->]; [|lia]. rewrite Forall_forall in HB. apply HB in H. unfold is_byte in H. lia. }
  induction fuel as [|fuel IH]; intros i Hi; cbn [asc_loop]; [split; [constructor|cbn [length]; lia]|]. destruct (16 <=? i); [split; [constructor|cbn [length]; lia]|].
  destruct ((i =? z) && (2 <? n)) eqn:E.
  - destruct (IH (i + (n - 2) + 2) ltac:(lia)) as (I1 & I2). split.
    + apply Forall_app. split; [destruct (i =? 0); repeat constructor; lia|]. constructor; [lia|exact I1].
    + rewrite app_length. cbn [length]. destruct (i =? 0); cbn [length]; lia.
  - destruct (IH (i + 2) ltac:(lia)) as (I1 & I2). pose proof (HN (Z.to_nat i)). pose proof (HN (Z.to_nat i + 1)%nat). split.
    + apply Forall_app. split; [apply print_loop_chars; lia|]. apply Forall_app. split; [destruct (i <? 14); repeat constructor; lia|exact I1].
    + rewrite !app_length. pose proof (print_loop_len 8 16 (nth (Z.to_nat i) x 0 * 256 + nth (Z.to_nat i + 1) x 0)). unfold print_x. destruct (i <? 14); cbn [length]; lia.
Qed.

(** * The values *)
(** A value has no NUL and is not too long. *)
Definition value_ok (o : outcome (option (list Z * Z))) : Prop :=
  o <> UBW /\ forall v used, o = Ret (Some (v, used)) -> ~ In 0 v /\ Z.of_nat (length v) < 100000.
Lemma field_value nf m len host f pos : Forall is_byte m -> length host = 254%nat -> value_ok (field_text nf m len host f pos).
Proof.
  intros HF Hh. destruct f; cbn [field_text].
  - pose proof (rd16_safe m pos). destruct (rd16 m pos) as [v| | |] eqn:E; cbn [bind]; try (split; discriminate); [|congruence]. split; [discriminate|]. intros t used H0. assert (t = print_u v) as -> by congruence.
    pose proof (rd16_range _ _ _ HF E). split; [apply chars_no0, print_loop_chars; lia|]. pose proof (print_loop_len 10 10 v). unfold print_u. lia.
  - destruct (rd32 m pos) as [v| | |] eqn:E; cbn [bind]; try (split; discriminate).
    + split; [discriminate|]. intros t used H0. assert (t = print_u v) as -> by congruence. pose proof (rd32_range _ _ _ HF E). split; [apply chars_no0, print_loop_chars; lia|]. pose proof (print_loop_len 10 10 v). unfold print_u. lia.
    + unfold rd32 in E. destruct (get32 m pos); discriminate.
  - unfold rdn. destruct (slice m pos 4) as [a|] eqn:E; cbn [bind]; [|split; discriminate]. split; [discriminate|]. intros t used H0. assert (t = v4_to_asc a) as -> by congruence.
    pose proof (slice_bytes _ _ _ _ HF E) as HB. destruct (v4_to_asc_ok a (slice_length _ _ _ _ E) HB) as (_ & L). split; [|lia].
    assert (HN : forall k, ~ In 0 (print_u (nth k a 0))). { intros k. apply chars_no0, print_loop_chars; [lia|]. destruct (nth_in_or_default k a 0) as [H| ->]; [|lia]. rewrite Forall_forall in HB. apply HB in H. unfold is_byte in H. lia. }
    unfold v4_to_asc. rewrite in_app_iff. cbn [In]. rewrite in_app_iff. cbn [In]. rewrite in_app_iff. cbn [In]. intros [X|[X|[X|[X|[X|[X|X]]]]]]; try discriminate; revert X; apply HN.
  - unfold rdn. destruct (slice m pos 16) as [a|] eqn:E; cbn [bind]; [|split; discriminate]. split; [discriminate|]. intros t used H0. assert (t = v6_to_asc a) as -> by congruence.
    pose proof (slice_bytes _ _ _ _ HF E) as HB. unfold v6_to_asc. cbv zeta. destruct (asc_chars 9 a (z_best (find_run a)) (n_best (find_run a)) HB 0 ltac:(lia)) as (A1 & A2). split; [apply chars_no0, A1|lia].
  - split; [apply (field_name_safe nf m len host pos)|]. intros v used H. destruct (field_name_text nf m len host pos v used H) as (H1 & H2). split; [exact H1|lia].
Qed.
Lemma rr_string_ok m fuel : forall pos stop left, rr_string m fuel pos stop left <> UBW /\ forall t, rr_string m fuel pos stop left = Ret (Some t) -> (length t <= left)%nat.
Proof.
  induction fuel as [|fuel IH]; intros pos stop left; cbn [rr_string]; [split; discriminate|]. destruct (Nat.ltb pos stop); [|split; [discriminate|]; intros t H; assert (t = []) as -> by congruence; cbn [length]; lia].
  unfold rd8. destruct (nth_error m pos) as [c|]; cbn [bind]; [|split; discriminate]. destruct (Nat.leb_spec left (Z.to_nat c)); [split; discriminate|]. unfold rdn. destruct (slice m (S pos) (Z.to_nat c)) as [d|] eqn:E; cbn [bind]; [|split; discriminate].
  destruct (IH (pos + (1 + Z.to_nat c))%nat stop (left - Z.to_nat c)%nat) as (I1 & I2). destruct (rr_string m fuel _ stop _) as [[t'|]| | |] eqn:Er; cbn [bind option_map]; try (split; discriminate); [|congruence].
  split; [discriminate|]. intros t H0. assert (t = d ++ t') as -> by congruence. specialize (I2 t' eq_refl). rewrite app_length, (slice_length _ _ _ _ E). lia.
Qed.
Lemma cstr_len l : (length (cstr l) <= length l)%nat.
Proof. induction l as [|c l IH]; cbn [cstr length]; [lia|]. destruct (c =? 0); cbn [length]; lia. Qed.

(** * One line *)
Lemma first_mark (c : Z) (p a : list Z) : ~ In c a -> forall b a' b', a ++ (c :: p) ++ b = a' ++ (c :: p) ++ b' -> (length a <= length a')%nat.
Proof.
  revert p. induction a as [|x a IH]; intros p H b a' b' E; [cbn [length]; lia|]. destruct a' as [|y a']; cbn [app] in E; [exfalso; apply H; left; congruence|]. cbn [length].
  assert (E' : a ++ (c :: p) ++ b = a' ++ (c :: p) ++ b') by (cbn [app]; congruence). specialize (IH p ltac:(intros X; apply H; now right) b a' b' E'). lia.
Qed.
Definition line_start (T : list Z) : list Z := [32; 32; 32] ++ T ++ [58; 32] ++ [37; 118] ++ [10].
Lemma line_t T : ~ In 37 T -> replaced [37; 116] T 1 line_format (line_start T).
Proof.
  intros _. change line_format with ([32; 32; 32] ++ [37; 116] ++ [58; 32; 37; 118; 10]). unfold line_start. change ([58; 32] ++ [37; 118] ++ [10]) with [58; 32; 37; 118; 10].
  apply replaced_one; [apply first_mark; cbn; intuition discriminate|]. constructor. intros [|x [|y [|z [|w [|u a]]]]] b E; try discriminate E. destruct a; discriminate E.
Qed.
Lemma line_v T v : ~ In 37 T -> replaced [37; 118] v 1 (line_start T) (log_line T v).
Proof.
  intros H. unfold line_start, log_line. replace ([32; 32; 32] ++ T ++ [58; 32] ++ [37; 118] ++ [10]) with (([32; 32; 32] ++ T ++ [58; 32]) ++ [37; 118] ++ [10]) by (rewrite <- !app_assoc; reflexivity).
  replace ([32; 32; 32] ++ T ++ [58; 32] ++ v ++ [10]) with (([32; 32; 32] ++ T ++ [58; 32]) ++ v ++ [10]) by (rewrite <- !app_assoc; reflexivity).
  apply replaced_one; [apply first_mark; rewrite !in_app_iff; cbn; intuition discriminate|]. constructor. intros [|x a] b E; [discriminate|]. injection E as _ E. destruct a; discriminate.
Qed.
(** A result: the memory keeps its length, and with a positive return value it starts with the text of some lines, which is shorter than [size]. *)
Definition written (size : nat) (b : list Z) (n : Z) (b' : list Z) (text : list Z) : Prop :=
  length b' = length b /\ (n <= 0 \/ (exists rest, b' = text ++ 0 :: rest) /\ ~ In 0 text /\ (length text + 1 <= size)%nat).
Lemma line_len T v : length (log_line T v) = (6 + length T + length v)%nat.
Proof. unfold log_line. rewrite !app_length. cbn [length]. lia. Qed.
Lemma line_no0 T v : ~ In 0 T -> ~ In 0 v -> ~ In 0 (log_line T v).
Proof. intros H1 H2. unfold log_line. rewrite !in_app_iff. cbn [In]. intuition discriminate. Qed.
Lemma put_line T val b size : ~ In 0 T -> ~ In 37 T -> Z.of_nat (length T) < 100000 -> value_ok val -> (size <= length b)%nat ->
  match put_text line_format T val b size with
  | Ret (n, b', used) => length b' = length b /\ (n = -1 \/ exists v rest, val = Ret (Some (v, used)) /\ n = Z.of_nat (length (log_line T v)) /\ b' = log_line T v ++ 0 :: rest /\ is_log_line (log_line T v) /\ (length (log_line T v) + 1 <= size)%nat)
  | UBW => False
  | _ => True
  end.
Proof.
  intros H0 H37 HL (V1 & V2) Hb. assert (Lf : length (line_start T) = (8 + length T)%nat) by (unfold line_start; rewrite !app_length; cbn [length]; lia).
  destruct (put_text_ok line_format T val b size 1 (line_start T) ltac:(cbn; intuition discriminate) H0 (line_t T H37) Hb ltac:(lia)) as (P1 & P2).
  destruct (Nat.lt_ge_cases size (length line_format + 1)) as [Hs|Hs]; [rewrite P1 by exact Hs; auto|]. specialize (P2 Hs).
  destruct (Nat.ltb size (length (line_start T) + 1)); [destruct P2 as (b' & -> & L); auto|].
  destruct val as [[[v used]|]| | |]; [| |rewrite P2; exact I|congruence|rewrite P2; exact I].
  - destruct (V2 v used eq_refl) as (V3 & V4). specialize (P2 V3 1%nat (log_line T v) (line_v T v H37)). rewrite line_len in P2. specialize (P2 ltac:(lia)).
    destruct (Nat.ltb_spec size (6 + length T + length v + 1)) as [Hq|Hq]; [destruct P2 as (b' & -> & L); auto|].
    destruct P2 as (rest & -> & L). split; [exact L|]. right. exists v, rest. split; [reflexivity|]. split; [rewrite line_len; reflexivity|]. split; [reflexivity|]. split; [exists T, v; auto|]. rewrite line_len. lia.
  - destruct P2 as (b' & -> & L). auto.
Qed.

(** * The lines of a record *)
Definition lines_ok (size : nat) (b : list Z) (r : outcome (Z * list Z)) : Prop :=
  match r with
  | Ret (n, b') => length b' = length b /\ (n <= 0 \/ exists lines rest, Forall is_log_line lines /\ b' = concat lines ++ 0 :: rest /\ (length (concat lines) + 1 <= size)%nat)
  | UBW => False
  | _ => True
  end.
Definition name_ok (T : list Z) : Prop := ~ In 0 T /\ ~ In 37 T /\ Z.of_nat (length T) < 100000.
Lemma one_line T val b size : name_ok T -> value_ok val -> (size <= length b)%nat ->
  lines_ok size b (let! r := put_text line_format T val b size in let '(n, b', _) := r in Ret (n, b')) /\
  lines_ok size b (let! r := put_text line_format T val b size in let '(n, b', _) := r in Ret (if n <? 0 then n else n + 1, b')).
Proof.
  intros (T1 & T2 & T3) HV Hb. pose proof (put_line T val b size T1 T2 T3 HV Hb) as HP. destruct (put_text line_format T val b size) as [[[n b'] used]| | |]; cbn [bind lines_ok]; [|auto|contradiction|auto].
  destruct HP as (HL & [->|(v & rest & _ & -> & E & HI & HS)]).
  - split; (split; [exact HL|left; cbn; lia]).
  - assert (HX : exists lines rest, Forall is_log_line lines /\ b' = concat lines ++ 0 :: rest /\ (length (concat lines) + 1 <= size)%nat).
    { exists [log_line T v], rest. cbn [concat]. rewrite app_nil_r. split; [constructor; [exact HI|constructor]|]. split; [exact E|exact HS]. }
    split; (split; [exact HL|right; exact HX]).
Qed.
Lemma parse_data_lines nf m len host pp data dl size : Forall is_byte m -> length host = 254%nat -> Forall (fun p => name_ok (fst p)) pp ->
  forall left b done lines tail, b = concat lines ++ tail -> length (concat lines) = done -> Forall is_log_line lines ->
  (done = 0%nat \/ (exists rest, tail = 0 :: rest) /\ (done + 1 <= size)%nat) -> (size <= length b)%nat ->
  lines_ok size b (parse_data nf m len host (Some line_format) pp data dl left b size done).
Proof.
  intros HF Hh. induction pp as [|[pre f] pp IH]; intros HP left b done lines tail Eb Ed HL HT Hb; cbn [parse_data].
  - cbn [lines_ok]. split; [reflexivity|]. destruct HT as [->|((rest & ->) & HT)]; [left; lia|]. right. exists lines, rest. split; [exact HL|]. split; [exact Eb|]. lia.
  - inversion_clear HP as [|? ? (P1 & P2 & P3) HP']. cbn [fst] in *. destruct (left <=? 0).
    { cbn [lines_ok]. split; [reflexivity|]. destruct HT as [->|((rest & ->) & HT)]; [left; lia|]. right. exists lines, rest. split; [exact HL|]. split; [exact Eb|]. lia. }
    assert (Es : skipn done b = tail /\ firstn done b = concat lines). { rewrite Eb, <- Ed. split; [apply skipn_app_l|apply firstn_app_l]. } destruct Es as (-> & ->).
    assert (Lt : length tail = (length b - done)%nat) by (rewrite Eb, app_length; lia). cbn [field_parse].
    pose proof (put_line pre (field_text nf m len host f (Z.to_nat (Z.of_nat data + dl - left))) tail (size - done) P1 P2 P3 (field_value nf m len host f _ HF Hh) ltac:(lia)) as HPL.
    destruct (put_text line_format pre _ tail (size - done)) as [[[n b'] used]| | |]; cbn [bind]; [|exact I|exact HPL|exact I].
    destruct HPL as (L' & [->|(v & rest & _ & -> & E & HI & HS)]).
    + cbn [Z.leb Z.compare]. cbn [lines_ok]. rewrite app_length, L'. split; [lia|left; lia].
    + destruct (Z.leb_spec (Z.of_nat (length (log_line pre v))) 0) as [Hn|Hn]; [rewrite line_len in Hn; lia|]. rewrite Nat2Z.id.
      assert (Lb : length (concat lines ++ b') = length b) by (rewrite app_length, L'; lia).
      pose proof (IH HP' (left - used) (concat lines ++ b') (done + length (log_line pre v))%nat (lines ++ [log_line pre v]) (0 :: rest)) as HI2.
      rewrite concat_app in HI2. cbn [concat] in HI2. rewrite app_nil_r, app_length in HI2.
      assert (HX : lines_ok size (concat lines ++ b') (parse_data nf m len host (Some line_format) pp data dl (left - used) (concat lines ++ b') size (done + length (log_line pre v)))).
      { apply HI2; [rewrite E, <- app_assoc; reflexivity|lia|apply Forall_app; split; [exact HL|constructor; [exact HI|constructor]]|right; split; [eauto|lia]|lia]. }
      unfold lines_ok in *. rewrite Lb in HX. exact HX.
Qed.
Lemma type_name_ok ty t : type_name ty = Some t -> name_ok t.
Proof.
  unfold type_name. destruct (find (fun p => fst p =? ty) type_list) as [p|] eqn:E; cbn [option_map]; [|discriminate]. intros H. assert (t = snd p) as -> by congruence. apply find_some in E. destruct E as (E & _).
  assert (HC : forallb (fun p => forallb (fun c => negb (c =? 0) && negb (c =? 37)) (snd p) && Nat.leb (length (snd p)) 100) type_list = true) by (vm_compute; reflexivity).
  rewrite forallb_forall in HC. specialize (HC p E). apply andb_true_iff in HC. destruct HC as (HC & HL). apply Nat.leb_le in HL. rewrite forallb_forall in HC.
  split; [intros X; specialize (HC _ X); discriminate|]. split; [intros X; specialize (HC _ X); discriminate|lia].
Qed.
Lemma const_ok t : forallb (fun c => negb (c =? 0) && negb (c =? 37)) t = true -> Nat.leb (length t) 100 = true -> name_ok t.
Proof.
  intros HC HL. apply Nat.leb_le in HL. rewrite forallb_forall in HC. split; [intros X; specialize (HC _ X); discriminate|]. split; [intros X; specialize (HC _ X); discriminate|lia].
Qed.
Lemma type_text_ok ty : name_ok (type_text ty).
Proof. unfold type_text. destruct (type_name ty) as [t|] eqn:E; [exact (type_name_ok _ _ E)|apply const_ok; reflexivity]. Qed.
Lemma raw_lines ty dl b size : 0 <= ty -> 0 <= dl -> (size <= length b)%nat -> (11 <= length b)%nat -> lines_ok size b (parse_raw line_format ty dl b size).
Proof.
  intros Hty Hdl Hb Hb2. unfold parse_raw. set (T := match type_name ty with Some t => t | None => txt "UNKNOWN ("%string ++ print_u ty ++ txt ")"%string end).
  assert (HT : name_ok T).
  { unfold T. destruct (type_name ty) as [t|] eqn:E; [exact (type_name_ok _ _ E)|]. pose proof (print_loop_chars 10 10 ltac:(lia) ty Hty) as HC. pose proof (print_loop_len 10 10 ty) as HL. fold (print_u ty) in *.
    split; [rewrite !in_app_iff; intros [X|[X|X]]; [cbn in X; intuition discriminate|exact (chars_no0 _ HC X)|cbn in X; intuition discriminate]|].
    split; [rewrite !in_app_iff; intros [X|[X|X]]; [cbn in X; intuition discriminate|exact (chars_no37 _ HC X)|cbn in X; intuition discriminate]|]. rewrite !app_length. cbn [txt length map list_ascii_of_string]. lia. }
  destruct HT as (T1 & T2 & T3). set (v := if ty =? 41 then txt "Pseudo-RR"%string else print_u dl ++ txt " bytes"%string).
  assert (HV : ~ In 0 v /\ (length v <= 100)%nat).
  { unfold v. destruct (ty =? 41); [split; [cbn; intuition discriminate|cbn; lia]|]. pose proof (print_loop_chars 10 10 ltac:(lia) dl Hdl) as HC. pose proof (print_loop_len 10 10 dl) as HL. fold (print_u dl) in *.
    split; [rewrite in_app_iff; intros [X|X]; [exact (chars_no0 _ HC X)|cbn in X; intuition discriminate]|]. rewrite app_length. cbn [txt length map list_ascii_of_string]. lia. }
  destruct HV as (V1 & V2). assert (Lf : length (line_start T) = (8 + length T)%nat) by (unfold line_start; rewrite !app_length; cbn [length]; lia).
  rewrite bwrite_at0 by (cbn; lia). cbn [bind]. set (r0 := skipn (length (line_format ++ [0])) b). rewrite <- app_assoc. cbn [app].
  assert (L0 : length (line_format ++ 0 :: r0) = length b) by (rewrite app_length; unfold r0; cbn [length]; rewrite skipn_length; cbn; lia).
  pose proof (replace_checked_ok [37; 116] T 1 line_format (line_start T) r0 size (S (length b)) ltac:(discriminate) ltac:(cbn; intuition discriminate) T1 (line_t T T2) ltac:(lia) ltac:(lia) ltac:(cbn; lia)) as HR1.
  destruct (Nat.leb (length (line_start T) + 1) size).
  - destruct HR1 as (r1 & -> & L1). cbn [bind].
    pose proof (replace_checked_ok [37; 118] v 1 (line_start T) (log_line T v) r1 size (S (length b)) ltac:(discriminate) ltac:(unfold line_start; rewrite !in_app_iff; cbn; intuition discriminate) V1 (line_v T v T2) ltac:(lia) ltac:(rewrite line_len; lia) ltac:(rewrite app_length in L1; cbn [length] in *; lia)) as HR2.
    destruct (Nat.leb_spec (length (log_line T v) + 1) size) as [HS|HS].
    + destruct HR2 as (r2 & -> & L2). cbn [bind]. rewrite zlen_ok by (apply line_no0; assumption). cbn [lines_ok]. split; [lia|]. right. exists [log_line T v], r2. cbn [concat]. rewrite app_nil_r. split; [constructor; [exists T, v; auto|constructor]|]. split; [reflexivity|exact HS].
    + rewrite HR2. cbn [bind]. destruct (give_up_ok (line_start T ++ 0 :: r1)) as (b' & -> & L'); [unfold line_start; discriminate|]. cbn [bind lines_ok]. split; [lia|left; lia].
  - rewrite HR1. cbn [bind]. destruct (give_up_ok (line_format ++ 0 :: r0)) as (b' & -> & L'); [discriminate|]. cbn [bind lines_ok]. split; [lia|left; lia].
Qed.
Lemma txt_lines m data dl b size : 0 <= dl < 65536 -> (size <= length b)%nat -> lines_ok size b (parse_txt m line_format data dl b size).
Proof.
  intros Hdl Hb. unfold parse_txt. destruct (Nat.ltb size (length line_format + 1)); [cbn [lines_ok]; split; [reflexivity|left; lia]|].
  apply one_line; [apply const_ok; reflexivity| |exact Hb]. destruct (rr_string_ok m (S (Z.to_nat dl)) data (data + Z.to_nat dl) (Z.to_nat dl)) as (R1 & R2).
  destruct (rr_string m (S (Z.to_nat dl)) data (data + Z.to_nat dl) (Z.to_nat dl)) as [[t|]| | |]; cbn [bind option_map]; try (split; discriminate); [|congruence].
  split; [discriminate|]. intros v used H. assert (v = cstr (t ++ [0])) as -> by congruence. split; [apply cstr_in0|]. specialize (R2 t eq_refl). pose proof (cstr_len (t ++ [0])) as HC. rewrite app_length in HC. cbn [length] in HC. lia.
Qed.
Lemma textify_lines nf m len host i pos b size : Forall is_byte m -> length host = 254%nat -> 0 <= it_type i -> 0 <= it_dlen i < 65536 -> (size <= length b)%nat -> (11 <= length b)%nat ->
  lines_ok size b (textify nf m len host i pos line_format b size).
Proof.
  intros HF Hh Ht Hd Hb Hb2. unfold textify. assert (HR : rec_dpos m pos <> UBW). { unfold rec_dpos. pose proof (jump_safe m pos). destruct (jump m pos); cbn [bind]; congruence. }
  destruct (rec_dpos m pos) as [data| | |]; cbn [bind]; [|exact I|congruence|exact I].
  destruct (negb (it_type i =? 41) && negb (it_klass i =? 1)); [cbn [lines_ok]; split; [reflexivity|left; lia]|].
  assert (HO : forall T f, name_ok T -> lines_ok size b (parse_one nf m len host (Some line_format) T f data b size)).
  { intros T f HT. unfold parse_one. cbn [field_parse]. apply one_line; [exact HT|apply field_value; assumption|exact Hb]. }
  destruct (it_type i =? 1); [apply HO, const_ok; reflexivity|]. destruct (it_type i =? 28); [apply HO, const_ok; reflexivity|]. destruct ((it_type i =? 5) || (it_type i =? 12) || (it_type i =? 2)); [apply HO, type_text_ok|].
  destruct (it_type i =? 16); [apply txt_lines; assumption|].
  assert (HD : forall pp, Forall (fun p => name_ok (fst p)) pp -> lines_ok size b (parse_data nf m len host (Some line_format) pp data (it_dlen i) (it_dlen i) b size 0)).
  { intros pp HP. apply (parse_data_lines nf m len host pp data (it_dlen i) size HF Hh HP (it_dlen i) b 0 [] b); auto. }
  destruct (it_type i =? 15); [apply HD; repeat constructor; apply const_ok; reflexivity|]. destruct (it_type i =? 6); [apply HD; repeat constructor; apply const_ok; reflexivity|].
  apply raw_lines; [assumption|lia|assumption|assumption].
Qed.

(** * The loop *)
Lemma iter_at_keep m dlen i p r o i' : iter_at m dlen i p r = Ret (o, i') ->
  it_qf i' = it_qf i /\ it_ql i' = it_ql i /\ it_all i' = it_all i /\ (0 <= it_rec i -> 0 <= r -> 0 <= it_rec i') /\
  (o <> None -> it_pos i' <> None /\ it_rec i' = r /\ r <= it_all i /\ it_purpose i' = determine_purpose i r).
Proof.
  unfold iter_at. destruct ((it_all i <? r) || (dlen <? Z.of_nat p)) eqn:E.
  { intros H. assert (o = None /\ i' = iter_stop i) as (-> & ->) by (split; congruence). cbn. repeat split; auto; try congruence; lia. }
  destruct (rec_type m p) as [ty| | |]; cbn [bind]; try discriminate. destruct (rec_class m p) as [kl| | |]; cbn [bind]; try discriminate.
  destruct (negb (purpose_eqb (determine_purpose i r) P_unknown) && negb (ty =? 0) && negb (kl =? 0)).
  - destruct (if purpose_eqb (determine_purpose i r) P_question then Ret (it_dlen i) else rec_dlen m p) as [dl| | |]; cbn [bind]; try discriminate.
    intros H. assert (o = Some p /\ i' = iter_info i (Some p) r (determine_purpose i r) ty kl dl) as (-> & ->) by (split; congruence). cbn. repeat split; auto; try discriminate. lia.
  - intros H. assert (o = None /\ i' = iter_stop (iter_info i None 0 (determine_purpose i r) ty kl (it_dlen i))) as (-> & ->) by (split; congruence). cbn. repeat split; auto; try congruence; lia.
Qed.
Lemma iter_next_keep m dlen i o i' : 0 <= it_rec i -> iter_next m dlen i = Ret (o, i') ->
  it_qf i' = it_qf i /\ it_ql i' = it_ql i /\ it_all i' = it_all i /\ 0 <= it_rec i' /\
  (o <> None -> let r := match it_pos i with None => 1 | Some _ => it_rec i + 1 end in it_pos i' <> None /\ it_rec i' = r /\ r <= it_all i /\ it_purpose i' = determine_purpose i r).
Proof.
  intros H0. unfold iter_next. destruct (it_pos i) as [p|].
  - destruct (it_rec i <? it_all i).
    + destruct (name_extent m p) as [n| | |]; cbn [bind]; try discriminate. destruct (_ <? _).
      * intros H. assert (o = None /\ i' = i) as (-> & ->) by (split; congruence). repeat split; auto; try congruence; lia.
      * intros H. apply iter_at_keep in H. destruct H as (H1 & H2 & H3 & H4 & H5). split; [exact H1|]. split; [exact H2|]. split; [exact H3|]. split; [apply H4; lia|exact H5].
    + intros H. assert (o = None /\ i' = iter_stop i) as (-> & ->) by (split; congruence). cbn. repeat split; auto; try congruence; lia.
  - intros H. apply iter_at_keep in H. destruct H as (H1 & H2 & H3 & H4 & H5). split; [exact H1|]. split; [exact H2|]. split; [exact H3|]. split; [apply H4; lia|exact H5].
Qed.
(** The number of records that are still to come is at most [count]. *)
Record counted (qd : Z) (i : iter) (count : Z) : Prop := mk_counted {
  cd_qd : 0 <= qd; cd_qf : it_qf i = if qd =? 0 then 0 else 1; cd_ql : it_ql i = it_qf i + qd - 1; cd_rec : 0 <= it_rec i;
  cd_none : it_pos i = None -> it_all i <= count + qd; cd_some : it_pos i <> None -> qd <= it_rec i -> it_all i <= count + it_rec i }.
Lemma counted_next qd i count m dlen pos i' : counted qd i count -> iter_next m dlen i = Ret (Some pos, i') -> it_purpose i' <> P_question -> 1 <= count /\ counted qd i' (count - 1).
Proof.
  intros [C1 C2 C3 C4 C5 C6] E HP. destruct (iter_next_keep _ _ _ _ _ C4 E) as (K1 & K2 & K3 & K4 & K5). specialize (K5 ltac:(discriminate)). cbv zeta in K5. destruct K5 as (K5 & K6 & K7 & K8).
  unfold determine_purpose in K8. destruct (it_pos i) as [p|] eqn:Ep.
  - assert (HQ : qd <= it_rec i).
    { destruct (Z_le_gt_dec qd (it_rec i)); [assumption|]. exfalso. apply HP. rewrite K8. destruct (Z.eqb_spec qd 0); [lia|]. rewrite C3, C2. replace (negb (1 =? 0) && (1 <=? it_rec i + 1) && (it_rec i + 1 <=? 1 + qd - 1)) with true by lia. reflexivity. }
    specialize (C6 ltac:(discriminate) HQ). split; [lia|]. constructor; [exact C1|congruence|congruence|exact K4|intros; contradiction|intros; lia].
  - specialize (C5 eq_refl). assert (HQ : qd = 0).
    { destruct (Z.eqb_spec qd 0); [assumption|]. exfalso. apply HP. rewrite K8, C3, C2. replace (negb (1 =? 0) && (1 <=? 1) && (1 <=? 1 + qd - 1)) with true by lia. reflexivity. }
    split; [lia|]. constructor; [exact C1|congruence|congruence|exact K4|intros; contradiction|intros; lia].
Qed.
Lemma goto_loop_keep m dlen fuel : forall i i', 0 <= it_rec i -> goto_loop fuel m dlen i = Ret i' -> it_qf i' = it_qf i /\ it_ql i' = it_ql i /\ it_all i' = it_all i /\ 0 <= it_rec i'.
Proof.
  induction fuel as [|fuel IH]; intros i i' H0; cbn [goto_loop]; [discriminate|]. destruct (iter_next m dlen i) as [[o i1]| | |] eqn:E; cbn [bind]; try discriminate.
  destruct (iter_next_keep _ _ _ _ _ H0 E) as (K1 & K2 & K3 & K4 & _). destruct o as [p|].
  - destruct (it_rec i1 =? it_ql i1); intros H; [assert (i' = i1) as -> by congruence; auto|]. destruct (IH _ _ K4 H) as (I1 & I2 & I3 & I4). repeat split; congruence || auto.
  - intros H. assert (i' = i1) as -> by congruence. auto.
Qed.
Lemma goto_loop_safe m dlen fuel : forall i, goto_loop fuel m dlen i <> UBW.
Proof.
  induction fuel as [|fuel IH]; intros i; cbn [goto_loop]; [discriminate|]. pose proof (iter_next_safe m dlen i). destruct (iter_next m dlen i) as [[[p|] i1]| | |]; cbn [bind]; try congruence. destruct (_ =? _); [discriminate|apply IH].
Qed.

(** What there is in the buffer: the lines, then (if there are none) perhaps "Nothing". *)
Lemma answers_ok nf m len host qd total : Forall is_byte m -> length host = 254%nat -> total < 100000 ->
  forall fuel i b k left count lines t rest, b = concat lines ++ t ++ 0 :: rest -> length (concat lines) = k -> Forall is_log_line lines -> (k + left + 22 = length b)%nat -> (1 <= left)%nat ->
  t = [] \/ (lines = [] /\ count = 0 /\ total = 0 /\ t = nothing) -> counted qd i count -> count <= total ->
  match answers_loop nf m len host fuel i b k left count with
  | Ret b' => length b' = length b /\ exists text rest', b' = text ++ 0 :: rest' /\ listing total text /\ ~ In 0 text
  | UBW => False
  | _ => True
  end.
Proof.
  intros HF Hh Htot. induction fuel as [|fuel IH]; intros i b k left count lines t rest Eb Ek HL Hlen Hl Ht HC Hct; cbn [answers_loop]; [exact I|].
  assert (HN0 : ~ In 0 (concat lines)). { intros X. apply in_concat in X. destruct X as (l & X1 & X2). rewrite Forall_forall in HL. destruct (HL l X1) as (T & v & -> & HT & Hv). exact (line_no0 T v HT Hv X2). }
  assert (HEnd : length b = length b /\ exists text rest', b = text ++ 0 :: rest' /\ listing total text /\ ~ In 0 text).
  { split; [reflexivity|]. destruct Ht as [->|(-> & _ & -> & ->)].
    - exists (concat lines), rest. split; [exact Eb|]. split; [right; exists lines; auto|exact HN0].
    - exists nothing, rest. split; [exact Eb|]. split; [left; auto|unfold nothing; cbn; intuition discriminate]. }
  pose proof (iter_next_safe m (Z.of_nat len) i) as HS. destruct (iter_next m (Z.of_nat len) i) as [[[pos|] i']| | |] eqn:E; cbn [bind]; [|exact HEnd|exact I|congruence|exact I].
  destruct (iter_next_info _ _ _ _ _ HF E) as (N1 & N2 & N3).
  assert (HStep : it_purpose i' <> P_question ->
    match (let! t := textify nf m len host i' pos line_format (skipn k b) left in
        let '(n, b') := t in
        let b1 := firstn k b ++ b' in
        if n <=? 0 then bwrite b1 k (txt "   And "%string ++ print_u count ++ txt " More ..."%string ++ [10; 0])
        else match zlen b' with
             | None => UBR
             | Some s => answers_loop nf m len host fuel i' b1 (k + s) (left - s) (count - 1)
             end) with
    | Ret b' => length b' = length b /\ exists text rest', b' = text ++ 0 :: rest' /\ listing total text /\ ~ In 0 text
    | UBW => False
    | _ => True
    end).
  { intros HP. specialize (N3 HP). destruct (counted_next _ _ _ _ _ _ _ HC E HP) as (Hc1 & HC').
    destruct Ht as [->|(_ & Hc0 & _)]; [|lia]. cbn [app] in Eb.
    assert (Es : skipn k b = 0 :: rest /\ firstn k b = concat lines). { rewrite Eb, <- Ek. split; [apply skipn_app_l|apply firstn_app_l]. } destruct Es as (Es1 & Es2).
    assert (Lt : length (0 :: rest) = (left + 22)%nat) by (rewrite Eb, app_length in Hlen; lia).
    rewrite Es1, Es2. pose proof (textify_lines nf m len host i' pos (0 :: rest) left HF Hh ltac:(lia) ltac:(lia) ltac:(lia) ltac:(lia)) as HT.
    destruct (textify nf m len host i' pos line_format (0 :: rest) left) as [[n b']| | |]; cbn [bind]; [|exact I|exact HT|exact I]. destruct HT as (L' & HT). cbv zeta.
    destruct (Z.leb_spec n 0) as [Hn|Hn].
    - set (more := txt "   And "%string ++ print_u count ++ txt " More ..."%string ++ [10; 0]).
      assert (Em : more = and_more (print_u count) ++ [0]). { unfold more, and_more. rewrite <- !app_assoc. reflexivity. }
      assert (Ld : (length (print_u count) <= 5)%nat) by (apply print_loop_short; [cbn; lia|lia]).
      assert (Lm : length more = (18 + length (print_u count))%nat) by (rewrite Em, app_length; unfold and_more; rewrite !app_length; cbn [length]; lia).
      rewrite bwrite_ok by (rewrite app_length; lia). 
      assert (Ew : firstn k (concat lines ++ b') ++ more ++ skipn (k + length more) (concat lines ++ b') = (concat lines ++ and_more (print_u count)) ++ 0 :: skipn (k + length more) (concat lines ++ b')).
      { rewrite <- Ek, firstn_app_l, Em, <- !app_assoc. reflexivity. }
      split; [rewrite !app_length, firstn_length, skipn_length, app_length; lia|]. rewrite Ew. eexists _, _. split; [reflexivity|]. split.
      + right. exists lines. split; [exact HL|]. right. exists count, (print_u count). split; [lia|]. split; [|reflexivity]. unfold print_u. apply print_loop_digits. cbn. lia.
      + rewrite in_app_iff. intros [X|X]; [exact (HN0 X)|]. unfold and_more in X. rewrite !in_app_iff in X. destruct X as [X|[X|X]]; [cbn in X; intuition discriminate| |cbn in X; intuition discriminate]. revert X. apply chars_no0, print_loop_chars; lia.
    - destruct HT as [HT|(lines' & rest' & HL' & Eb' & HS')]; [lia|].
      assert (HN0' : ~ In 0 (concat lines')). { intros X. apply in_concat in X. destruct X as (l & X1 & X2). rewrite Forall_forall in HL'. destruct (HL' l X1) as (T & v & -> & HT & Hv). exact (line_no0 T v HT Hv X2). }
      rewrite Eb', zlen_ok by exact HN0'. 
      pose proof (IH i' (concat lines ++ b') (k + length (concat lines'))%nat (left - length (concat lines'))%nat (count - 1) (lines ++ lines') [] rest') as HI.
      assert (Lb : length (concat lines ++ b') = length b) by (rewrite app_length; lia). rewrite Lb in HI. rewrite Eb' in HI. apply HI.
      + rewrite concat_app, <- app_assoc. reflexivity.
      + rewrite concat_app, app_length. lia.
      + apply Forall_app. auto.
      + lia.
      + lia.
      + now left.
      + exact HC'.
      + lia. }
  destruct (it_purpose i') eqn:EP; [exact HEnd|..]; try (apply HStep; congruence); exact HEnd.
Qed.
