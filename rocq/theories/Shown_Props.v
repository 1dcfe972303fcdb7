(** C92: the log shows what a response has. *)
From Coq Require Import String.
From Verif Require Import Base BaseFacts List2Facts Name_Model Name_Spec Name_Proofs Gen_Model Slist_Model Replace_Props Addr_Model Addr_Spec Addr_Proofs Addr3_Proofs Addr_Props Cht_Model Cache_Model Cache_Spec Parser_Model Parser_Spec Parser_Proofs Parser_Walk Compress_Proofs Iheader_Spec Iheader_Proofs Rdata_Model Rdata_Spec Rdata_Proofs Rdata2_Proofs Rdata3_Proofs Rdata_Props Shown_Spec.
Require Import ZifyBool ZifyNat.

(** * Lines *)
Lemma put_exact T v used b left : name_ok T -> ~ In 0 v -> Z.of_nat (length v) < 100000 -> (left <= length b)%nat -> (length (log_line T v) + 11 <= left)%nat ->
  exists rest, put_text line_format T (Ret (Some (v, used))) b left = Ret (Z.of_nat (length (log_line T v)), log_line T v ++ 0 :: rest, used) /\ length (log_line T v ++ 0 :: rest) = length b.
Proof.
  intros (H0 & H37 & HL) V3 V4 Hb Hs. assert (Lf : length (line_start T) = (8 + length T)%nat) by (unfold line_start; rewrite !app_length; cbn [length]; lia).
  destruct (put_text_ok line_format T (Ret (Some (v, used))) b left 1 (line_start T) ltac:(cbn; intuition discriminate) H0 (line_t T H37) Hb ltac:(lia)) as (_ & P2).
  assert (length line_format = 10%nat) by reflexivity. specialize (P2 ltac:(lia)). rewrite line_len in *.
  destruct (Nat.ltb_spec left (length (line_start T) + 1)); [lia|]. specialize (P2 V3 1%nat (log_line T v) (line_v T v H37)). rewrite line_len in P2. specialize (P2 ltac:(lia)).
  destruct (Nat.ltb_spec left (6 + length T + length v + 1)); [lia|]. exact P2.
Qed.
(** The fields of a record, as the model reads them. *)
Inductive fields nf m len host (data : nat) (dl : Z) : Z -> list (list Z * field) -> list (list Z * list Z) -> Prop :=
| f_nil left : fields nf m len host data dl left [] []
| f_cons left T f v used pp vs : 0 < left -> name_ok T -> field_text nf m len host f (Z.to_nat (Z.of_nat data + dl - left)) = Ret (Some (v, used)) -> ~ In 0 v -> Z.of_nat (length v) < 100000 ->
    fields nf m len host data dl (left - used) pp vs -> fields nf m len host data dl left ((T, f) :: pp) ((T, v) :: vs).
Definition vtext (vs : list (list Z * list Z)) : list Z := concat (map (fun p => log_line (fst p) (snd p)) vs).
Lemma parse_data_exact nf m len host data dl left pp vs : fields nf m len host data dl left pp vs -> forall pre tail size, pp <> [] -> (size <= length (pre ++ tail))%nat -> (length pre + length (vtext vs) + 11 <= size)%nat ->
  exists rest, parse_data nf m len host (Some line_format) pp data dl left (pre ++ tail) size (length pre) = Ret (Z.of_nat (length pre + length (vtext vs)), pre ++ vtext vs ++ 0 :: rest) /\
    length (pre ++ vtext vs ++ 0 :: rest) = length (pre ++ tail).
Proof.
  induction 1 as [left|left T f v used pp vs Hl HT Hf V0 VL H IH]; intros pre tail size Hpp Hs Hfit; [contradiction|]. clear Hpp.
  cbn [parse_data]. destruct (Z.leb_spec left 0); [lia|]. cbn [field_parse]. rewrite Hf.
  rewrite !skipn_app_l, !firstn_app_l.
  unfold vtext in Hfit. cbn [map concat fst snd] in Hfit. fold (vtext vs) in Hfit. rewrite app_length in Hfit. rewrite app_length in Hs.
  destruct (put_exact T v used tail (size - length pre) HT V0 VL ltac:(lia) ltac:(lia)) as (rest & -> & Lr). cbn [bind].
  destruct (Z.leb_spec (Z.of_nat (length (log_line T v))) 0); [rewrite line_len in *; lia|]. rewrite Nat2Z.id.
  destruct pp as [|p pp].
  - inversion H; subst. cbn [parse_data]. exists rest. unfold vtext. cbn [map concat fst snd]. rewrite app_nil_r. split; [reflexivity|]. rewrite !app_length in *. lia.
  - destruct (IH (pre ++ log_line T v) (0 :: rest) size ltac:(discriminate)) as (rest' & E & L').
    + rewrite !app_length in *. cbn [length] in *. lia.
    + rewrite app_length. lia.
    + rewrite app_length, <- app_assoc in E. rewrite E. exists rest'. unfold vtext. cbn [map concat fst snd]. fold (vtext vs). rewrite app_length, <- !app_assoc. split; [f_equal; f_equal; lia|].
      rewrite !app_length in *. cbn [length] in *. lia.
Qed.

(** * Numbers, addresses *)
Lemma print_num v : 0 <= v < 10 ^ 10 -> num v (print_u v).
Proof. intros H. destruct (Z.eq_dec v 0) as [->|N]; [left; split; reflexivity|]. right. unfold print_u. apply print_loop_digits. cbn in *. lia. Qed.
Lemma print_no0 v : 0 <= v -> ~ In 0 (print_u v) /\ Z.of_nat (length (print_u v)) < 100000.
Proof. intros H. split; [apply chars_no0, print_loop_chars; lia|]. pose proof (print_loop_len 10 10 v). unfold print_u. lia. Qed.
Lemma digits_fun ds1 : forall ds2, length ds1 = length ds2 -> Forall (fun c => 48 <= c <= 57) ds1 -> Forall (fun c => 48 <= c <= 57) ds2 ->
  fold_left (fun v c => 10 * v + (c - 48)) ds1 0 = fold_left (fun v c => 10 * v + (c - 48)) ds2 0 -> ds1 = ds2.
Proof.
  induction ds1 as [|c ds1 IH] using rev_ind; intros ds2 L F1 F2 E; [destruct ds2; [reflexivity|discriminate]|].
  destruct ds2 as [|d ds2 _] using rev_ind; [rewrite app_length in L; cbn in L; lia|]. rewrite !app_length in L. cbn [length] in L. apply Forall_app in F1. apply Forall_app in F2. destruct F1 as (F1 & F1'), F2 as (F2 & F2'). apply Forall_inv in F1'. apply Forall_inv in F2'.
  rewrite !fold_left_app in E. cbn [fold_left] in E. assert (c = d) as -> by lia. f_equal. apply IH; [lia|assumption|assumption|lia].
Qed.
Lemma digits_bound ds : Forall (fun c => 48 <= c <= 57) ds -> 0 <= fold_left (fun v c => 10 * v + (c - 48)) ds 0 < 10 ^ Z.of_nat (length ds).
Proof.
  induction ds as [|c ds IH] using rev_ind; intros F; [cbn; lia|]. apply Forall_app in F. destruct F as (F & F'). apply Forall_inv in F'. specialize (IH F). rewrite fold_left_app, app_length. cbn [fold_left length].
  replace (Z.of_nat (length ds + 1)) with (Z.succ (Z.of_nat (length ds))) by lia. rewrite Z.pow_succ_r by lia. lia.
Qed.
Lemma digits_low ds : ds <> [] -> hd 0 ds <> 48 -> Forall (fun c => 48 <= c <= 57) ds -> 10 ^ (Z.of_nat (length ds) - 1) <= fold_left (fun v c => 10 * v + (c - 48)) ds 0.
Proof.
  induction ds as [|c ds IH] using rev_ind; intros N H F; [contradiction|]. apply Forall_app in F. destruct F as (F & F'). apply Forall_inv in F'. rewrite fold_left_app, app_length. cbn [fold_left length].
  destruct ds as [|x ds]; [cbn in *; lia|]. specialize (IH ltac:(discriminate) ltac:(exact H) F). replace (Z.of_nat (length (x :: ds) + 1) - 1) with (Z.succ (Z.of_nat (length (x :: ds)) - 1)) by lia. rewrite Z.pow_succ_r by (cbn [length]; lia). lia.
Qed.
(** A number is written in one way. *)
Lemma num_unique v t1 t2 : num v t1 -> num v t2 -> t1 = t2.
Proof.
  assert (P : forall t, digits v t -> 0 < v). { intros t (E & F & N & H). pose proof (digits_low t N H F) as B. rewrite E in B. assert (0 < 10 ^ (Z.of_nat (length t) - 1)); [|lia]. apply Z.pow_pos_nonneg; [lia|]. destruct t; [contradiction|cbn [length]; lia]. }
  intros [(-> & ->)|H1] [(E2 & ->)|H2]; [reflexivity|apply P in H2; lia|apply P in H1; lia|].
  destruct H1 as (E1 & F1 & N1 & D1), H2 as (E2 & F2 & N2 & D2). pose proof (digits_bound t1 F1) as B1. pose proof (digits_bound t2 F2) as B2. pose proof (digits_low t1 N1 D1 F1) as L1. pose proof (digits_low t2 N2 D2 F2) as L2. rewrite E1 in *. rewrite E2 in *.
  apply digits_fun; [|assumption|assumption|congruence].
  assert (A1 : Z.of_nat (length t1) - 1 < Z.of_nat (length t2)) by (apply (Z.pow_lt_mono_r_iff 10); lia). assert (A2 : Z.of_nat (length t2) - 1 < Z.of_nat (length t1)) by (apply (Z.pow_lt_mono_r_iff 10); lia). lia.
Qed.
Lemma num_print v t : 0 <= v < 10 ^ 10 -> num v t -> t = print_u v.
Proof. intros H N. apply (num_unique v); [exact N|now apply print_num]. Qed.

(** * What a record is called *)
Lemma type_list_labels : type_list = map (fun p => (fst p, str (snd p))) labels.
Proof. vm_compute. reflexivity. Qed.
Lemma find_label (l : list (Z * string)) ty : NoDup (map fst l) ->
  (forall s, In (ty, s) l -> option_map snd (find (fun p => fst p =? ty) (map (fun p => (fst p, str (snd p))) l)) = Some (str s)) /\
  ((forall s, ~ In (ty, s) l) -> option_map snd (find (fun p => fst p =? ty) (map (fun p => (fst p, str (snd p))) l)) = None).
Proof.
  induction l as [|[k s] l IH]; intros N; cbn [map find fst snd]; [split; [intros s []|reflexivity]|]. apply NoDup_cons_iff in N. destruct N as (N1 & N2). destruct (IH N2) as (I1 & I2). cbn [fst] in N1. split.
  - intros s' [E|H]; [assert (k = ty) as -> by congruence; assert (s = s') as -> by congruence; rewrite Z.eqb_refl; reflexivity|].
    destruct (Z.eqb_spec k ty) as [->|]; [exfalso; apply N1; apply in_map_iff; exists (ty, s'); auto|]. now apply I1.
  - intros H. destruct (Z.eqb_spec k ty) as [->|]; [exfalso; apply (H s); now left|]. apply I2. intros s' X. apply (H s'). now right.
Qed.
Lemma labels_nodup : NoDup (map fst labels).
Proof.
  assert (H : forall l : list Z, (fix nd l := match l with [] => true | x :: r => negb (existsb (Z.eqb x) r) && nd r end) l = true -> NoDup l).
  { induction l as [|x r IH]; intros H; constructor; apply andb_true_iff in H; destruct H as (H1 & H2); [|now apply IH].
    intros X. apply negb_true_iff in H1. rewrite <- not_true_iff_false in H1. apply H1. apply existsb_exists. exists x. split; [exact X|apply Z.eqb_refl]. }
  apply H. vm_compute. reflexivity.
Qed.
(** What parse_raw and the names of types give. *)
Lemma label_raw ty l : 0 <= ty < 10 ^ 10 -> label ty l -> match type_name ty with Some t => t | None => txt "UNKNOWN ("%string ++ print_u ty ++ txt ")"%string end = l.
Proof.
  intros Ht H. unfold type_name. rewrite type_list_labels. destruct (find_label labels ty labels_nodup) as (F1 & F2). destruct H as [s H|t H N]; [rewrite (F1 s H); reflexivity|].
  rewrite (F2 H). rewrite (num_print ty t Ht N). reflexivity.
Qed.
Lemma label_text ty l : In ty [5; 12; 2] -> label ty l -> type_text ty = l.
Proof.
  intros Hi H. pose proof (label_raw ty l ltac:(cbn in *; lia) H) as E. unfold type_text. revert E. destruct (type_name ty) eqn:En; [auto|]. exfalso. cbn in Hi. destruct Hi as [<-|[<-|[<-|[]]]]; vm_compute in En; discriminate.
Qed.
Lemma raw_ok ty l : 0 <= ty -> match type_name ty with Some t => t | None => txt "UNKNOWN ("%string ++ print_u ty ++ txt ")"%string end = l -> name_ok l.
Proof.
  intros Hty <-. destruct (type_name ty) as [t|] eqn:E; [exact (type_name_ok _ _ E)|]. pose proof (print_loop_chars 10 10 ltac:(lia) ty Hty) as HC. pose proof (print_loop_len 10 10 ty) as HL. fold (print_u ty) in *.
  split; [rewrite !in_app_iff; intros [X|[X|X]]; [cbn in X; intuition discriminate|exact (chars_no0 _ HC X)|cbn in X; intuition discriminate]|].
  split; [rewrite !in_app_iff; intros [X|[X|X]]; [cbn in X; intuition discriminate|exact (chars_no37 _ HC X)|cbn in X; intuition discriminate]|]. rewrite !app_length. cbn [txt length map list_ascii_of_string]. lia.
Qed.
(** A record of another type. *)
Lemma raw_exact ty dl b left l v : 0 <= ty -> match type_name ty with Some t => t | None => txt "UNKNOWN ("%string ++ print_u ty ++ txt ")"%string end = l ->
  (if ty =? 41 then txt "Pseudo-RR"%string else print_u dl ++ txt " bytes"%string) = v -> 0 <= dl -> (left <= length b)%nat -> (length (log_line l v) + 11 <= left)%nat ->
  exists rest, parse_raw line_format ty dl b left = Ret (Z.of_nat (length (log_line l v)), log_line l v ++ 0 :: rest) /\ length (log_line l v ++ 0 :: rest) = length b.
Proof.
  intros Hty El Ev Hdl Hb Hfit. pose proof (raw_ok ty l Hty El) as (T1 & T2 & T3). unfold parse_raw. rewrite El, Ev.
  assert (V1 : ~ In 0 v). { rewrite <- Ev. destruct (ty =? 41); [cbn; intuition discriminate|]. rewrite in_app_iff. intros [X|X]; [revert X; apply print_no0; lia|cbn in X; intuition discriminate]. }
  assert (V2 : (length v <= 100)%nat). { rewrite <- Ev. destruct (ty =? 41); [cbn; lia|]. rewrite app_length. pose proof (print_loop_len 10 10 dl). unfold print_u. cbn [txt length map list_ascii_of_string]. lia. }
  assert (Lf : length (line_start l) = (8 + length l)%nat) by (unfold line_start; rewrite !app_length; cbn [length]; lia). rewrite line_len in *.
  assert (L10 : length line_format = 10%nat) by reflexivity.
  rewrite bwrite_at0 by (rewrite app_length; cbn [length]; lia). cbn [bind]. set (r0 := skipn (length (line_format ++ [0])) b). rewrite <- app_assoc. cbn [app].
  assert (L0 : length (line_format ++ 0 :: r0) = length b) by (rewrite app_length; unfold r0; cbn [length]; rewrite skipn_length, app_length; cbn [length]; lia).
  pose proof (replace_checked_ok [37; 116] l 1 line_format (line_start l) r0 left (S (length b)) ltac:(discriminate) ltac:(cbn; intuition discriminate) T1 (line_t l T2) ltac:(lia) ltac:(lia) ltac:(lia)) as HR1.
  destruct (Nat.leb_spec (length (line_start l) + 1) left); [|lia]. destruct HR1 as (r1 & -> & L1). cbn [bind].
  pose proof (replace_checked_ok [37; 118] v 1 (line_start l) (log_line l v) r1 left (S (length b)) ltac:(discriminate) ltac:(unfold line_start; rewrite !in_app_iff; cbn; intuition discriminate) V1 (line_v l v T2) ltac:(lia) ltac:(rewrite line_len; lia) ltac:(rewrite app_length in L1; cbn [length] in *; lia)) as HR2.
  rewrite line_len in HR2. destruct (Nat.leb_spec (6 + length l + length v + 1) left); [|lia]. destruct HR2 as (r2 & -> & L2). cbn [bind]. rewrite zlen_ok by (apply line_no0; assumption). rewrite line_len. exists r2. split; [reflexivity|lia].
Qed.
(** The strings of a TXT record. *)
Lemma rr_strings m ss : forall fuel pos stop left pre post, Forall (fun s => (length s < 256)%nat) ss -> m = pre ++ flat_map (fun s => Z.of_nat (length s) :: s) ss ++ post -> pos = length pre ->
  stop = (pos + length (flat_map (fun s => Z.of_nat (length s) :: s) ss))%nat -> (length (flat_map (fun s => Z.of_nat (length s) :: s) ss) <= left)%nat -> (length ss < fuel)%nat ->
  rr_string m fuel pos stop left = Ret (Some (concat ss)).
Proof.
  induction ss as [|s ss IH]; intros fuel pos stop left pre post HS Em Ep Es Hl Hf; (destruct fuel as [|fuel]; [cbn in Hf; lia|]); cbn [rr_string].
  - cbn [flat_map length] in Es. destruct (Nat.ltb_spec pos stop); [lia|]. reflexivity.
  - cbn [flat_map app] in *. cbn [length] in Es, Hl, Hf. rewrite app_length in Es, Hl. apply Forall_cons_iff in HS. destruct HS as (H1 & HS).
    assert (E1 : nth_error m pos = Some (Z.of_nat (length s))) by (rewrite Em, Ep, nth_error_app2, Nat.sub_diag by lia; reflexivity).
    assert (E2 : slice m (S pos) (length s) = Some s).
    { apply (slice_at (pre ++ [Z.of_nat (length s)]) s (flat_map (fun s => Z.of_nat (length s) :: s) ss ++ post)); [rewrite Em, <- !app_assoc; reflexivity|rewrite app_length; cbn [length]; lia|reflexivity]. }
    destruct (Nat.ltb_spec pos stop); [|lia]. unfold rd8. rewrite E1. cbn [bind]. rewrite Nat2Z.id. destruct (Nat.leb_spec left (length s)); [lia|]. unfold rdn. rewrite E2. cbn [bind].
    rewrite (IH fuel (pos + (1 + length s))%nat stop (left - length s)%nat (pre ++ Z.of_nat (length s) :: s) post HS); [reflexivity| | | |lia|lia].
    + rewrite Em, <- !app_assoc. reflexivity.
    + rewrite app_length. cbn [length]. lia.
    + lia.
Qed.
Lemma num_ok v t : 0 <= v < 10 ^ 10 -> num v t -> t = print_u v /\ ~ In 0 t /\ Z.of_nat (length t) < 100000.
Proof. intros H N. pose proof (num_print v t H N) as ->. split; [reflexivity|]. apply print_no0. lia. Qed.

Lemma denotes_pos g o w t : name_wide g o w t -> (1 <= w)%nat.
Proof. intros (ls & HD & _). destruct HD; lia. Qed.
Lemma In_firstn {A} n (l : list A) x : In x (firstn n l) -> In x l.
Proof. intros H. rewrite <- (firstn_skipn n l). apply in_or_app. now left. Qed.
Lemma In_skipn {A} n (l : list A) x : In x (skipn n l) -> In x l.
Proof. intros H. rewrite <- (firstn_skipn n l). apply in_or_app. now right. Qed.
Lemma vtext_no0 vs : Forall (fun p => ~ In 0 (fst p) /\ ~ In 0 (snd p)) vs -> ~ In 0 (vtext vs).
Proof.
  unfold vtext. induction 1 as [|[T v] vs (H1 & H2) _ IH]; [intros []|]. cbn [map concat fst snd] in *. intros X. apply in_app_or in X. destruct X as [X|X]; [|exact (IH X)]. unfold log_line in X.
  rewrite !in_app_iff in X. cbn [In] in X. intuition discriminate.
Qed.
Lemma num_no0 v t : num v t -> ~ In 0 t.
Proof. intros [(_ & ->)|(_ & HF & _)]; [intros [X|[]]; discriminate|]. intros X. rewrite Forall_forall in HF. specialize (HF _ X). lia. Qed.
Lemma label_no0 ty l : label ty l -> ~ In 0 l.
Proof.
  intros [s H|t _ H].
  - assert (HF : forallb (fun x => forallb (fun c => negb (c =? 0)) (str (snd x))) labels = true) by reflexivity. rewrite forallb_forall in HF. specialize (HF _ H). cbn [snd] in HF. rewrite forallb_forall in HF. intros X. specialize (HF _ X). discriminate.
  - apply num_no0 in H. rewrite !in_app_iff. cbn. intuition discriminate.
Qed.
Lemma wide_no0 g o w t : name_wide g o w t -> ~ In 0 t.
Proof. intros (ls & _ & _ & H & _). exact H. Qed.
Lemma shown_no0 g o r vs : shown g o r vs -> r_type r <> 28 -> ~ In 0 (vtext vs).
Proof.
  intros H N. apply vtext_no0.
  destruct H as [t Et HQ|t Et HQ|w l t Et Hl HN|ss t Et HF Ed HB|a b d n w t Et Ed Hne Hn HN|w1 t1 w2 t2 d n1 n2 n3 n4 n5 Et HN1 HN2 Ld Ed Hn1 Hn2 Hn3 Hn4 Hn5|l Et Hl|l n Hno Hl Hn];
    repeat match goal with H : num _ _ |- _ => apply num_no0 in H | H : label _ _ |- _ => apply label_no0 in H | H : name_wide _ _ _ _ |- _ => apply wide_no0 in H | H : before_nul _ _ |- _ => destruct H as (H & _) end;
    try contradiction; repeat constructor; cbn [fst snd]; try assumption; try (cbn; intuition discriminate).
  - destruct HQ as (a1 & a2 & a3 & a4 & t1 & t2 & t3 & t4 & _ & N1 & N2 & N3 & N4 & ->). apply num_no0 in N1, N2, N3, N4. rewrite in_app_iff. cbn [In]. rewrite in_app_iff. cbn [In]. rewrite in_app_iff. cbn [In]. intuition discriminate.
  - rewrite in_app_iff. cbn. intuition discriminate.
Qed.
Lemma groups6_no0 a : Forall is_byte a -> ~ In 0 (vtext [(str "IPv6 Address", v6_to_asc a)]).
Proof.
  intros Gb. apply vtext_no0. repeat constructor; cbn [fst snd]; [cbn; intuition discriminate|]. unfold v6_to_asc. cbv zeta. destruct (asc_chars 9 a (z_best (find_run a)) (n_best (find_run a)) Gb 0 ltac:(lia)) as (C1 & _). apply chars_no0, C1.
Qed.

Section Record.
Context (g : message) (post host : list Z) (Hhost : length host = 254%nat).
Let m := enc_msg g ++ post.
Let len := length (enc_msg g).
Lemma wide_field o w t : name_wide g o w t -> exists f0, forall nf, (f0 <= nf)%nat -> field_text nf m len host FName o = Ret (Some (t, Z.of_nat w)).
Proof.
  intros (ls & HD & HL & Ht). destruct (get_host_name_complete 63 _ _ _ _ ltac:(lia) HD) as (f0 & HC). exists f0. intros nf Hf. unfold field_text.
  assert (E : get_host_name nf len m o host = Ret (Some w, Some (Name_Spec.dotted ls ++ 0 :: skipn (text_space ls) host))).
  { unfold get_host_name. apply name_loop_app. apply (HC nf host Hf). unfold text_space. lia. }
  rewrite E. cbn [bind]. rewrite (cstr_before _ _ t Ht). reflexivity.
Qed.
Lemma wide_len o w t : name_wide g o w t -> ~ In 0 t /\ Z.of_nat (length t) < 100000.
Proof. intros (ls & HD & HL & Ht). destruct (name_text_len g o t) as (L & N); [exists ls, w; auto|]. split; [exact N|lia]. Qed.
Definition done (b : list Z) (left : nat) (vs : list (list Z * list Z)) (x : outcome (Z * list Z)) : Prop :=
  exists n rest, x = Ret (n, vtext vs ++ 0 :: rest) /\ 0 < n /\ length (vtext vs ++ 0 :: rest) = length b.
Lemma done_one nf f pos T v used b left : name_ok T -> field_text nf m len host f pos = Ret (Some (v, used)) -> ~ In 0 v -> Z.of_nat (length v) < 100000 -> (left <= length b)%nat ->
  (length (vtext [(T, v)]) + 11 <= left)%nat -> done b left [(T, v)] (parse_one nf m len host (Some line_format) T f pos b left).
Proof.
  intros HT E V0 VL Hb Hf. unfold vtext in Hf. cbn [map concat fst snd] in Hf. rewrite app_nil_r in Hf. unfold parse_one. cbn [field_parse]. rewrite E. destruct (put_exact T v used b left HT V0 VL Hb Hf) as (rest & -> & L). cbn [bind].
  eexists _, rest. unfold vtext. cbn [map concat fst snd]. rewrite app_nil_r. split; [reflexivity|]. split; [rewrite line_len; lia|exact L].
Qed.
Lemma be4_from32 l : length l = 4%nat -> from32 l = be4 l.
Proof. intros L. destruct l as [|a [|b [|c [|d [|]]]]]; try discriminate L. unfold from32, be4. cbn [fold_left]. lia. Qed.
Lemma be4_range l : length l = 4%nat -> Forall is_byte l -> 0 <= be4 l < 10 ^ 10.
Proof. intros L F. destruct l as [|a [|b [|c [|d [|]]]]]; try discriminate L. unfold be4. cbn [fold_left]. unfold is_byte in F. repeat match goal with H : Forall _ (_ :: _) |- _ => apply Forall_cons_iff in H; destruct H end. lia. Qed.

Lemma textify_shown i pre p r xs vs : at_item m (Z.of_nat len) i pre (IR p r) xs post -> listed r -> shown g (length pre) r vs ->
  exists f0 vs', shown g (length pre) r vs' /\ ~ In 0 (vtext vs') /\ forall nf b left, (f0 <= nf)%nat -> (left <= length b)%nat -> (length (vtext vs') + 11 <= left)%nat ->
    done b left vs' (textify nf m len host i (length pre) line_format b left).
Proof.
  intros HA HLi HS. pose proof HA as [Hg HG Hm Hd Hp Hr Hpu Hdl Hv Hsec]. specialize (Hdl p r eq_refl).
  assert (Em : m = pre ++ enc_rr r ++ (concat (map enc_item xs) ++ post)) by (rewrite Hm; cbn [map concat enc_item]; rewrite <- !app_assoc; reflexivity).
  destruct (item_fields m pre (IR p r) _ Hg Em) as (_ & _ & _ & _ & _ & _ & _ & FD). destruct Hv as (Hv1 & Hv2). cbn [view_item v_type v_class] in *.
  cbn [good_item] in Hg. destruct Hg as ((_ & Gt & _ & _ & Gl & Gb) & _).
  set (x := enc_name (r_name r) ++ be16 (r_type r) ++ be16 (r_class r) ++ be32 (r_ttl r) ++ be16 (Z.of_nat (length (r_data r)))).
  assert (Ex : enc_rr r = x ++ r_data r) by (unfold enc_rr, x; rewrite <- !app_assoc; reflexivity).
  set (data := (length pre + length (enc_rr r) - length (r_data r))%nat) in *.
  assert (Edata : data = length (pre ++ x)) by (unfold data; rewrite Ex, !app_length; lia).
  assert (Em2 : m = (pre ++ x) ++ r_data r ++ (concat (map enc_item xs) ++ post)) by (rewrite Em, Ex, <- !app_assoc; reflexivity).
  assert (Hsl : forall k n, (k + n <= length (r_data r))%nat -> slice m (data + k) n = Some (firstn n (skipn k (r_data r)))).
  { intros k n L. apply (slice_at ((pre ++ x) ++ firstn k (r_data r)) (firstn n (skipn k (r_data r))) (skipn n (skipn k (r_data r)) ++ concat (map enc_item xs) ++ post)).
    - rewrite Em2, <- !app_assoc. do 2 f_equal. rewrite !app_assoc. do 2 f_equal. rewrite <- app_assoc, firstn_skipn, firstn_skipn. reflexivity.
    - rewrite app_length, firstn_length, Edata. lia.
    - rewrite firstn_length, skipn_length. lia. }
  unfold textify. rewrite FD. cbn [bind]. rewrite Hv1, Hv2, Hdl.
  assert (EL : negb (r_type r =? 41) && negb (r_class r =? 1) = false) by (destruct HLi as [-> | ->]; [reflexivity|apply andb_false_r]). rewrite EL. clear EL.
  change (data_at (length pre) r) with data in *.
  destruct HS as [t Et HQ|t Et HQ|w l t Et Hl HN|ss t Et HF Ed HB|a b d n w t Et Ed Hne Hn HN|w1 t1 w2 t2 d n1 n2 n3 n4 n5 Et HN1 HN2 Ld Ed Hn1 Hn2 Hn3 Hn4 Hn5|l Et Hl|l n Hno Hl Hn].
  - destruct HQ as (a1 & a2 & a3 & a4 & t1 & t2 & t3 & t4 & Ed & N1 & N2 & N3 & N4 & Ett). assert (HSh : shown g (length pre) r [(str "IPv4 Address", t)]) by (apply sh_a; [exact Et|unfold quad; eauto 15]). exists 0%nat, [(str "IPv4 Address", t)]. split; [exact HSh|]. split; [apply (shown_no0 _ _ _ _ HSh); lia|]. intros nf b left _ Hb Hfit.
    rewrite Et. cbn [Z.eqb Pos.eqb]. rewrite Ed in Gb. unfold is_byte in Gb. repeat match goal with H : Forall _ (_ :: _) |- _ => apply Forall_cons_iff in H; destruct H end.
    destruct (num_ok a1 t1 ltac:(lia) N1) as (P1 & Q1 & _). destruct (num_ok a2 t2 ltac:(lia) N2) as (P2 & Q2 & _). destruct (num_ok a3 t3 ltac:(lia) N3) as (P3 & Q3 & _). destruct (num_ok a4 t4 ltac:(lia) N4) as (P4 & Q4 & _).
    apply (done_one nf F4 data (str "IPv4 Address") t 4 b left); [apply const_ok; reflexivity| | | |exact Hb|exact Hfit].
    + cbn [field_text]. unfold rdn. specialize (Hsl 0%nat 4%nat). rewrite Nat.add_0_r, Ed in Hsl. rewrite Hsl by (cbn [length]; lia). cbn [bind skipn firstn]. unfold v4_to_asc. cbn [nth]. rewrite <- P1, <- P2, <- P3, <- P4, <- Ett. reflexivity.
    + rewrite Ett. rewrite in_app_iff. cbn [In]. rewrite in_app_iff. cbn [In]. rewrite in_app_iff. cbn [In]. intuition discriminate.
    + rewrite Ett, P1, P2, P3, P4. unfold print_u. rewrite app_length. cbn [length]. rewrite app_length. cbn [length]. rewrite app_length. cbn [length]. pose proof (print_loop_len 10 10 a1). pose proof (print_loop_len 10 10 a2). pose proof (print_loop_len 10 10 a3). pose proof (print_loop_len 10 10 a4). lia.
  - destruct HQ as (gs & Ed & Lg & HR & _). assert (L16 : length (r_data r) = 16%nat). { rewrite Ed. clear - Lg. destruct gs as [|? [|? [|? [|? [|? [|? [|? [|? [|]]]]]]]]]; try discriminate. reflexivity. }
    destruct (v6_to_asc_ok gs Lg HR) as (A1 & A2 & A3). rewrite <- Ed in A1, A2, A3. exists 0%nat, [(str "IPv6 Address", v6_to_asc (r_data r))].
    split. { apply sh_aaaa; [exact Et|]. exists gs. split; [exact Ed|]. split; [exact Lg|]. split; [exact HR|]. split; [exact A1|]. destruct (list_eq_dec Z.eq_dec gs (repeat 0 8)) as [E|N]; [right; split; [exact E|exact (A2 E)]|left; exact (A3 N)]. }
    split; [exact (groups6_no0 _ Gb)|]. intros nf b left _ Hb Hfit. rewrite Et. cbn [Z.eqb Pos.eqb]. apply (done_one nf F6 data (str "IPv6 Address") _ 0 b left); [apply const_ok; reflexivity| | |lia|exact Hb|exact Hfit].
    + cbn [field_text]. unfold rdn. specialize (Hsl 0%nat 16%nat). rewrite Nat.add_0_r in Hsl. rewrite Hsl by lia. cbn [bind skipn]. rewrite firstn_all2 by lia. reflexivity.
    + unfold v6_to_asc. cbv zeta. destruct (asc_chars 9 (r_data r) (z_best (find_run (r_data r))) (n_best (find_run (r_data r))) Gb 0 ltac:(lia)) as (C1 & _). apply chars_no0, C1.
  - destruct (wide_field data w t HN) as (f0 & HW). destruct (wide_len data w t HN) as (W1 & W2). pose proof (sh_name g (length pre) r w l t Et Hl HN) as HSh. exists f0, [(l, t)]. split; [exact HSh|]. split; [apply (shown_no0 _ _ _ _ HSh); cbn in *; lia|]. intros nf b left Hf Hb Hfit.
    pose proof (label_text _ _ Et Hl) as E. assert (HT : name_ok l) by (rewrite <- E; apply type_text_ok).
    assert (EC : (r_type r =? 1) = false /\ (r_type r =? 28) = false /\ (r_type r =? 5) || (r_type r =? 12) || (r_type r =? 2) = true) by (cbn in Et; lia). destruct EC as (-> & -> & ->). rewrite E.
    apply (done_one nf FName data l t (Z.of_nat w) b left); auto.
  - pose proof (sh_txt g (length pre) r ss t Et HF Ed HB) as HSh. exists 0%nat, [(str "TXT", t)]. split; [exact HSh|]. split; [apply (shown_no0 _ _ _ _ HSh); cbn in *; lia|]. intros nf b left _ Hb Hfit. rewrite Et. cbn [Z.eqb Pos.eqb orb]. unfold parse_txt.
    assert (HFit' := Hfit). unfold vtext in HFit'. cbn [map concat fst snd] in HFit'. rewrite app_nil_r in HFit'.
    assert (L10 : length line_format = 10%nat) by reflexivity. destruct (Nat.ltb_spec left (length line_format + 1)); [rewrite line_len in HFit'; lia|]. rewrite !Nat2Z.id.
    rewrite (rr_strings m ss (S (length (r_data r))) data (data + length (r_data r)) (length (r_data r)) (pre ++ x) (concat (map enc_item xs) ++ post) HF); [|rewrite <- Ed; exact Em2|exact Edata|rewrite Ed; reflexivity|rewrite Ed; lia|].
    2: { rewrite Ed. clear. induction ss as [|s ss IH]; cbn [flat_map length app]; [lia|]. rewrite app_length. lia. }
    cbn [bind option_map]. rewrite (cstr_before (concat ss) [] t HB).
    assert (HV : ~ In 0 t /\ Z.of_nat (length t) < 100000).
    { destruct HB as (N & HB). split; [exact N|]. assert (LC : (length t <= length (concat ss))%nat) by (destruct HB as [->|(q & ->)]; [lia|rewrite app_length; lia]).
      assert (LD : (length (concat ss) <= length (r_data r))%nat). { rewrite Ed. clear. induction ss as [|s ss IH]; cbn [flat_map length app concat]; [lia|]. rewrite !app_length. lia. } lia. }
    destruct HV as (V1 & V2). destruct (put_exact (str "TXT") t 0 b left ltac:(apply const_ok; reflexivity) V1 V2 Hb HFit') as (rest & E & L). change (txt "TXT") with (str "TXT"). rewrite E. cbn [bind].
    eexists _, rest. unfold vtext. cbn [map concat fst snd]. rewrite app_nil_r. split; [reflexivity|]. split; [|exact L]. rewrite line_len. destruct (_ <? 0) eqn:EE; lia.
  - destruct (wide_field (data + 2) w t HN) as (f0 & HW). destruct (wide_len _ w t HN) as (W1 & W2). pose proof (sh_mx g (length pre) r a b d n w t Et Ed Hne Hn HN) as HSh. exists f0, [(str "preference", n); (str "mail exchanger", t)]. split; [exact HSh|]. split; [apply (shown_no0 _ _ _ _ HSh); cbn in *; lia|].
    intros nf bf left Hf Hb Hfit. rewrite Et. cbn [Z.eqb Pos.eqb orb].
    rewrite Ed in Gb. pose proof (Forall_inv Gb) as Ga. pose proof (Forall_inv (Forall_inv_tail Gb)) as Gb'. unfold is_byte in Ga, Gb'. destruct (num_ok (256 * a + b) n ltac:(lia) Hn) as (P1 & Q1 & R1).
    assert (Ldd : (1 <= length d)%nat) by (destruct d; [contradiction|cbn [length]; lia]). assert (Lr : length (r_data r) = (2 + length d)%nat) by (rewrite Ed; reflexivity).
    assert (HF : fields nf m len host data (Z.of_nat (length (r_data r))) (Z.of_nat (length (r_data r))) mx_fields [(str "preference", n); (str "mail exchanger", t)]).
    { change mx_fields with [(str "preference", F16); (str "mail exchanger", FName)].
      apply (f_cons _ _ _ _ _ _ _ (str "preference") F16 n 2); [lia|apply const_ok; reflexivity| |exact Q1|exact R1|].
      - cbn [field_text]. replace (Z.to_nat _) with (data + 0)%nat by lia. unfold rd16, get16. rewrite Hsl by lia. rewrite Ed. cbn [skipn firstn option_map bind from16]. rewrite P1. do 4 f_equal. lia.
      - apply (f_cons _ _ _ _ _ _ _ (str "mail exchanger") FName t (Z.of_nat w)); [lia|apply const_ok; reflexivity| |exact W1|exact W2|apply f_nil]. replace (Z.to_nat _) with (data + 2)%nat by lia. apply HW, Hf. }
    destruct (parse_data_exact nf m len host data _ _ _ _ HF [] bf left ltac:(discriminate) Hb Hfit) as (rest & E & L). cbn [app length Nat.add] in E, L. rewrite E. eexists _, rest. split; [reflexivity|]. split; [|exact L]. unfold vtext. cbn [map concat fst snd]. rewrite app_length, line_len. lia.
  - destruct (wide_field data w1 t1 HN1) as (f1 & HW1). destruct (wide_len _ w1 t1 HN1) as (A1 & A2). destruct (wide_field (data + w1) w2 t2 HN2) as (f2 & HW2). destruct (wide_len _ w2 t2 HN2) as (B1 & B2). destruct Ed as (nn & Ed & Lnn).
    pose proof (sh_soa g (length pre) r w1 t1 w2 t2 d n1 n2 n3 n4 n5 Et HN1 HN2 Ld (ex_intro _ nn (conj Ed Lnn)) Hn1 Hn2 Hn3 Hn4 Hn5) as HSh. eexists (Nat.max f1 f2), _. split; [exact HSh|]. split; [apply (shown_no0 _ _ _ _ HSh); cbn in *; lia|].
    intros nf bf left Hf Hb Hfit. rewrite Et. cbn [Z.eqb Pos.eqb orb]. assert (Lr : length (r_data r) = (w1 + w2 + 20)%nat) by (rewrite Ed, app_length; lia).
    assert (Gd : Forall is_byte d) by (rewrite Ed in Gb; apply Forall_app in Gb; apply Gb).
    assert (S32 : forall k, (k + 4 <= 20)%nat -> rd32 m (data + (w1 + w2 + k)) = Ret (be4 (firstn 4 (skipn k d)))).
    { intros k Lk. unfold rd32, get32. rewrite Hsl by lia. cbn [option_map]. rewrite Ed, skipn_app, (skipn_all2 nn) by lia. cbn [app]. rewrite Lnn. replace (w1 + w2 + k - (w1 + w2))%nat with k by lia. rewrite be4_from32; [reflexivity|]. rewrite firstn_length, skipn_length. lia. }
    assert (R32 : forall k, (k + 4 <= 20)%nat -> 0 <= be4 (firstn 4 (skipn k d)) < 10 ^ 10).
    { intros k Lk. apply be4_range; [rewrite firstn_length, skipn_length; lia|]. rewrite Forall_forall in *. intros c Hc. apply Gd. apply (In_skipn k). revert Hc. apply In_firstn. }
    change (firstn 4 d) with (firstn 4 (skipn 0 d)) in *. replace (skipn 16 d) with (firstn 4 (skipn 16 d)) in * by (apply firstn_all2; rewrite skipn_length; lia).
    destruct (num_ok _ n1 (R32 0%nat ltac:(lia)) Hn1) as (P1 & Q1 & U1). destruct (num_ok _ n2 (R32 4%nat ltac:(lia)) Hn2) as (P2 & Q2 & U2). destruct (num_ok _ n3 (R32 8%nat ltac:(lia)) Hn3) as (P3 & Q3 & U3).
    destruct (num_ok _ n4 (R32 12%nat ltac:(lia)) Hn4) as (P4 & Q4 & U4). destruct (num_ok _ n5 (R32 16%nat ltac:(lia)) Hn5) as (P5 & Q5 & U5).
    match goal with |- done _ _ ?V _ => assert (HF : fields nf m len host data (Z.of_nat (length (r_data r))) (Z.of_nat (length (r_data r))) soa_fields V) end.
    { change soa_fields with [(str "(SOA)primary name server", FName); (str "(SOA)responsible mail addr", FName); (str "(SOA)serial", F32); (str "(SOA)refresh", F32); (str "(SOA)retry", F32); (str "(SOA)expire", F32); (str "(SOA)default TTL", F32)].
      pose proof (denotes_pos _ _ _ _ HN1) as W1. pose proof (denotes_pos _ _ _ _ HN2) as W2.
      apply (f_cons _ _ _ _ _ _ _ _ FName t1 (Z.of_nat w1)); [lia|apply const_ok; reflexivity| |exact A1|exact A2|]. { replace (Z.to_nat _) with data by lia. apply HW1. lia. }
      apply (f_cons _ _ _ _ _ _ _ _ FName t2 (Z.of_nat w2)); [lia|apply const_ok; reflexivity| |exact B1|exact B2|]. { replace (Z.to_nat _) with (data + w1)%nat by lia. apply HW2. lia. }
      apply (f_cons _ _ _ _ _ _ _ _ F32 n1 4); [lia|apply const_ok; reflexivity| |exact Q1|exact U1|]. { cbn [field_text]. replace (Z.to_nat _) with (data + (w1 + w2 + 0))%nat by lia. rewrite S32 by lia. cbn [bind]. rewrite <- P1. reflexivity. }
      apply (f_cons _ _ _ _ _ _ _ _ F32 n2 4); [lia|apply const_ok; reflexivity| |exact Q2|exact U2|]. { cbn [field_text]. replace (Z.to_nat _) with (data + (w1 + w2 + 4))%nat by lia. rewrite S32 by lia. cbn [bind]. rewrite <- P2. reflexivity. }
      apply (f_cons _ _ _ _ _ _ _ _ F32 n3 4); [lia|apply const_ok; reflexivity| |exact Q3|exact U3|]. { cbn [field_text]. replace (Z.to_nat _) with (data + (w1 + w2 + 8))%nat by lia. rewrite S32 by lia. cbn [bind]. rewrite <- P3. reflexivity. }
      apply (f_cons _ _ _ _ _ _ _ _ F32 n4 4); [lia|apply const_ok; reflexivity| |exact Q4|exact U4|]. { cbn [field_text]. replace (Z.to_nat _) with (data + (w1 + w2 + 12))%nat by lia. rewrite S32 by lia. cbn [bind]. rewrite <- P4. reflexivity. }
      apply (f_cons _ _ _ _ _ _ _ _ F32 n5 4); [lia|apply const_ok; reflexivity| |exact Q5|exact U5|apply f_nil]. { cbn [field_text]. replace (Z.to_nat _) with (data + (w1 + w2 + 16))%nat by lia. rewrite S32 by lia. cbn [bind]. rewrite <- P5. reflexivity. } }
    destruct (parse_data_exact nf m len host data _ _ _ _ HF [] bf left ltac:(discriminate) Hb Hfit) as (rest & E & L). cbn [app length Nat.add] in E, L. rewrite E. eexists _, rest. split; [reflexivity|]. split; [|exact L]. unfold vtext. cbn [map concat fst snd]. rewrite app_length, line_len. lia.
  - pose proof (sh_opt g (length pre) r l Et Hl) as HSh. exists 0%nat, [(l, str "Pseudo-RR")]. split; [exact HSh|]. split; [apply (shown_no0 _ _ _ _ HSh); cbn in *; lia|]. intros nf b left _ Hb Hfit. unfold vtext in Hfit. cbn [map concat fst snd] in Hfit. rewrite app_nil_r in Hfit.
    rewrite Et. cbn [Z.eqb Pos.eqb orb]. destruct (raw_exact 41 (Z.of_nat (length (r_data r))) b left l (str "Pseudo-RR") ltac:(lia) (label_raw 41 l ltac:(lia) Hl) eq_refl ltac:(lia) Hb Hfit) as (rest & E & L). rewrite E.
    eexists _, rest. unfold vtext. cbn [map concat fst snd]. rewrite app_nil_r. split; [reflexivity|]. split; [rewrite line_len; lia|exact L].
  - pose proof (sh_other g (length pre) r l n Hno Hl Hn) as HSh. exists 0%nat, [(l, n ++ str " bytes")]. split; [exact HSh|]. split; [apply (shown_no0 _ _ _ _ HSh); cbn in *; lia|]. intros nf b left _ Hb Hfit. unfold vtext in Hfit. cbn [map concat fst snd] in Hfit. rewrite app_nil_r in Hfit.
    assert (EC : (r_type r =? 1) = false /\ (r_type r =? 28) = false /\ (r_type r =? 5) || (r_type r =? 12) || (r_type r =? 2) = false /\ (r_type r =? 16) = false /\ (r_type r =? 15) = false /\ (r_type r =? 6) = false /\ (r_type r =? 41) = false) by (cbn in Hno; lia).
    destruct EC as (-> & -> & -> & -> & -> & -> & E41). destruct (num_ok (Z.of_nat (length (r_data r))) n ltac:(lia) Hn) as (P1 & _).
    destruct (raw_exact (r_type r) (Z.of_nat (length (r_data r))) b left l (n ++ str " bytes") ltac:(lia) (label_raw (r_type r) l ltac:(lia) Hl) ltac:(rewrite E41, P1; reflexivity) ltac:(lia) Hb Hfit) as (rest & E & L). rewrite E.
    eexists _, rest. unfold vtext. cbn [map concat fst snd]. rewrite app_nil_r. split; [reflexivity|]. split; [rewrite line_len; lia|exact L].
Qed.
End Record.

Definition is_rec (x : item) (r : rr) : Prop := exists p, x = IR p r /\ p <> P_question /\ p <> P_unknown.
Definition at_off (t : Z * nat * rr) : nat := snd (fst t).
Lemma lines_cons vs vss : lines_text (vs :: vss) = vtext vs ++ lines_text vss.
Proof. unfold lines_text, vtext. cbn [concat]. now rewrite map_app, concat_app. Qed.
Lemma answers_listed g post host : length host = 254%nat -> forall rs1 its rs2 i pre x k, let m := enc_msg g ++ post in let len := length (enc_msg g) in
  at_item m (Z.of_nat len) i pre x its post -> Forall2 is_rec its (rs1 ++ rs2) -> (match rs2 with [] => True | r :: _ => ~ listed r end) ->
  Forall (fun t => listed (snd t) /\ exists vs, shown g (at_off t) (snd t) vs) (located k (length (pre ++ enc_item x)) rs1) ->
  exists f0 vss, Forall2 (fun t vs => shown g (at_off t) (snd t) vs) (located k (length (pre ++ enc_item x)) rs1) vss /\
    forall nf fuel b t0 rest left count, (f0 <= nf)%nat -> (length its < fuel)%nat -> b = t0 ++ 0 :: rest -> (length t0 + left + 22 = length b)%nat -> (length (lines_text vss) + 11 <= left)%nat ->
      Z.of_nat (length (rs1 ++ rs2)) = count -> count < 1000000 ->
      exists rest', answers_loop nf m len host fuel i b (length t0) left count =
        Ret (t0 ++ lines_text vss ++ (match rs2 with [] => [] | _ => and_more (print_u (Z.of_nat (length rs2))) end) ++ 0 :: rest').
Proof.
  intros Hh. induction rs1 as [|r rs1 IH]; intros its rs2 i pre x k m len HA HT H2 HS.
  - exists 0%nat, []. split; [constructor|]. intros nf fuel b t0 rest left count _ Hf Eb Hl Hfit Hc Hc2. cbn [app] in *. unfold lines_text in *. cbn [concat map length app] in *.
    destruct fuel as [|fuel]; [lia|]. cbn [answers_loop]. destruct rs2 as [|r rs2].
    + inversion HT. subst its. rewrite (at_last _ _ _ _ _ _ HA). cbn [bind app]. exists rest. now rewrite Eb.
    + inversion HT as [|y r' ys rs' (p & -> & Hp1 & Hp2) HT' E1 E2]. subst r' rs' its. destruct (at_next _ _ _ _ _ _ _ _ HA) as (i' & HN & HA' & _). rewrite HN. cbn [bind]. rewrite (at_purpose _ _ _ _ _ _ _ HA'). cbn [item_purpose].
      pose proof HA' as [Hg' _ Hm' _ _ _ _ _ (Hv1 & Hv2) _]. cbn [view_item v_type v_class] in Hv1, Hv2.
      assert (Em : m = (pre ++ enc_item x) ++ enc_item (IR p r) ++ (concat (map enc_item ys) ++ post)) by (rewrite Hm'; cbn [map concat]; rewrite <- !app_assoc; reflexivity).
      destruct (item_fields m _ (IR p r) _ Hg' Em) as (_ & _ & _ & _ & _ & _ & _ & FD).
      assert (ET : textify nf m len host i' (length (pre ++ enc_item x)) line_format (skipn (length t0) b) left = Ret (0, skipn (length t0) b)).
      { unfold textify. rewrite FD. cbn [bind]. rewrite Hv1, Hv2. unfold listed in H2. replace (negb (r_type r =? 41) && negb (r_class r =? 1)) with true by lia. reflexivity. }
      set (more := txt "   And "%string ++ print_u count ++ txt " More ..."%string ++ [10; 0]).
      assert (Emo : more = and_more (print_u count) ++ [0]). { unfold more, and_more. rewrite <- !app_assoc. reflexivity. }
      assert (Ld : (length (print_u count) <= 10)%nat) by (apply (print_loop_len 10 10)).
      assert (Lm : length more = (18 + length (print_u count))%nat) by (rewrite Emo, app_length; unfold and_more; rewrite !app_length; cbn [length]; lia).
      assert (HR : exists rest', bwrite b (length t0) more = Ret (t0 ++ and_more (print_u count) ++ 0 :: rest')).
      { rewrite bwrite_ok by lia. assert (Ef : firstn (length t0) b = t0) by (rewrite Eb; apply firstn_app_l). rewrite Ef, Emo. eexists. rewrite <- !app_assoc. reflexivity. }
      rewrite ET. cbn [bind]. cbv zeta. rewrite firstn_skipn. change (0 <=? 0) with true. cbv iota. rewrite Hc. destruct HR as (rest' & HR). exists rest'. destruct p; try contradiction; exact HR.
  - inversion HT as [|y r' ys rs' (p & -> & Hp1 & Hp2) HT' E1 E2]. subst r' rs' its. cbn [located] in HS. inversion_clear HS as [|? ? (HS1 & vs0 & HS2) HS3]. cbn [at_off fst snd] in HS1, HS2.
    destruct (at_next _ _ _ _ _ _ _ _ HA) as (i' & HN & HA' & _). destruct (textify_shown g post host Hh i' _ p r ys vs0 HA' HS1 HS2) as (f1 & vs & Hsh & Hno0 & HT1).
    assert (EO : (length (pre ++ enc_item x) + length (enc_rr r))%nat = length ((pre ++ enc_item x) ++ enc_item (IR p r))) by (rewrite (app_length (pre ++ enc_item x)); reflexivity). rewrite EO in HS3.
    destruct (IH ys rs2 i' _ (IR p r) (k + 1) HA' HT' H2 HS3) as (f2 & vss & Hsh2 & HL). exists (Nat.max f1 f2), (vs :: vss). split; [cbn [located]; constructor; [exact Hsh|rewrite EO; exact Hsh2]|].
    intros nf fuel b t0 rest left count Hf1 Hf Eb Hl Hfit Hc Hc2. rewrite lines_cons, app_length in Hfit. destruct fuel as [|fuel]; [lia|]. cbn [answers_loop]. fold m len. rewrite HN. cbn [bind]. rewrite (at_purpose _ _ _ _ _ _ _ HA'). cbn [item_purpose].
    assert (Es : skipn (length t0) b = 0 :: rest /\ firstn (length t0) b = t0). { rewrite Eb. split; [apply skipn_app_l|apply firstn_app_l]. } destruct Es as (Es1 & Es2).
    assert (Lr : length (0 :: rest) = (left + 22)%nat) by (rewrite Eb, app_length in Hl; lia).
    rewrite Es1, Es2. destruct (HT1 nf (0 :: rest) left ltac:(lia) ltac:(lia) ltac:(lia)) as (n & rest1 & ET & Hn & L1). fold m len in ET. rewrite ET. cbn [bind]. cbv zeta. destruct (Z.leb_spec n 0); [lia|].
    assert (HZ : zlen (vtext vs ++ 0 :: rest1) = Some (length (vtext vs))) by (apply zlen_ok, Hno0).
    rewrite HZ. destruct (HL nf fuel (t0 ++ vtext vs ++ 0 :: rest1) (t0 ++ vtext vs) rest1 (left - length (vtext vs))%nat (count - 1) ltac:(lia) ltac:(cbn [length] in Hf; lia) ltac:(now rewrite <- app_assoc)) as (rest' & HR).
    + rewrite !app_length in *. lia.
    + lia.
    + rewrite <- Hc. cbn [app length]. lia.
    + lia.
    + exists rest'. rewrite app_length in HR. rewrite lines_cons, <- !app_assoc in *. destruct p; try contradiction; exact HR.
Qed.

Lemma located_app rs1 rs2 : forall k o, exists k' o', located k o (rs1 ++ rs2) = located k o rs1 ++ located k' o' rs2.
Proof. induction rs1 as [|r rs1 IH]; intros k o; cbn [app located]; [eauto|]. destruct (IH (k + 1) (o + length (enc_rr r))%nat) as (k' & o' & ->). eauto. Qed.
Lemma located_snd rs : forall k o, map snd (located k o rs) = rs.
Proof. induction rs as [|r rs IH]; intros k o; cbn [located map snd]; [reflexivity|]. now rewrite IH. Qed.
Lemma located_length rs : forall k o, length (located k o rs) = length rs.
Proof. induction rs as [|r rs IH]; intros k o; cbn [located length]; [reflexivity|]. now rewrite IH. Qed.
Lemma located_split rs xs ys k o : located k o rs = xs ++ ys -> rs = map snd xs ++ map snd ys /\ xs = located k o (map snd xs).
Proof.
  intros H. assert (E : rs = map snd xs ++ map snd ys) by (rewrite <- map_app, <- H; now rewrite located_snd). split; [exact E|].
  rewrite E in H. destruct (located_app (map snd xs) (map snd ys) k o) as (k' & o' & H'). rewrite H' in H.
  assert (L : length (located k o (map snd xs)) = length xs) by now rewrite located_length, map_length.
  apply (f_equal (firstn (length xs))) in H. rewrite <- L in H at 1. rewrite !firstn_app_l in H. symmetry. exact H.
Qed.
Lemma rec_items g : Forall2 is_rec (map (IR P_answer) (m_an g) ++ map (IR P_nameserver) (m_ns g) ++ map (IR P_additional) (m_ar g)) (m_an g ++ m_ns g ++ m_ar g).
Proof.
  assert (H : forall p rs, p <> P_question -> p <> P_unknown -> Forall2 is_rec (map (IR p) rs) rs) by (intros p rs H1 H2; induction rs; cbn [map]; constructor; auto; exists p; auto).
  repeat apply Forall2_app; apply H; discriminate.
Qed.
Lemma goto_loop_more m dlen f : forall f' i i', goto_loop f m dlen i = Ret i' -> (f <= f')%nat -> goto_loop f' m dlen i = Ret i'.
Proof.
  induction f as [|f IH]; intros f' i i' H L; [discriminate|]. destruct f' as [|f']; [lia|]. cbn [goto_loop] in *. destruct (iter_next m dlen i) as [[[p|] i1]| | |]; cbn [bind] in *; try discriminate; [|exact H].
  destruct (_ =? _); [exact H|]. apply IH; [exact H|lia].
Qed.
Lemma start_listing g post : let m := enc_msg g ++ post in let len := length (enc_msg g) in let total := Z.of_nat (length (m_an g ++ m_ns g ++ m_ar g)) in
  good_msg g -> m_qs g <> [] -> Forall is_byte post ->
  exists i pre x, at_item m (Z.of_nat len) i pre x (map (IR P_answer) (m_an g) ++ map (IR P_nameserver) (m_ns g) ++ map (IR P_additional) (m_ar g)) post /\
    length (pre ++ enc_item x) = (12 + qs_len (m_qs g))%nat /\ total < 1000000 /\ forall nf fuel host rest, (length (m_qs g) <= fuel)%nat -> (22 <= length rest)%nat ->
    get_all_answers nf m len host fuel (0 :: rest) = (let! b0 := (if total =? 0 then bwrite (0 :: rest) 0 (txt "   Nothing."%string ++ [10; 0]) else Ret (0 :: rest)) in answers_loop nf m len host fuel i b0 0 (length (0 :: rest) - 22) total).
Proof.
  intros m len total Hg Hne Hpost. pose proof Hg as (Hid & Hrest). pose proof (header_length g Hid) as Hh.
  assert (Hlen12 : (12 <= len)%nat) by (unfold len; rewrite enc_msg_items, app_length; lia).
  destruct (iter_init_start g post P_unknown 0 0 0 Hg Hpost Hne) as (i & HI & HS). fold m in HI, HS. destruct (msg_counts g post Hg) as (_ & C6 & C8 & C10). fold m in C6, C8, C10.
  set (i0 := iter_info i None (it_rec i) (it_purpose i) (it_type i) (it_klass i) (it_dlen i)).
  assert (HS0 : at_start m i0 g).
  { assert (Hsc0 : same_counts i i0) by apply same_counts_info. constructor; [reflexivity| | | |].
    - replace (it_all i0) with (it_all i) by apply Hsc0. apply (as_all _ _ _ HS).
    - replace (it_ql i0) with (it_ql i) by apply Hsc0. apply (as_ql _ _ _ HS).
    - replace (it_qf i0) with (it_qf i) by apply Hsc0. apply (as_qf _ _ _ HS).
    - intros k y Hk. rewrite <- (determine_purpose_counts i i0) by assumption. apply (as_sec _ _ _ HS k y Hk). }
  destruct (m_qs g) as [|q qs] eqn:Eq; [contradiction|].
  destruct (goto_answers_ok g post m (Z.of_nat len) i0 q qs (length (m_qs g)) Hg eq_refl Eq ltac:(unfold len; lia) HS0 (Nat.le_refl _)) as (i2 & pre & x & HE & HA2 & HP).
  exists i2, pre, x. split; [exact HA2|]. split; [rewrite HP, app_length, Hh, Eq; reflexivity|]. split. { destruct Hrest as (_ & _ & _ & _ & _ & _ & La & Ln & Lr). unfold total. rewrite !app_length. lia. }
  intros nf fuel host rest Hf Hr. apply (goto_loop_more _ _ _ fuel) in HE; [|rewrite Eq; exact Hf]. unfold get_all_answers. destruct (Nat.leb_spec (length (0 :: rest)) 22) as [X|_]; [cbn [length] in X; lia|]. unfold parser_init. destruct (Nat.ltb_spec len 12); [lia|].
  rewrite HI. cbn [bind]. unfold rd16. rewrite C6, C8, C10. cbn [bind]. unfold goto_answers. fold i0. rewrite (as_qf _ _ _ HS0). change (0 <? 1) with true. cbv iota. rewrite HE. cbn [bind].
  replace (Z.of_nat (length (m_an g)) + Z.of_nat (length (m_ns g)) + Z.of_nat (length (m_ar g))) with total by (unfold total; rewrite !app_length; lia). reflexivity.
Qed.

(** * C92: the log shows what a response has *)
(** A well-formed response: the records before the first one of another class than IN (OPT aside), if they can be read, are shown in
    their order with their kind and their value, each value in a line; then how many records there are besides, if any. *)
Theorem C92_listing_partial g post host xs ys : good_msg g -> m_qs g <> [] -> Forall is_byte post -> length host = 254%nat ->
  records g = xs ++ ys -> records g <> [] -> Forall (fun x => listed (snd x) /\ exists vs, shown g (snd (fst x)) (snd x) vs) xs -> (match ys with [] => True | y :: _ => ~ listed (snd y) end) ->
  exists f0 vss, Forall2 (fun x vs => shown g (snd (fst x)) (snd x) vs) xs vss /\
    forall nf fuel rest, (f0 <= nf)%nat -> (f0 <= fuel)%nat -> (length (lines_text vss) + 33 <= S (length rest))%nat ->
      exists more rest', (ys = [] /\ more = [] \/ ys <> [] /\ exists ds, num (Z.of_nat (length ys)) ds /\ more = and_more ds) /\
        get_all_answers nf (enc_msg g ++ post) (length (enc_msg g)) host fuel (0 :: rest) = Ret (lines_text vss ++ more ++ 0 :: rest').
Proof.
  intros Hg Hne Hpost Hh ER Hn HX HY. unfold records in ER. destruct (located_split _ _ _ _ _ ER) as (E1 & E2).
  destruct (start_listing g post Hg Hne Hpost) as (i & pre & x & HA & HO & Htot & HG).
  pose proof (rec_items g) as HT. rewrite E1 in HT. pose proof HX as HX'. rewrite E2, <- HO in HX'.
  destruct (answers_listed g post host Hh (map snd xs) _ (map snd ys) i pre x _ HA HT ltac:(destruct ys; [exact I|exact HY]) HX') as (f0 & vss & HS & HL). rewrite HO, <- E2 in HS.
  exists (Nat.max f0 (Nat.max (length (m_qs g)) (S (length (m_an g ++ m_ns g ++ m_ar g))))), vss. split; [exact HS|]. intros nf fuel rest Hn1 Hf Hfit. rewrite HG by (cbn [length] in Hfit; lia).
  assert (Htot0 : Z.of_nat (length (m_an g ++ m_ns g ++ m_ar g)) <> 0). { intros X. apply Hn. unfold records. destruct (m_an g ++ m_ns g ++ m_ar g); [reflexivity|cbn [length] in X; lia]. }
  destruct (Z.eqb_spec (Z.of_nat (length (m_an g ++ m_ns g ++ m_ar g))) 0) as [X|_]; [contradiction|]. cbn [bind].
  assert (Lit : length (map (IR P_answer) (m_an g) ++ map (IR P_nameserver) (m_ns g) ++ map (IR P_additional) (m_ar g)) = length (m_an g ++ m_ns g ++ m_ar g)) by (rewrite !app_length, !map_length; reflexivity).
  destruct (HL nf fuel (0 :: rest) [] rest (S (length rest) - 22)%nat (Z.of_nat (length (m_an g ++ m_ns g ++ m_ar g))) ltac:(lia) ltac:(lia) eq_refl ltac:(cbn [length] in *; lia) ltac:(cbn [length] in *; lia) ltac:(now rewrite E1) Htot) as (rest' & HR).
  cbn [app length] in HR. cbn [length] in *. rewrite HR. eexists _, rest'. split; [|reflexivity]. destruct ys as [|y ys]; [left; split; reflexivity|]. right. split; [discriminate|]. eexists. split; [|reflexivity]. rewrite map_length. apply print_num. cbn [length].
  assert (Ly : (length (y :: ys) <= length (m_an g ++ m_ns g ++ m_ar g))%nat) by (rewrite E1, app_length, !map_length; lia). cbn [length] in Ly. lia.
Qed.
Print Assumptions C92_listing_partial.

(** A response without records: "Nothing." *)
Theorem C92_nothing_partial g post : good_msg g -> m_qs g <> [] -> Forall is_byte post -> records g = [] ->
  forall nf fuel host rest, (length (m_qs g) < fuel)%nat -> (22 <= length rest)%nat -> exists rest',
    get_all_answers nf (enc_msg g ++ post) (length (enc_msg g)) host fuel (0 :: rest) = Ret (str "   Nothing." ++ [10] ++ 0 :: rest').
Proof.
  intros Hg Hne Hpost ER nf fuel host rest Hf Hr. destruct (start_listing g post Hg Hne Hpost) as (i & pre & x & HA & HO & Htot & HG). rewrite HG by lia.
  assert (E : m_an g ++ m_ns g ++ m_ar g = []) by (unfold records in ER; destruct (m_an g ++ m_ns g ++ m_ar g); [reflexivity|discriminate]). rewrite E. change (Z.of_nat (length (@nil rr)) =? 0) with true. cbv iota.
  destruct (app_eq_nil _ _ E) as (Ea & E'). destruct (app_eq_nil _ _ E') as (En & Er). rewrite Ea, En, Er in HA. cbn [map app] in HA.
  rewrite bwrite_ok by (cbn [length app txt map list_ascii_of_string]; lia). cbn [bind]. destruct fuel as [|fuel]; [lia|]. cbn [answers_loop]. rewrite (at_last _ _ _ _ _ _ HA). cbn [bind]. eexists. reflexivity.
Qed.
Print Assumptions C92_nothing_partial.

(** What is shown of a record is determined by the record, but for the text of an IPv6 address. *)
Lemma label_fun ty l1 l2 : label ty l1 -> label ty l2 -> l1 = l2.
Proof.
  intros [s1 H1|t1 N1 U1] [s2 H2|t2 N2 U2].
  - f_equal. pose proof labels_nodup as HN. clear - H1 H2 HN. revert H1 H2 HN. induction labels as [|[k s] ls IH]; [intros []|]. cbn [In map fst]. intros [E1|H1] [E2|H2] HN.
    + congruence.
    + exfalso. assert (k = ty) as -> by congruence. inversion HN as [|? ? N _]. apply N. change ty with (fst (ty, s2)). now apply in_map.
    + exfalso. assert (k = ty) as -> by congruence. inversion HN as [|? ? N _]. apply N. change ty with (fst (ty, s1)). now apply in_map.
    + apply IH; auto. now inversion HN.
  - exfalso. exact (N2 _ H1).
  - exfalso. exact (N1 _ H2).
  - now rewrite (num_unique _ _ _ U1 U2).
Qed.
Lemma wide_fun g o w t w' t' : name_wide g o w t -> name_wide g o w' t' -> w = w' /\ t = t'.
Proof.
  intros (ls & D & _ & B) (ls' & D' & _ & B'). destruct (denotes_fun 63 _ _ _ _ _ _ ltac:(lia) D D') as (<- & <-). split; [reflexivity|]. rewrite <- (cstr_before _ [] _ B). exact (cstr_before _ [] _ B').
Qed.
Lemma strings_fun ss : forall ss', Forall (fun s => (length s < 256)%nat) ss -> Forall (fun s => (length s < 256)%nat) ss' ->
  flat_map (fun s : list Z => Z.of_nat (length s) :: s) ss = flat_map (fun s : list Z => Z.of_nat (length s) :: s) ss' -> ss = ss'.
Proof.
  induction ss as [|s ss IH]; intros [|s' ss'] H H' E; cbn [flat_map app] in E; try discriminate; [reflexivity|]. assert (EL : Z.of_nat (length s) = Z.of_nat (length s')) by congruence.
  assert (E1 : s ++ flat_map (fun s : list Z => Z.of_nat (length s) :: s) ss = s' ++ flat_map (fun s : list Z => Z.of_nat (length s) :: s) ss') by congruence.
  assert (s = s') as <-. { apply (f_equal (firstn (length s))) in E1. rewrite firstn_app_l in E1. replace (length s) with (length s') in E1 by lia. rewrite firstn_app_l in E1. exact E1. }
  apply app_inv_head in E1. inversion_clear H. inversion_clear H'. f_equal. auto.
Qed.
Theorem C92_shown_unique g o r vs vs' : r_type r <> 28 -> shown g o r vs -> shown g o r vs' -> vs = vs'.
Proof.
  intros N [t Et HQ|t Et HQ|w l t Et Hl HN|ss t Et HF Ed HB|a b d n w t Et Ed Hne Hn HN|w1 t1 w2 t2 d n1 n2 n3 n4 n5 Et HN1 HN2 Ld Ed Hn1 Hn2 Hn3 Hn4 Hn5|l Et Hl|l n Hno Hl Hn]; [| contradiction|..];
  intros [t' Et' HQ'|t' Et' HQ'|w' l' t' Et' Hl' HN'|ss' t' Et' HF' Ed' HB'|a' b' d' n' w' t' Et' Ed' Hne' Hn' HN'|w1' t1' w2' t2' d' n1' n2' n3' n4' n5' Et' HN1' HN2' Ld' Ed' Hn1' Hn2' Hn3' Hn4' Hn5'|l' Et' Hl'|l' n' Hno' Hl' Hn'];
    try (exfalso; cbn [In] in *; lia).
  - destruct HQ as (a1 & a2 & a3 & a4 & t1 & t2 & t3 & t4 & Ed & N1 & N2 & N3 & N4 & ->). destruct HQ' as (a1' & a2' & a3' & a4' & t1' & t2' & t3' & t4' & Ed' & N1' & N2' & N3' & N4' & ->). rewrite Ed in Ed'.
    assert (a1 = a1' /\ a2 = a2' /\ a3 = a3' /\ a4 = a4') as (<- & <- & <- & <-) by (repeat split; congruence).
    now rewrite (num_unique _ _ _ N1 N1'), (num_unique _ _ _ N2 N2'), (num_unique _ _ _ N3 N3'), (num_unique _ _ _ N4 N4').
  - destruct (wide_fun _ _ _ _ _ _ HN HN') as (_ & <-). now rewrite (label_fun _ _ _ Hl Hl').
  - rewrite Ed in Ed'. apply strings_fun in Ed'; auto. subst ss'. do 2 f_equal. rewrite <- (cstr_before _ [] _ HB). exact (cstr_before _ [] _ HB').
  - rewrite Ed in Ed'. assert (a = a' /\ b = b') as (<- & <-) by (split; congruence). destruct (wide_fun _ _ _ _ _ _ HN HN') as (_ & <-). now rewrite (num_unique _ _ _ Hn Hn').
  - destruct (wide_fun _ _ _ _ _ _ HN1 HN1') as (<- & <-). destruct (wide_fun _ _ _ _ _ _ HN2 HN2') as (<- & <-). destruct Ed as (nn & Ed & Ln). destruct Ed' as (nn' & Ed' & Ln'). rewrite Ed in Ed'.
    assert (d = d') as <-. { apply (f_equal (skipn (w1 + w2))) in Ed'. rewrite <- Ln in Ed' at 1. rewrite <- Ln' in Ed'. rewrite !skipn_app_l in Ed'. exact Ed'. }
    now rewrite (num_unique _ _ _ Hn1 Hn1'), (num_unique _ _ _ Hn2 Hn2'), (num_unique _ _ _ Hn3 Hn3'), (num_unique _ _ _ Hn4 Hn4'), (num_unique _ _ _ Hn5 Hn5').
  - now rewrite (label_fun _ _ _ Hl Hl').
  - now rewrite (label_fun _ _ _ Hl Hl'), (num_unique _ _ _ Hn Hn').
Qed.
Print Assumptions C92_shown_unique.

(** A response with a record of each kind, a record of another class, and one more that is not shown. *)
Definition ex92 : message := mk_msg [1; 2; 129; 128] [q_ab]
  [mk_rr ptr12 5 1 60 [1; 99; 192; 14]; mk_rr ptr12 1 1 60 [10; 0; 0; 255]; mk_rr ptr12 28 1 60 [32; 1; 0; 0; 0; 0; 0; 0; 0; 0; 0; 0; 0; 0; 0; 1]; mk_rr ptr12 16 1 60 [2; 104; 105; 1; 33]]
  [mk_rr ptr12 6 1 60 ([192; 12; 192; 14] ++ [0; 0; 1; 0; 0; 0; 0; 7; 0; 0; 0; 0; 1; 0; 0; 0; 0; 0; 0; 60])]
  [mk_rr ptr12 15 1 60 [1; 0; 192; 14]; mk_rr ptr12 65 1 60 [1; 2; 3]; mk_rr ptr12 999 1 60 []; mk_rr (mk_ename [] None) 41 1280 0 []; mk_rr ptr12 1 3 60 [10; 0; 0; 1]; mk_rr ptr12 1 1 60 [10; 0; 0; 1]].
Definition lines92 : list (list (list Z * list Z)) :=
  [[(str "Canonical Name", str "c.b")]; [(str "IPv4 Address", str "10.0.0.255")]; [(str "IPv6 Address", str "2001::1")]; [(str "TXT", str "hi!")];
   [(str "(SOA)primary name server", str "a.b"); (str "(SOA)responsible mail addr", str "b"); (str "(SOA)serial", str "256"); (str "(SOA)refresh", str "7"); (str "(SOA)retry", str "0"); (str "(SOA)expire", str "16777216"); (str "(SOA)default TTL", str "60")];
   [(str "preference", str "256"); (str "mail exchanger", str "b")]; [(str "HTTPS", str "3 bytes")]; [(str "UNKNOWN (999)", str "0 bytes")]; [(str "OPT", str "Pseudo-RR")]]%string.
Lemma wide_ex g o w ls : denotes 63 (enc_msg g) o ls w -> (length (Name_Spec.dotted ls) <= 253)%nat -> ~ In 0 (Name_Spec.dotted ls) -> name_wide g o w (Name_Spec.dotted ls).
Proof. intros H1 H2 H3. exists ls. split; [exact H1|]. split; [exact H2|]. split; [exact H3|]. now left. Qed.
Ltac dg := first [left; split; reflexivity|right; split; [vm_compute; reflexivity|split; [repeat constructor; discriminate|split; discriminate]]].
Lemma den92_b : denotes 63 (enc_msg ex92) 14 [[98]] 3.
Proof. lab 1%nat. root. Qed.
Lemma den92_ab : denotes 63 (enc_msg ex92) 12 [[97]; [98]] 5.
Proof. lab 1%nat. exact den92_b. Qed.
Example C92_nonvacuous : good_msg ex92 /\ m_qs ex92 <> [] /\ (exists xs ys, records ex92 = xs ++ ys /\ length ys = 2%nat /\ (match ys with [] => True | y :: _ => ~ listed (snd y) end) /\
    Forall (fun x => listed (snd x)) xs /\ Forall2 (fun x vs => shown ex92 (snd (fst x)) (snd x) vs) xs lines92) /\
  exists rest, get_all_answers 30 (enc_msg ex92) (length (enc_msg ex92)) (repeat 0 254) 100 (0 :: repeat 7 1023) = Ret (lines_text lines92 ++ and_more (str "2") ++ 0 :: rest).
Proof.
  split; [good_ex|]. split; [discriminate|]. split; [|eexists; vm_compute; reflexivity].
  exists (firstn 9 (records ex92)), (skipn 9 (records ex92)). split; [now rewrite firstn_skipn|]. split; [reflexivity|]. split; [cbn; unfold listed; cbn; lia|].
  split; [cbn; unfold listed; repeat (constructor; [cbn; lia|]); constructor|].
  cbn [records located firstn ex92 m_an m_ns m_ar app]. repeat (apply Forall2_cons); [..|apply Forall2_nil]; cbn [fst snd].
  - apply (sh_name _ _ _ 4 _ (str "c.b")); [cbn; auto|apply lb_known; cbn; auto|]. apply (wide_ex ex92 _ 4 [[99]; [98]]); [|cbn; lia|cbn; intuition discriminate]. lab 1%nat. ptr. exact den92_b.
  - apply sh_a; [reflexivity|]. exists 10, 0, 0, 255, (str "10"), (str "0"), (str "0"), (str "255"). split; [reflexivity|]. split; [dg|]. split; [dg|]. split; [dg|]. split; [dg|reflexivity].
  - apply sh_aaaa; [reflexivity|]. exists [8193; 0; 0; 0; 0; 0; 0; 1]. split; [reflexivity|]. split; [reflexivity|]. split; [repeat constructor; lia|]. split; [cbn; lia|]. left.
    pose proof (v6_to_asc_ok [8193; 0; 0; 0; 0; 0; 0; 1] eq_refl ltac:(repeat constructor; lia)) as (_ & _ & H). apply H. discriminate.
  - apply (sh_txt _ _ _ [[104; 105]; [33]]); [reflexivity|repeat constructor|reflexivity|]. split; [cbn; intuition discriminate|now left].
  - eapply (sh_soa _ _ _ 2 (str "a.b") 2 (str "b") [0; 0; 1; 0; 0; 0; 0; 7; 0; 0; 0; 0; 1; 0; 0; 0; 0; 0; 0; 60]); [reflexivity| | |reflexivity|exists [192; 12; 192; 14]; split; reflexivity|dg..].
    + apply (wide_ex ex92 _ 2 [[97]; [98]]); [|cbn; lia|cbn; intuition discriminate]. ptr. exact den92_ab.
    + apply (wide_ex ex92 _ 2 [[98]]); [|cbn; lia|cbn; intuition discriminate]. ptr. exact den92_b.
  - apply (sh_mx _ _ _ 1 0 [192; 14] _ 2); [reflexivity|reflexivity|discriminate|dg|]. apply (wide_ex ex92 _ 2 [[98]]); [|cbn; lia|cbn; intuition discriminate]. ptr. exact den92_b.
  - apply (sh_other ex92 _ _ (str "HTTPS") (str "3")); [cbn; lia|apply lb_known; cbn; auto 50|dg].
  - apply (sh_other ex92 _ _ (str "UNKNOWN (999)") (str "0")); [cbn; lia| |dg]. apply (lb_unknown 999 (str "999")); [intros s; cbn; intuition discriminate|dg].
  - apply sh_opt; [reflexivity|apply lb_known; cbn; auto 50].
Qed.
(** Not every record that can be read is shown: the mail exchanger is behind a record of another class. *)
Theorem C92_all_refuted : exists g z o r vs text, good_msg g /\ m_qs g <> [] /\ In (z, o, r) (records g) /\ listed r /\ shown g o r vs /\
  (exists rest, get_all_answers 30 (enc_msg g) (length (enc_msg g)) (repeat 0 254) 100 (0 :: repeat 7 1023) = Ret (text ++ 0 :: rest)) /\ forall a b, text <> a ++ lines_text [vs] ++ b.
Proof.
  exists ex61, 6, 82%nat, (mk_rr ptr12 15 1 90 [0; 10; 1; 109; 192; 12]), [(str "preference", str "10"); (str "mail exchanger", str "m.a.b")], (concat lines61 ++ and_more [51]).
  split; [good_ex|]. split; [discriminate|]. split; [cbn; auto 10|]. split; [right; reflexivity|]. split.
  - apply (sh_mx _ _ _ 0 10 [1; 109; 192; 12] _ 4); [reflexivity|reflexivity|discriminate|dg|]. apply (wide_ex ex61 _ 4 [[109]; [97]; [98]]); [|cbn; lia|cbn; intuition discriminate]. lab 1%nat. ptr. exact den_ab.
  - split; [eexists; vm_compute; reflexivity|]. intros a b E. assert (HX : In 120 (concat lines61 ++ and_more [51])).
    { rewrite E, !in_app_iff. right; left. vm_compute. repeat (first [left; reflexivity|right]). }
    assert (HF : forallb (fun c => negb (c =? 120)) (concat lines61 ++ and_more [51]) = true) by (vm_compute; reflexivity). rewrite forallb_forall in HF. specialize (HF _ HX). discriminate.
Qed.
Print Assumptions C92_all_refuted.
