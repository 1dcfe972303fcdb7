From Verif Require Import Base BaseFacts ListFacts List2Facts Hash_Model Ttl_Model Ttl_Spec Ttl_Proofs Addr_Model Addr_Spec Addr_Proofs Addr2_Proofs Addr3_Proofs Addr_Props Arr_Model Slist_Model Alist_Model Alist_Spec.
Require Import ZifyBool ZifyNat.

(** * Searching *)
Lemma str_chr_none c s : ~ In c s -> str_chr c s = None.
Proof. induction s as [|x s IH]; intros H; [reflexivity|]. cbn [str_chr]. destruct (Z.eqb_spec x c) as [->|]; [exfalso; apply H; left; reflexivity|]. apply IH. intros X. apply H. right. exact X. Qed.
Lemma str_chr_some c t r : ~ In c t -> str_chr c (t ++ c :: r) = Some (c :: r).
Proof. induction t as [|x t IH]; intros H; cbn [app str_chr]; [rewrite Z.eqb_refl; reflexivity|]. destruct (Z.eqb_spec x c) as [->|]; [exfalso; apply H; left; reflexivity|]. apply IH. intros X. apply H. right. exact X. Qed.
Lemma str_chr_in c s : In c s -> exists r, str_chr c s = Some (c :: r).
Proof. induction s as [|x s IH]; intros H; [destruct H|]. cbn [str_chr]. destruct (Z.eqb_spec x c) as [->|N]; [eauto|]. destruct H as [H|H]; [contradiction|]. auto. Qed.
Lemma take_until_end c t : forall n, ~ In c t -> (length t <= n)%nat -> take_until n c t = t.
Proof.
  induction t as [|x t IH]; intros n H Hn; [destruct n; reflexivity|]. destruct n as [|n]; cbn [length] in Hn; [lia|]. cbn [take_until]. destruct (Z.eqb_spec x c) as [->|]; [exfalso; apply H; left; reflexivity|].
  f_equal. apply IH; [intros X; apply H; right; exact X|lia].
Qed.
Lemma take_until_at c t r : forall n, ~ In c t -> (length t <= n)%nat -> take_until n c (t ++ c :: r) = t.
Proof.
  induction t as [|x t IH]; intros n H Hn; cbn [app]; [destruct n; [reflexivity|]; cbn [take_until]; rewrite Z.eqb_refl; reflexivity|]. destruct n as [|n]; cbn [length] in Hn; [lia|]. cbn [take_until]. destruct (Z.eqb_spec x c) as [->|]; [exfalso; apply H; left; reflexivity|].
  f_equal. apply IH; [intros X; apply H; right; exact X|lia].
Qed.

(** * The texts *)
Lemma plain_len t v : plain t v -> v < 256 -> (length t <= 3)%nat.
Proof.
  intros (HD & HZ) Hv. assert (X : forall ds u, decimal ds u -> (forall t', ds = 48 :: t' -> t' = []) -> (u = 0 /\ length ds = 1%nat) \/ 10 ^ (Z.of_nat (length ds) - 1) <= u).
  { clear. induction 1 as [d H|ds u d H IH Hd]; intros HZ; [cbn [length]; destruct (Z.eq_dec d 0); [left; auto|right; change (10 ^ (Z.of_nat 1 - 1)) with 1; lia]|].
    pose proof (decimal_facts ds u H) as (N & _ & _ & H0). assert (HZ' : forall t', ds = 48 :: t' -> t' = []). { intros t' ->. specialize (HZ (t' ++ [48 + d]) eq_refl). destruct t'; discriminate. }
    destruct (IH HZ') as [(-> & HL)|HL].
    - exfalso. destruct ds as [|c [|]]; cbn [length] in HL; try lia. pose proof (decimal_facts [c] 0 H) as (_ & HC & HV & _). specialize (HC c (or_introl eq_refl)). unfold dec_value in HV. cbn [fold_left] in HV. assert (c = 48) as -> by lia. specialize (HZ [48 + d] eq_refl). discriminate.
    - right. rewrite app_length. cbn [length]. assert (1 <= length ds)%nat by (destruct ds; [contradiction|cbn [length]; lia]). replace (Z.of_nat (length ds + 1) - 1) with (Z.succ (Z.of_nat (length ds) - 1)) by lia. rewrite Z.pow_succ_r by lia. lia. }
  destruct (X t v HD HZ) as [(_ & ->)|HL]; [lia|]. destruct (le_lt_dec (length t) 3) as [|G]; [assumption|]. exfalso.
  assert (10 ^ 3 <= 10 ^ (Z.of_nat (length t) - 1)) by (apply Z.pow_le_mono_r; lia). change (10 ^ 3) with 1000 in *. lia.
Qed.
Lemma plain4 a t : dotted_plain a t -> exists t0 t1 t2 t3 a0 a1 a2 a3, a = [a0; a1; a2; a3] /\ t = t0 ++ 46 :: t1 ++ 46 :: t2 ++ 46 :: t3 /\
  plain t0 a0 /\ plain t1 a1 /\ plain t2 a2 /\ plain t3 a3 /\ is_byte a0 /\ is_byte a1 /\ is_byte a2 /\ is_byte a3.
Proof.
  intros (ts & L & HB & HF & ->). destruct (list4 a L) as (a0 & a1 & a2 & a3 & ->).
  inversion HF as [|t0 ? ? ? D0 HF0]; subst. inversion HF0 as [|t1 ? ? ? D1 HF1]; subst. inversion HF1 as [|t2 ? ? ? D2 HF2]; subst. inversion HF2 as [|t3 ? ? ? D3 HF3]; subst. inversion HF3; subst.
  rewrite Forall_forall in HB. exists t0, t1, t2, t3, a0, a1, a2, a3. cbn [join]. repeat split; try assumption; try (apply D0); try (apply D1); try (apply D2); try (apply D3); apply HB; cbn; auto.
Qed.
Lemma plain_dotted a t : dotted_plain a t -> dotted a t.
Proof. intros (ts & L & HB & HF & E). exists ts. repeat split; try assumption. clear -HF. induction HF as [|? ? ? ? (H & _)]; constructor; assumption. Qed.
Lemma plain_chars a t c : dotted_plain a t -> In c t -> 48 <= c <= 57 \/ c = 46.
Proof.
  intros H Hc. destruct (plain4 a t H) as (t0 & t1 & t2 & t3 & a0 & a1 & a2 & a3 & _ & -> & (P0 & _) & (P1 & _) & (P2 & _) & (P3 & _) & _).
  repeat (apply in_app_or in Hc; destruct Hc as [Hc|[Hc|Hc]]); eauto using decimal_digit.
Qed.
Lemma plain_length a t : dotted_plain a t -> (length t <= 15)%nat.
Proof.
  intros H. destruct (plain4 a t H) as (t0 & t1 & t2 & t3 & a0 & a1 & a2 & a3 & _ & -> & P0 & P1 & P2 & P3 & B0 & B1 & B2 & B3). unfold is_byte in *.
  pose proof (plain_len t0 a0 P0 ltac:(lia)). pose proof (plain_len t1 a1 P1 ltac:(lia)). pose proof (plain_len t2 a2 P2 ltac:(lia)). pose proof (plain_len t3 a3 P3 ltac:(lia)).
  rewrite app_length. cbn [length]. rewrite app_length. cbn [length]. rewrite app_length. cbn [length]. lia.
Qed.
Lemma group_chars t g c : group t g -> In c t -> 48 <= c <= 102 /\ c <> 91 /\ c <> 93.
Proof. intros (H & _) Hc. destruct (hexadecimal_facts t g H) as (_ & HD & _). destruct (HD c Hc) as (d & Hd). inversion Hd; subst; lia. Qed.
Lemma join_chars ts gs c : Forall2 group ts gs -> In c (join 58 ts) -> c <> 91 /\ c <> 93.
Proof.
  induction 1 as [|t g ts gs Ht HF IH]; intros Hc; [destruct Hc|]. destruct ts as [|u ts]; [cbn [join] in Hc; pose proof (group_chars t g c Ht Hc); lia|].
  change (join 58 (t :: u :: ts)) with (t ++ 58 :: join 58 (u :: ts)) in Hc. apply in_app_or in Hc. destruct Hc as [Hc|[<-|Hc]]; [pose proof (group_chars t g c Ht Hc); lia|lia|auto].
Qed.
Lemma v6_chars gs t c : v6_text gs t -> In c t -> c <> 91 /\ c <> 93.
Proof.
  intros ([[ts L HF|pre tp post tq H1 H2 HL E]|(-> & _)] & _) Hc.
  - eapply join_chars; eassumption.
  - apply in_app_or in Hc. destruct Hc as [Hc|[<-|[<-|Hc]]]; try lia; eapply join_chars; [exact H1|exact Hc|exact H2|exact Hc].
  - destruct Hc as [<-|[<-|[]]]; lia.
Qed.

(** * inet_addr *)
Lemma digit_dec c base : 48 <= c <= 57 -> c - 48 < base -> digit c < base.
Proof. intros H1 H2. unfold digit. assert (E : (48 <=? c) && (c <=? 57) = true) by lia. rewrite E. lia. Qed.
Definition at_dot (r : list Z) : Prop := r = [] \/ exists r', r = 46 :: r'.
Lemma at_dot_stops base r : base <= 99 -> at_dot r -> stops base r.
Proof. intros Hb [->|(r' & ->)]; cbn; [exact I|]. change (digit 46) with 99. lia. Qed.
Lemma strtoul0_plain t v r : plain t v -> at_dot r -> strtoul0 (t ++ r) = (v, r).
Proof.
  intros (HD & HZ) Hr. pose proof (decimal_facts t v HD) as (N & HC & _ & _). pose proof (decimal_base t v HD) as HV. destruct t as [|c t]; [contradiction|]. unfold strtoul0.
  cbn [app nth]. destruct (Z.eqb_spec c 48) as [->|Nc].
  - specialize (HZ t eq_refl). subst t. cbn [app nth].
    assert (E : (nth 0 r 0 =? 120) || (nth 0 r 0 =? 88) = false) by (destruct Hr as [->|(r' & ->)]; reflexivity). rewrite E. cbn [andb].
    change (48 :: r) with ([48] ++ r). rewrite take_base_app; [|intros c [<-|[]]; vm_compute; reflexivity|apply at_dot_stops; [lia|exact Hr]]. unfold base_value in *. cbn in HV |- *. rewrite <- HV. reflexivity.
  - change (c :: t ++ r) with ((c :: t) ++ r). rewrite take_base_app; [rewrite HV; reflexivity| |apply at_dot_stops; [lia|exact Hr]]. intros x Hx. specialize (HC x Hx). apply digit_dec; lia.
Qed.
Lemma head_digit t v r : decimal t v -> digit (nth 0 (t ++ r) 0) <? 10 = true.
Proof. intros HD. pose proof (decimal_facts t v HD) as (N & HC & _ & _). destruct t as [|c t]; [contradiction|]. cbn [app nth]. specialize (HC c (or_introl eq_refl)). apply Z.ltb_lt, digit_dec; lia. Qed.
Lemma inet_parts_dot n t v r : plain t v -> is_byte v -> inet_parts (S n) (t ++ 46 :: r) = match inet_parts n r with None => None | Some (vs, l) => Some (v :: vs, l) end.
Proof.
  intros H HB. unfold is_byte in HB. cbn [inet_parts]. rewrite (head_digit t v _ (proj1 H)), (strtoul0_plain t v _ H) by (right; eauto). assert (E1 : 4294967295 <? v = false) by lia. assert (E2 : 255 <? v = false) by lia. rewrite E1, E2. change (46 =? 46) with true. reflexivity.
Qed.
Lemma inet_parts_end n t v : plain t v -> is_byte v -> inet_parts n t = Some ([v], []).
Proof.
  intros H HB. unfold is_byte in HB. assert (E1 : 4294967295 <? v = false) by lia. pose proof (head_digit t v [] (proj1 H)) as E2. pose proof (strtoul0_plain t v [] H ltac:(left; reflexivity)) as E3. rewrite app_nil_r in E2, E3.
  destruct n; cbn [inet_parts]; rewrite E2, E3, E1; reflexivity.
Qed.
Lemma inet_addr_ok a t : dotted_plain a t -> inet_addr t = a.
Proof.
  intros H. destruct (plain4 a t H) as (t0 & t1 & t2 & t3 & a0 & a1 & a2 & a3 & -> & -> & P0 & P1 & P2 & P3 & B0 & B1 & B2 & B3).
  unfold inet_addr. rewrite (inet_parts_dot _ t0 a0), (inet_parts_dot _ t1 a1), (inet_parts_dot _ t2 a2), (inet_parts_end _ t3 a3) by assumption. cbn [removelast length last app Nat.sub]. unfold is_byte in *.
  change (256 ^ Z.of_nat 1) with 256. assert (E : a3 <? 256 = true) by lia. rewrite E. cbn [be_bytes app]. rewrite Z.mod_small by lia. reflexivity.
Qed.

(** * The port *)
Lemma scan_hu_ok p v : decimal p v -> v < 65536 -> scan_hu p = Some v.
Proof.
  intros H Hv. pose proof (decimal_facts p v H) as (_ & _ & _ & H0). unfold scan_hu. pose proof (scan_dec_ok p v [] H I) as E. rewrite app_nil_r in E. rewrite E.
  assert (E1 : (18446744073709551615 <? v) || (v <? -18446744073709551615) = false) by lia. rewrite E1, Z.mod_small by lia. reflexivity.
Qed.
Lemma port_default sport dport s : ~ In 58 s -> 0 <= dport < 65536 -> port_of sport dport s = dport.
Proof. intros H Hd. unfold port_of. rewrite (str_chr_none 58 s H). apply Z.mod_small. exact Hd. Qed.
Lemma port_given sport dport t p v : ~ In 58 t -> decimal p v -> v < 65536 -> port_of sport dport (t ++ 58 :: p) = v.
Proof. intros H HD Hv. unfold port_of. rewrite (str_chr_some 58 t p H). cbn [tl]. rewrite (scan_hu_ok p v HD Hv). reflexivity. Qed.

(** * The conversion *)
Lemma v6_text_num stale gs t : v6_text gs t -> exists code, v6_to_num stale t = Ret (code, group_bytes gs).
Proof.
  intros ([H|(-> & ->)] & _); [|exists 0; apply C54_unspecified_refuted]. exists 16. apply (C54_reads_partial stale gs [] t); [intros c []|exact H].
Qed.
Lemma family_v4 stale a t r : dotted_plain a t -> (forall c, In c r -> c <> 91) -> stops 10 r -> get_family stale (t ++ r) = Some false.
Proof.
  intros H Hr Hs. unfold get_family. rewrite str_chr_none; [|intros X; apply in_app_or in X; destruct X as [X|X]; [destruct (plain_chars a t _ H X); lia|apply (Hr _ X); reflexivity]].
  rewrite (v4_to_num_ok stale a t r (plain_dotted a t H) Hs). reflexivity.
Qed.
Lemma convert_ok stale sport dport s x : 0 <= dport < 65536 -> denotes dport s x -> convert stale sport dport s = Ret (Some x).
Proof.
  intros Hd [a t H|a t p v H HD Hv|gs t H|gs t p v H HD Hv]; unfold convert.
  - pose proof (family_v4 stale a t [] H ltac:(intros c []) I) as E. rewrite app_nil_r in E. rewrite E. assert (HN : ~ In 58 t) by (intros X; destruct (plain_chars a t _ H X); lia).
    rewrite take_until_end, (inet_addr_ok a t H), port_default; [reflexivity|assumption..|apply (plain_length a t H)].
  - assert (HP : forall c, In c (58 :: p) -> c <> 91) by (intros c [<-|X]; [lia|pose proof (decimal_digit p v c HD X); lia]).
    rewrite (family_v4 stale a t (58 :: p) H HP) by (vm_compute; discriminate). assert (HN : ~ In 58 t) by (intros X; destruct (plain_chars a t _ H X); lia).
    rewrite take_until_at, (inet_addr_ok a t H), port_given with (v := v); [reflexivity|assumption..|apply (plain_length a t H)].
  - unfold get_family. cbn [str_chr]. rewrite Z.eqb_refl. assert (HN : ~ In 93 t) by (intros X; apply (proj2 (v6_chars gs t _ H X)); reflexivity).
    change (91 =? 93) with false. cbv iota. rewrite str_chr_some by exact HN. cbn [tl]. rewrite take_until_at; [|exact HN|apply H].
    destruct (v6_text_num stale gs t H) as (code & ->). cbn [bind snd]. rewrite port_default; [reflexivity| |exact Hd]. intros [X|[]]; discriminate.
  - unfold get_family. cbn [str_chr]. rewrite Z.eqb_refl. assert (HN : ~ In 93 t) by (intros X; apply (proj2 (v6_chars gs t _ H X)); reflexivity).
    change (91 =? 93) with false. cbv iota. rewrite str_chr_some by exact HN. cbn [tl]. rewrite take_until_at; [|exact HN|apply H].
    destruct (v6_text_num stale gs t H) as (code & ->). cbn [bind snd]. change (93 :: 58 :: p) with ([93] ++ 58 :: p). rewrite port_given with (v := v); [reflexivity|intros [X|[]]; discriminate|assumption..].
Qed.

(** * Rejections *)
Lemma take_base_split base s : forall d l, take_base base s = (d, l) -> s = d ++ l.
Proof. induction s as [|c s IH]; cbn [take_base]; intros d l E; [inversion E; reflexivity|]. destruct (digit c <? base); [|inversion E; reflexivity]. destruct (take_base base s) as (d', l') eqn:E'. inversion E; subst. cbn [app]. f_equal. apply IH. reflexivity. Qed.
Lemma scan_d_suffix s v l : scan_d s = Some (v, l) -> exists p, s = p ++ l.
Proof.
  unfold scan_d, scan_num. assert (H1 : exists p, s = p ++ skip_space s). { induction s as [|c s (p & IH)]; [exists []; reflexivity|]. cbn [skip_space]. destruct (is_space c); [exists (c :: p); cbn [app]; f_equal; exact IH|exists []; reflexivity]. }
  destruct H1 as (p1 & H1). assert (H2 : exists q, skip_space s = q ++ snd (take_sign (skip_space s))). { destruct (skip_space s) as [|c r]; [exists []; reflexivity|]. destruct (Z.eq_dec c 45) as [->|N1]; [exists [45]; reflexivity|]. destruct (Z.eq_dec c 43) as [->|N2]; [exists [43]; reflexivity|]. rewrite take_sign_hd by assumption. exists []. reflexivity. }
  destruct H2 as (p2 & H2). destruct (take_sign (skip_space s)) as (neg, t). cbn [snd] in H2. rewrite (take_prefix_no 10 t) by lia. destruct (take_base 10 t) as ([|c d], l') eqn:E; [discriminate|]. intros X.
  assert (l' = l) by (destruct neg; congruence). subst l'. apply take_base_split in E. exists (p1 ++ p2 ++ c :: d). rewrite H1 at 1. rewrite H2, E. rewrite <- !app_assoc. reflexivity.
Qed.
Lemma scan_list_dots n : forall s, (length (scan_list scan_d 46 n s) <= S (count_occ Z.eq_dec s (46)%Z))%nat.
Proof.
  induction n as [|n IH]; intros s; cbn [scan_list]; [cbn [length]; lia|]. destruct (scan_d s) as [(v, l)|] eqn:E; [|cbn [length]; lia]. destruct (scan_d_suffix s v l E) as (p & ->). cbn [length]. rewrite count_occ_app.
  destruct n as [|n]; [cbn [length]; lia|]. destruct l as [|c l]; [cbn [length]; lia|]. destruct (Z.eqb_spec c 46) as [->|]; [|cbn [length]; lia]. specialize (IH l). cbn [count_occ]. destruct (Z.eq_dec 46 46); [lia|contradiction].
Qed.
Lemma convert_bad stale sport dport s : not_address s -> convert stale sport dport s = Ret None.
Proof.
  unfold convert, get_family. intros [(N & H)|(H1 & H2)].
  - rewrite (str_chr_none 91 s N). unfold v4_to_num. cbn [fst]. assert (E : (length (scan_list scan_d 46 4 s) < 4)%nat).
    { destruct H as [H|(b & c & r & -> & Hb & H1 & H2 & H3 & H4 & H5)]; [pose proof (scan_list_dots 4 s); lia|]. cbn [scan_list].
      assert (Es : skip_space (b ++ c :: r) = c :: r). { induction b as [|x b IH]; cbn [app skip_space]; [assert (X : is_space c = false) by (unfold is_space; lia); rewrite X; reflexivity|]. assert (X : is_space x = true) by (unfold is_space; pose proof (Hb x (or_introl eq_refl)); lia). rewrite X. apply IH; [intros Y; apply N; right; exact Y|]. intros y Hy. apply Hb. right. exact Hy. }
      assert (X : scan_d (b ++ c :: r) = None). { unfold scan_d, scan_num. rewrite Es, take_sign_hd by assumption. rewrite (take_prefix_no 10) by lia. cbn [take_base]. assert (D : digit c <? 10 = false). { unfold digit. assert (D : (48 <=? c) && (c <=? 57) = false) by lia. rewrite D. destruct ((65 <=? c) && (c <=? 70)) eqn:?; [lia|]. destruct ((97 <=? c) && (c <=? 102)) eqn:?; lia. } rewrite D. reflexivity. }
      rewrite X. cbn [length]. lia. }
    destruct (Z.eqb_spec (Z.of_nat (length (scan_list scan_d 46 4 s))) 4); [lia|reflexivity].
  - destruct (str_chr_in 91 s H1) as (r & ->). rewrite (str_chr_none 93 s H2). reflexivity.
Qed.

(** * Lists *)
Lemma add_texts_ok junk dport items : 0 <= dport < 65536 -> forall i a l, addresses dport items l -> al_add_texts junk i dport a items = Ret (mk_al (al_list a ++ l) (al_counter a)).
Proof.
  intros Hd. induction items as [|x items IH]; intros i a l H; cbn [al_add_texts]; [inversion H; subst; rewrite app_nil_r; destruct a; reflexivity|]. unfold al_add_text. inversion H as [|? ? y l' H1 H2|? ? ? H1 H2]; subst.
  - rewrite (convert_ok _ _ dport x y Hd H1). cbn [bind]. rewrite (IH (S i) _ l' H2). unfold al_add. cbn [al_list al_counter]. rewrite <- app_assoc. reflexivity.
  - rewrite (convert_bad _ _ dport x H1). cbn [bind]. apply IH. exact H2.
Qed.
Lemma open_loop_ok tcp os junk items : forall i o l, opens os i items l ->
  exists cl, open_loop tcp os junk i o items = Ret (mk_op (op_in o ++ l) (op_closed o ++ cl) (op_lost o) (existsb (fun x => sa_v6 (snd x)) l || op_v6 o)).
Proof.
  induction items as [|x items IH]; intros i o l H; cbn [open_loop].
  - inversion H; subst. exists []. rewrite !app_nil_r. destruct o; reflexivity.
  - inversion H as [|? ? ? a fd l' H1 H2 H3|? ? ? a ? H1 H2 H3|? ? ? ? H1 H2]; subst.
    + rewrite (convert_ok _ _ 53 x a ltac:(lia) H1). cbn [bind]. rewrite H2. destruct (IH (S i) (mk_op (op_in o ++ [(fd, a)]) (op_closed o) (op_lost o) (sa_v6 a || op_v6 o)) l' H3) as (cl & ->). exists cl. cbn [op_in op_closed op_lost op_v6 existsb snd]. rewrite <- app_assoc. cbn [app].
      do 2 f_equal. destruct (sa_v6 a), (op_v6 o), (existsb (fun x => sa_v6 (snd x)) l'); reflexivity.
    + rewrite (convert_ok _ _ 53 x a ltac:(lia) H1). cbn [bind]. destruct H2 as [->|(fd & ->)].
      * destruct (IH (S i) o l H3) as (cl & ->). eauto.
      * destruct (IH (S i) (mk_op (op_in o) (op_closed o ++ [fd]) (op_lost o) (op_v6 o)) l H3) as (cl & ->). cbn [op_in op_closed op_lost op_v6]. exists (fd :: cl). rewrite <- app_assoc. reflexivity.
    + rewrite (convert_bad _ _ 53 x H1). cbn [bind]. apply IH. exact H2.
Qed.
