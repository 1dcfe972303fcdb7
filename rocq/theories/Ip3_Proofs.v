From Verif Require Import Base BaseFacts ListFacts List2Facts Hash_Model Ttl_Model Ttl_Spec Ttl_Proofs Addr_Model Addr_Spec Addr_Proofs Addr2_Proofs Addr_Props Bst_Model Bst_Proofs Parser_Model Parser_Spec Ip_Model Ip_Spec Ip_Proofs Ip2_Proofs.
Require Import ZifyBool ZifyNat Permutation.

(** * The characters of addresses *)
Lemma join_in sep ts c : In c (join sep ts) -> c = sep \/ exists t, In t ts /\ In c t.
Proof.
  induction ts as [|t ts IH]; cbn [join]; [contradiction|]. destruct ts as [|t2 ts].
  - intros H. right. exists t. split; [left; reflexivity|exact H].
  - intros H. apply in_app_iff in H. destruct H as [H|[H|H]]; [right; exists t; split; [left; reflexivity|exact H]|left; auto|]. destruct (IH H) as [X|(x & H1 & H2)]; [auto|]. right. exists x. split; [right; exact H1|exact H2].
Qed.
Lemma decimal_chars ds v : decimal ds v -> forall c, In c ds -> 48 <= c <= 57.
Proof. induction 1 as [d Hd|ds v d H IH Hd]; intros c Hc; [destruct Hc as [<-|[]]; lia|]. apply in_app_iff in Hc. destruct Hc as [Hc|[<-|[]]]; [auto|lia]. Qed.
Definition hexchar (c : Z) : Prop := 48 <= c <= 57 \/ 65 <= c <= 70 \/ 97 <= c <= 102.
Lemma hexit_char c d : hexit c d -> hexchar c.
Proof. unfold hexchar. destruct 1; lia. Qed.
Lemma hex_chars ds v : hexadecimal ds v -> forall c, In c ds -> hexchar c.
Proof. induction 1 as [c d Hd|ds v c d H IH Hd]; intros x Hx; [destruct Hx as [<-|[]]; apply (hexit_char _ _ Hd)|]. apply in_app_iff in Hx. destruct Hx as [Hx|[<-|[]]]; [auto|apply (hexit_char _ _ Hd)]. Qed.
Lemma dotted_chars a t : dotted a t -> (forall c, In c t -> c = 46 \/ 48 <= c <= 57) /\ In 46 t.
Proof.
  intros (ts & L & HB & HF & ->). split.
  - intros c Hc. destruct (join_in _ _ _ Hc) as [->|(x & H1 & H2)]; [auto|]. right. clear - HF H1 H2. induction HF as [|y v ys vs Hy HF IH]; [contradiction|]. destruct H1 as [->|H1]; [apply (decimal_chars _ _ Hy _ H2)|auto].
  - destruct (list4 a L) as (a0 & a1 & a2 & a3 & ->). inversion HF as [|t0 ? r0 ? D0 HF0]; subst. inversion HF0 as [|t1 ? r1 ? D1 HF1]; subst. cbn [join]. apply in_app_iff. right. left. reflexivity.
Qed.
Lemma groups_chars ts gs : Forall2 group ts gs -> forall c, In c (join 58 ts) -> c = 58 \/ hexchar c.
Proof.
  intros HF c Hc. destruct (join_in _ _ _ Hc) as [->|(x & H1 & H2)]; [auto|]. right. clear - HF H1 H2. induction HF as [|y v ys vs (Hy & _) HF IH]; [contradiction|]. destruct H1 as [->|H1]; [apply (hex_chars _ _ Hy _ H2)|auto].
Qed.
Lemma form_chars gs t : v6_form gs t -> (forall c, In c t -> c = 58 \/ hexchar c) /\ In 58 t.
Proof.
  intros [ts L HF|pre tp post tq H1 H2 HL _].
  - split; [apply (groups_chars ts gs HF)|]. inversion HF as [|t0 g0 r0 ? D0 HF0]; subst; [discriminate|]. inversion HF0 as [|t1 ? r1 ? D1 HF1]; subst; [discriminate|]. cbn [join]. apply in_app_iff. right. left. reflexivity.
  - split; [|apply in_app_iff; right; left; reflexivity]. intros c Hc. apply in_app_iff in Hc. destruct Hc as [Hc|[<-|[<-|Hc]]]; [apply (groups_chars _ _ H1 c Hc)|auto|auto|apply (groups_chars _ _ H2 c Hc)].
Qed.
Lemma form_bytes gs t : v6_form gs t -> length (group_bytes gs) = 16%nat /\ Forall is_byte (group_bytes gs).
Proof.
  intros H. assert (L : length gs = 8%nat). { destruct H as [ts L HF|pre tp post tq H1 H2 HL ->]; [exact L|]. rewrite !app_length, repeat_length. lia. }
  pose proof (form_range gs t H) as HR. clear H. split.
  - assert (E : forall l : list Z, length (group_bytes l) = (2 * length l)%nat) by (induction l as [|x l IH]; [reflexivity|]; cbn [group_bytes flat_map app length] in *; unfold group_bytes in IH; rewrite IH; lia). rewrite E, L. reflexivity.
  - clear L. induction HR as [|g gs Hg HR IH]; [constructor|]. cbn [group_bytes flat_map app]. constructor; [|constructor; [|exact IH]]; unfold is_byte; [|apply Z.mod_pos_bound; lia].
    split; [apply Z.div_pos; lia|apply Z.div_lt_upper_bound; lia].
Qed.
Lemma ip_text_address a t : ip_text a t -> address a.
Proof. intros [? ? (ts & L & HB & _)|gs ? H]; split; auto; [right|]; apply (form_bytes gs _ H). Qed.

Lemma first_mark_ok c s r : (c = 46 \/ c = 58) -> In c s -> (forall x, In x s -> x = c \/ x <> 46 /\ x <> 58) -> exists u x, s = u ++ x /\ first_mark (s ++ r) = Some (c, x ++ r).
Proof.
  intros Hc. induction s as [|y s IH]; intros HI HA; [contradiction|]. cbn [app first_mark]. destruct (HA y (or_introl eq_refl)) as [->|(N1 & N2)].
  - exists [], (c :: s). split; [reflexivity|]. destruct ((c =? 46) || (c =? 58)) eqn:E; [reflexivity|]. lia.
  - destruct ((y =? 46) || (y =? 58)) eqn:E; [lia|]. destruct IH as (u & x & -> & ->); [destruct HI as [->|HI]; [lia|exact HI]|intros z Hz; apply HA; right; exact Hz|]. exists (y :: u), x. auto.
Qed.
Lemma str_chr_none c s : ~ In c s -> str_chr c s = None.
Proof. induction s as [|x s IH]; intros H; [reflexivity|]. cbn [str_chr]. destruct (Z.eqb_spec x c) as [->|N]; [exfalso; apply H; left; reflexivity|]. apply IH. intros X. apply H. right. exact X. Qed.
Lemma str_chr_at c s r : ~ In c s -> str_chr c (s ++ c :: r) = Some (c :: r).
Proof. induction s as [|x s IH]; intros H; cbn [app str_chr]; [rewrite Z.eqb_refl; reflexivity|]. destruct (Z.eqb_spec x c) as [->|N]; [exfalso; apply H; left; reflexivity|]. apply IH. intros X. apply H. right. exact X. Qed.
Lemma str_chr_some c s : In c s -> exists w, str_chr c s = Some w.
Proof. induction s as [|x s IH]; intros H; [contradiction|]. cbn [str_chr]. destruct (Z.eqb_spec x c); [eauto|]. destruct H as [->|H]; [contradiction|auto]. Qed.
Lemma cut_none s : ~ In 47 s -> cut_slash s = (s, []).
Proof. induction s as [|x s IH]; intros H; [reflexivity|]. cbn [cut_slash]. destruct (Z.eqb_spec x 47) as [->|N]; [exfalso; apply H; left; reflexivity|]. rewrite IH; [reflexivity|]. intros X. apply H. right. exact X. Qed.
Lemma cut_at s r : ~ In 47 s -> cut_slash (s ++ 47 :: r) = (s, r).
Proof. induction s as [|x s IH]; intros H; cbn [app cut_slash]; [reflexivity|]. destruct (Z.eqb_spec x 47) as [->|N]; [exfalso; apply H; left; reflexivity|]. rewrite IH; [reflexivity|]. intros X. apply H. right. exact X. Qed.
Lemma text_no_slash a t : ip_text a t -> ~ In 47 t /\ ~ In 37 t.
Proof.
  intros [b u H|gs u H].
  - destruct (dotted_chars _ _ H) as (H1 & _). split; intros X; destruct (H1 _ X); lia.
  - destruct (form_chars _ _ H) as (H1 & _). unfold hexchar in H1. split; intros X; destruct (H1 _ X); lia.
Qed.

(** * Parsing *)
Section Parse.
Context (stale : nat -> Z).
Lemma parse_v4 a t : dotted a t -> ip_parse stale t = Ret (Some (from4 a)).
Proof.
  intros H. destruct (dotted_chars _ _ H) as (H1 & H2). destruct (first_mark_ok 46 t [] ltac:(auto) H2) as (u & x & E & F); [intros y Hy; destruct (H1 y Hy); [auto|right; lia]|].
  rewrite app_nil_r in F. unfold ip_parse. rewrite F. cbn [Z.eqb Pos.eqb]. pose proof (v4_to_num_ok stale a t [] H I) as V. rewrite app_nil_r in V. rewrite V. reflexivity.
Qed.
Lemma parse_v6 gs t : v6_form gs t -> ip_parse stale t = Ret (Some (from6 (group_bytes gs))).
Proof.
  intros H. destruct (form_chars _ _ H) as (H1 & H2). destruct (first_mark_ok 58 t [] ltac:(auto) H2) as (u & x & E & F); [intros y Hy; destruct (H1 y Hy); [auto|right; unfold hexchar in *; lia]|].
  rewrite !app_nil_r in F. unfold ip_parse. rewrite F. cbn [Z.eqb Pos.eqb].
  rewrite str_chr_none; [|intros X; destruct (H1 37); [rewrite E; apply in_app_iff; right; exact X|lia|unfold hexchar in *; lia]].
  pose proof (v6_to_num_ok stale gs t [] H) as V. rewrite app_nil_r in V. rewrite V; [reflexivity| |]; [split; [intros []|left; reflexivity]|intros X; contradiction].
Qed.
Lemma parse_zone gs t z : v6_form gs t -> (forall u, t <> u ++ [58]) -> ~ In 58 z -> ip_parse stale (t ++ 37 :: z) = Ret (Some (mk_ip (group_bytes gs) (Zone z))).
Proof.
  intros H Ht Hz. destruct (form_chars _ _ H) as (H1 & H2). destruct (first_mark_ok 58 t (37 :: z) ltac:(auto) H2) as (u & x & E & F); [intros y Hy; destruct (H1 y Hy); [auto|right; unfold hexchar in *; lia]|].
  unfold ip_parse. rewrite F. cbn [Z.eqb Pos.eqb].
  rewrite str_chr_at; [|intros X; destruct (H1 37); [rewrite E; apply in_app_iff; right; exact X|lia|unfold hexchar in *; lia]]. cbn [tl].
  rewrite (v6_to_num_ok stale gs t (37 :: z) H); [reflexivity| |]; [split; [intros [X|X]; [lia|auto]|right; eauto]|auto].
Qed.
Lemma atoi_ok ds n : decimal ds n -> n < 2147483648 -> atoi ds = n.
Proof.
  intros H Hn. unfold atoi. pose proof (scan_d_ok ds n [] H ltac:(lia) I) as E. rewrite app_nil_r in E. rewrite E. destruct (decimal_facts ds n H) as (_ & _ & _ & H0). rewrite Z.mod_small by lia. lia.
Qed.
(** The bytes changed by the loop are outside of the prefix. *)
Lemma mask_v4 l a : l < 16 -> mask_loop l (prefix4 ++ a) = prefix4 ++ a.
Proof.
  intros H. cbn [prefix4 repeat app mask_loop]. destruct (0 <? l) eqn:E0; [|reflexivity]. unfold mask_byte at 1. rewrite Z.land_0_l. f_equal. destruct (0 <? l - 8) eqn:E1; [|reflexivity]. unfold mask_byte. rewrite Z.land_0_l. f_equal.
  destruct (Z.ltb_spec 0 (l - 8 - 8)); [lia|reflexivity].
Qed.
Lemma mask_v6 l b0 b1 r : 10 <= l < 16 -> is_byte b0 -> is_byte b1 -> exists b1', is_byte b1' /\ mask_loop l (b0 :: b1 :: r) = b0 :: b1' :: r.
Proof.
  intros H H0 H1. exists (mask_byte (l - 8) b1). unfold is_byte in *. split.
  - unfold mask_byte. assert (S : 0 <= 255 - Z.shiftr 255 (if 8 <=? l - 8 then 8 else l - 8)).
    { rewrite Z.shiftr_div_pow2 by ifs. assert (255 / 2 ^ (if 8 <=? l - 8 then 8 else l - 8) <= 255); [|lia]. apply Z.div_le_upper_bound; [apply Z.pow_pos_nonneg; ifs|]. pose proof (Z.pow_pos_nonneg 2 (if 8 <=? l - 8 then 8 else l - 8) ltac:(lia) ltac:(ifs)). nia. }
    split; [apply Z.land_nonneg; lia|].
    assert (Z.land b1 (255 - Z.shiftr 255 (if 8 <=? l - 8 then 8 else l - 8)) <= b1); [|lia].
    destruct (Z.eq_dec b1 0) as [->|N]; [rewrite Z.land_0_l; lia|]. 
    assert (Z.ldiff b1 (255 - Z.shiftr 255 (if 8 <=? l - 8 then 8 else l - 8)) >= 0) by (apply Z.le_ge, Z.ldiff_nonneg; left; lia).
    pose proof (Z.lor_ldiff_and b1 (255 - Z.shiftr 255 (if 8 <=? l - 8 then 8 else l - 8))) as E.
    pose proof (Z.add_nocarry_lxor (Z.land b1 (255 - Z.shiftr 255 (if 8 <=? l - 8 then 8 else l - 8))) (Z.ldiff b1 (255 - Z.shiftr 255 (if 8 <=? l - 8 then 8 else l - 8)))) as E2.
    assert (Z0' : Z.land (Z.land b1 (255 - Z.shiftr 255 (if 8 <=? l - 8 then 8 else l - 8))) (Z.ldiff b1 (255 - Z.shiftr 255 (if 8 <=? l - 8 then 8 else l - 8))) = 0).
    { apply Z.bits_inj'. intros i Hi. rewrite !Z.land_spec, Z.ldiff_spec, Z.bits_0. destruct (Z.testbit b1 i), (Z.testbit (255 - Z.shiftr 255 (if 8 <=? l - 8 then 8 else l - 8)) i); reflexivity. }
    specialize (E2 Z0'). rewrite Z.lxor_lor in E2 by exact Z0'. rewrite Z.lor_comm in E2. rewrite E in E2. lia.
  - cbn [mask_loop]. destruct (Z.ltb_spec 0 l); [|lia]. destruct (Z.ltb_spec 0 (l - 8)); [|lia]. unfold mask_byte at 1. destruct (Z.leb_spec 8 l); [|lia]. change (255 - Z.shiftr 255 8) with (Z.ones 8). rewrite Z.land_ones by lia. rewrite Z.mod_small by lia. do 2 f_equal.
    destruct r as [|b2 r]; [reflexivity|]. cbn [mask_loop]. destruct (Z.ltb_spec 0 (l - 8 - 8)); [lia|reflexivity].
Qed.
Lemma top_head b0 x y p : 0 <= p <= 8 -> is_byte b0 -> Forall is_byte x -> Forall is_byte y -> length x = length y -> top (b0 :: x) p = top (b0 :: y) p.
Proof.
  intros Hp H0 Hx Hy L. assert (H : forall x, Forall is_byte x -> top (b0 :: x) p = b0 / 2 ^ (8 - p)).
  { clear x y Hx Hy L. intros x Hx. unfold top, width. cbn [length]. rewrite value_cons, pow256. pose proof (value_range x Hx) as R. rewrite pow256 in R. set (w := 8 * Z.of_nat (length x)) in *.
    replace (8 * Z.of_nat (S (length x)) - p) with (w + (8 - p)) by lia. rewrite Z.pow_add_r by lia. rewrite <- Z.div_div by (apply Z.pow_nonzero || apply Z.pow_pos_nonneg; lia). f_equal.
    symmetry. apply Z.div_unique with (value x); [left; lia|ring]. }
  rewrite (H x Hx), (H y Hy). reflexivity.
Qed.
End Parse.

(** What a rule becomes. *)
Definition act_seen (a : action) : Z * option (list Z) := match a with Block => (1, None) | Replace b => (2, Some b) end.
Definition stands_set (g : option range) (s : ipset) : Prop :=
  is_valid (set_ip s) = true /\ length (ip_bytes (set_ip s)) = 16%nat /\ Forall is_byte (ip_bytes (set_ip s)) /\ 0 <= set_bits s <= bit_length (set_ip s) /\
  match g with
  | Some g => address (r_base g) /\ has_zone (set_ip s) = false /\ bit_length (set_ip s) = width (r_base g) /\ set_bits s = r_len g /\
      top (skipn (if bit_length (set_ip s) =? 32 then 12 else 0) (ip_bytes (set_ip s))) (r_len g) = top (r_base g) (r_len g)
  | None => has_zone (set_ip s) = true /\ set_bits s = 128
  end.
Lemma stands_v4 a n : length a = 4%nat -> Forall is_byte a -> 0 <= n <= 32 -> stands_set (Some (mk_range a n)) (mk_set (from4 a) n).
Proof.
  intros L HB Hn. unfold stands_set. cbn [set_ip set_bits from4 ip_bytes is_valid ip_zone bit_length r_base r_len]. split; [reflexivity|]. split; [rewrite app_length, L; reflexivity|].
  split; [apply Forall_app; split; [unfold prefix4, is_byte; repeat constructor; lia|exact HB]|]. split; [exact Hn|]. split; [split; [left; exact L|exact HB]|]. split; [reflexivity|]. split; [unfold width; rewrite L; reflexivity|]. split; reflexivity.
Qed.
Lemma stands_v6 a b n : length a = 16%nat -> Forall is_byte a -> length b = 16%nat -> Forall is_byte b -> 0 <= n <= 128 -> top b n = top a n -> stands_set (Some (mk_range a n)) (mk_set (from6 b) n).
Proof.
  intros L HB Lb HB' Hn Ht. unfold stands_set. cbn [set_ip set_bits from6 ip_bytes is_valid ip_zone bit_length r_base r_len]. split; [reflexivity|]. split; [exact Lb|].
  split; [exact HB'|]. split; [exact Hn|]. split; [split; [right; exact L|exact HB]|]. split; [reflexivity|]. split; [unfold width; rewrite L; reflexivity|]. split; [reflexivity|exact Ht].
Qed.
Lemma set_parse_ok stale g t : rule_ip g t -> let (ip, p) := cut_slash t in exists s, set_parse stale ip p = Ret (Some s) /\ stands_set g s.
Proof.
  intros [a u H|a u n ds H Hd Hn|gs u z H Hu Hz1 Hz2].
  - rewrite cut_none by (apply (text_no_slash a u H)). unfold set_parse. destruct H as [a u H|gs u H].
    + rewrite (parse_v4 stale a u H). cbn [bind]. destruct H as (ts & L & HB & _). exists (mk_set (from4 a) 32). split; [reflexivity|]. replace (width a) with 32 by (unfold width; lia). apply stands_v4; auto; lia.
    + rewrite (parse_v6 stale gs u H). cbn [bind]. destruct (form_bytes gs u H) as (L & HB). exists (mk_set (from6 (group_bytes gs)) 128). split; [reflexivity|]. replace (width (group_bytes gs)) with 128 by (unfold width; lia). apply stands_v6; auto; lia.
  - rewrite cut_at by (apply (text_no_slash a u H)). destruct (decimal_facts ds n Hd) as (Hne & _ & _ & H0). unfold set_parse.
    destruct ds as [|d0 ds]; [contradiction|]. destruct H as [a u H|gs u H].
    + rewrite (parse_v4 stale a u H). cbn [bind]. rewrite (atoi_ok _ n Hd Hn). destruct H as (ts & L & HB & _). cbn [from4 bit_length is6 ip_zone ip_bytes].
      destruct (Z.ltb_spec n 0); [lia|]. set (n' := if 32 <? n then 32 else n). assert (En : n' = Z.min n (width a)) by (unfold n', width; ifs). assert (Hn' : 0 <= n' <= 32) by (unfold n'; ifs). rewrite <- En. clear En. clearbody n'.
      exists (mk_set (from4 a) n'). split; [|apply stands_v4; auto]. destruct (Z.ltb_spec n' 16); [rewrite mask_v4 by lia|]; reflexivity.
    + rewrite (parse_v6 stale gs u H). cbn [bind]. rewrite (atoi_ok _ n Hd Hn). destruct (form_bytes gs u H) as (L & HB). cbn [from6 bit_length is6 ip_zone ip_bytes].
      destruct (Z.ltb_spec n 0); [lia|]. set (n' := if 128 <? n then 128 else n). assert (En : n' = Z.min n (width (group_bytes gs))) by (unfold n', width; ifs). assert (Hn' : 0 <= n' <= 128) by (unfold n'; ifs). rewrite <- En. clear En. clearbody n'.
      set (a := group_bytes gs) in *. clearbody a.
      destruct (Z.ltb_spec (n' + 10) 16).
      * destruct a as [|b0 [|b1 r]]; try discriminate. inversion HB as [|? ? B0 HB1]; subst. inversion HB1 as [|? ? B1 HB2]; subst. destruct (mask_v6 (n' + 10) b0 b1 r ltac:(lia) B0 B1) as (b1' & B1' & ->).
        exists (mk_set (from6 (b0 :: b1' :: r)) n'). split; [reflexivity|]. apply stands_v6; auto. apply top_head; auto; lia.
      * exists (mk_set (from6 a) n'). split; [reflexivity|]. apply stands_v6; auto.
  - destruct (text_no_slash (group_bytes gs) u (it_v6 gs u H)) as (N1 & _). rewrite cut_none; [|intros X; apply in_app_iff in X; destruct X as [X|[X|X]]; [auto|lia|auto]].
    unfold set_parse. rewrite (parse_zone stale gs u z H Hu Hz1). cbn [bind]. destruct (form_bytes gs u H) as (L & HB).
    eexists. split; [reflexivity|]. unfold stands_set. cbn [set_ip set_bits ip_bytes is_valid ip_zone bit_length has_zone is6]. repeat (split; [first [reflexivity|assumption|lia]|]). reflexivity.
Qed.
Definition stands (r : rule) (e : ipelem) : Prop := stands_set (ru_range r) (el_set e) /\ seen e = act_seen (ru_act r).
Lemma stands_wf r e : stands r e -> wf e.
Proof. intros ((H1 & H2 & H3 & H4 & _) & _). constructor; assumption. Qed.
Lemma stands_covers r e a : stands r e -> address a -> (ecovers e a <-> rule_covers a r).
Proof.
  intros H Ha. pose proof (stands_wf r e H) as W. destruct (wf_width e W) as (Hw & _). destruct H as ((_ & _ & _ & _ & H) & _). unfold ecovers, rule_covers, covers. fold (eip e) (eff e) (ebits e) in H. destruct (ru_range r) as [g|].
  - destruct H as (Hb & Hz & Hl & Hp & Ht). fold (eff e) in Ht. rewrite Hz, Hp, Ht. rewrite Hl in Hw. assert (Ll : length (eff e) = length (r_base g)) by (unfold width in Hw; lia). rewrite Ll. unfold top. split.
    + intros (_ & L & E). split; [exact L|]. rewrite E. unfold width. rewrite L. reflexivity.
    + intros (L & E). split; [reflexivity|]. split; [exact L|]. rewrite E. unfold width. rewrite L. reflexivity.
  - destruct H as (Hz & _). rewrite Hz. intuition discriminate.
Qed.
Lemma stands_single r e : stands r e -> (is_single (el_set e) = true <-> single r).
Proof.
  intros ((H1 & _ & _ & H4 & H) & _). unfold is_single, single. destruct (ru_range r) as [g|].
  - destruct H as ((Hl & _) & _ & Hw & Hp & _). rewrite Hw, Hp. unfold width. lia.
  - destruct H as (Hz & ->). unfold has_zone, is6, bit_length in *. destruct (ip_zone (set_ip (el_set e))); try discriminate; cbn; intuition.
Qed.

(** * Adding rules *)
Definition singleb (r : rule) : bool := match ru_range r with Some g => r_len g =? width (r_base g) | None => true end.
Lemma singleb_ok r : singleb r = true <-> single r.
Proof. unfold singleb, single. destruct (ru_range r); [apply Z.eqb_eq|intuition]. Qed.
Definition table (c : ipchunk) (rs : list rule) : Prop :=
  exists l1 l2, holds (ic_addr c) l1 /\ holds (ic_cidr c) l2 /\ Forall2 stands (filter singleb rs) l1 /\ Forall2 stands (filter (fun r => negb (singleb r)) rs) l2.
Lemma table_init : table ipchunk_init [].
Proof. exists [], []. repeat split; try apply holds_init; constructor. Qed.
Definition add_rule (stale : nat -> Z) (c : ipchunk) (ip : list Z) (sub : option (list Z)) : outcome (Z * ipchunk) :=
  match sub with None => add_block stale c ip | Some s => add_subst stale c ip s end.
Lemma ipchunk_add_ok stale c rs r ip ty data : table c rs -> rule_ip (ru_range r) ip -> (ty, data) = act_seen (ru_act r) ->
  exists c', ipchunk_add stale c ip ty data = Ret (0, c') /\ table c' (rs ++ [r]).
Proof.
  intros (l1 & l2 & H1 & H2 & F1 & F2) Hr Ha. unfold ipchunk_add. pose proof (set_parse_ok stale _ _ Hr) as HP. destruct (cut_slash ip) as (i, p). destruct HP as (s & -> & Hs). cbn [bind].
  set (e := mk_elem s ty data). assert (He : stands r e) by (split; [exact Hs|exact Ha]). pose proof (stands_single r e He) as Hsg. cbn [el_set e] in Hsg. rewrite <- singleb_ok in Hsg.
  destruct (is_single s) eqn:E.
  - destruct (holds_add (ic_addr c) l1 e H1) as (a & b' & -> & H1'). cbn [bind snd]. eexists. split; [reflexivity|]. exists (l1 ++ [e]), l2. rewrite !filter_app. cbn [filter]. rewrite (proj1 Hsg eq_refl). cbn [negb]. rewrite app_nil_r.
    split; [exact H1'|]. split; [exact H2|]. split; [apply Forall2_app; auto|exact F2].
  - destruct (holds_add (ic_cidr c) l2 e H2) as (a & b' & -> & H2'). cbn [bind snd]. eexists. split; [reflexivity|]. exists l1, (l2 ++ [e]). rewrite !filter_app. cbn [filter].
    assert (Es : singleb r = false) by (destruct (singleb r); [discriminate (proj2 Hsg eq_refl)|reflexivity]). rewrite Es. cbn [negb]. rewrite app_nil_r.
    split; [exact H1|]. split; [exact H2'|]. split; [exact F1|apply Forall2_app; auto].
Qed.
Lemma ip_text_v6 a t : ip_text a t -> length a = 16%nat -> exists gs, v6_form gs t /\ a = group_bytes gs.
Proof. intros [b u (ts & L & _)|gs u H] L'; [lia|eauto]. Qed.
Lemma ip_text_v4 a t : ip_text a t -> length a = 4%nat -> dotted a t.
Proof. intros [b u H|gs u H] L'; [exact H|]. destruct (form_bytes gs u H). lia. Qed.
(** A colon tells the kinds apart. *)
Lemma rule_colon g t : rule_ip g t -> match g with Some g => (length (r_base g) = 4%nat /\ ~ In 58 t) \/ (length (r_base g) = 16%nat /\ In 58 t) | None => In 58 t end.
Proof.
  assert (T : forall a u, ip_text a u -> (length a = 4%nat /\ ~ In 58 u) \/ (length a = 16%nat /\ In 58 u)).
  { intros a u [b v H|gs v H].
    - left. destruct (dotted_chars _ _ H) as (H1 & _). destruct H as (ts & L & _). split; [exact L|]. intros X. destruct (H1 _ X); lia.
    - right. split; [apply (form_bytes gs v H)|apply (form_chars gs v H)]. }
  intros [a u H|a u n ds H Hd Hn|gs u z H Hu Hz1 Hz2]; cbn [r_base].
  - apply T, H.
  - destruct (T a u H) as [(L & N)|(L & N)]; [left|right]; (split; [exact L|]); [|apply in_app_iff; left; exact N].
    intros X. apply in_app_iff in X. destruct X as [X|[X|X]]; [auto|lia|]. pose proof (decimal_chars _ _ Hd _ X). lia.
  - apply in_app_iff. left. apply (form_chars gs u H).
Qed.
Lemma add_rule_ok stale c rs r ip sub : table c rs -> ip_rule_text r ip sub -> exists c', add_rule stale c ip sub = Ret (0, c') /\ table c' (rs ++ [r]).
Proof.
  intros HT (Hr & Ha). pose proof (rule_colon _ _ Hr) as HC. unfold add_rule. destruct r as [g act]. cbn [ru_range ru_act] in *. destruct act as [|b], sub as [t|]; cbn [action_text] in Ha; try contradiction.
  - apply ipchunk_add_ok; auto.
  - destruct Ha as (Hb & Hl). assert (K : (length b = 4%nat /\ ~ In 58 ip) \/ (length b = 16%nat /\ In 58 ip)) by (destruct g; [rewrite Hl; exact HC|auto]). unfold add_subst. destruct K as [(L & N)|(L & N)].
    + rewrite str_chr_none by exact N. pose proof (v4_to_num_ok stale b t [] (ip_text_v4 _ _ Hb L) I) as V. rewrite app_nil_r in V. rewrite V. cbn [snd]. apply ipchunk_add_ok; auto.
    + destruct (str_chr_some _ _ N) as (w & ->). destruct (ip_text_v6 _ _ Hb L) as (gs & Hf & ->). pose proof (v6_to_num_ok stale gs t [] Hf) as V. rewrite app_nil_r in V.
      rewrite V; [|split; [intros []|left; reflexivity]|intros X; contradiction]. cbn [bind snd]. apply ipchunk_add_ok; auto.
Qed.
