From Verif Require Import Base BaseFacts ListFacts List2Facts Ttl_Model Ttl_Spec Addr_Model Addr_Spec Addr_Proofs Addr2_Proofs Addr_Props Bst_Model Name_Model Parser_Model Parser_Spec Parser_Proofs Ip_Model Ip_Spec Ip_Proofs Ip2_Proofs Ip3_Proofs Ip4_Proofs Ip5_Proofs.
Require Import ZifyBool ZifyNat.

(** The rules are added one after the other, each with its "block" or "substitute" call. *)
Fixpoint add_all (stale : nat -> Z) (c : ipchunk) (l : list (list Z * option (list Z))) : outcome ipchunk :=
  match l with
  | [] => Ret c
  | (ip, sub) :: l' => let! r := add_rule stale c ip sub in if fst r =? 0 then add_all stale (snd r) l' else UBW
  end.
Definition written (rs : list rule) (l : list (list Z * option (list Z))) : Prop := Forall2 (fun r x => ip_rule_text r (fst x) (snd x)) rs l.
Lemma add_all_ok stale rs l : written rs l -> forall c rs0, table c rs0 -> exists c', add_all stale c l = Ret c' /\ table c' (rs0 ++ rs).
Proof.
  induction 1 as [|r (ip, sub) rs l H F IH]; intros c rs0 HT; [exists c; rewrite app_nil_r; auto|]. cbn [add_all]. destruct (add_rule_ok stale c rs0 r ip sub HT H) as (c1 & -> & HT1). cbn [bind fst snd]. change (0 =? 0) with true. cbv iota.
  destruct (IH c1 _ HT1) as (c' & E & HT'). exists c'. rewrite <- app_assoc in HT'. auto.
Qed.
Lemma configured stale rs l : written rs l -> exists c, add_all stale ipchunk_init l = Ret c /\ table c rs.
Proof. intros H. apply (add_all_ok stale rs l H ipchunk_init [] table_init). Qed.

(** * What a table says *)
Definition look_of (c : ipchunk) (a : list Z) : option action :=
  match ipchunk_find c a with Ret (Some (1, _)) => Some Block | Ret (Some (2, Some d)) => Some (Replace d) | _ => None end.
Lemma find_seen c rs a : table c rs -> address a -> exists o, ipchunk_find c a = Ret (option_map act_seen o) /\ look_of c a = o /\ forall act, o = Some act -> exists r, In r rs /\ rule_covers a r /\ ru_act r = act.
Proof.
  intros (l1 & l2 & H1 & H2 & F1 & F2) Ha. unfold look_of. rewrite (find_fetch c a Ha).
  destruct (fetch_rules_sound _ _ _ a H1 F1 Ha) as (o1 & -> & S1). cbn [bind]. destruct o1 as [e|].
  - destruct (S1 e eq_refl) as (r & Hr & Cr & Er). apply filter_In in Hr. rewrite Er. exists (Some (ru_act r)). split; [reflexivity|]. split; [destruct (ru_act r); reflexivity|]. intros act E. injection E as <-. exists r. intuition.
  - destruct (fetch_rules_sound _ _ _ a H2 F2 Ha) as (o2 & -> & S2). cbn [bind]. destruct o2 as [e|]; cbn [option_map].
    + destruct (S2 e eq_refl) as (r & Hr & Cr & Er). apply filter_In in Hr. rewrite Er. exists (Some (ru_act r)). split; [reflexivity|]. split; [destruct (ru_act r); reflexivity|]. intros act E. injection E as <-. exists r. intuition.
    + exists None. split; [reflexivity|]. split; [reflexivity|discriminate].
Qed.
Lemma filter_split2 {A} (f : A -> bool) rs : forall r1 x r2 y r3, filter f rs = r1 ++ x :: r2 ++ y :: r3 -> exists s1 s2 s3, rs = s1 ++ x :: s2 ++ y :: s3.
Proof.
  assert (One : forall rs r1 x r2, filter f rs = r1 ++ x :: r2 -> exists s1 s2, rs = s1 ++ x :: s2 /\ filter f s2 = r2).
  { clear rs. induction rs as [|z rs IH]; intros r1 x r2 E; cbn [filter] in E; [destruct r1; discriminate|]. destruct (f z).
    - destruct r1 as [|w r1]; injection E as E1 E2; subst; [exists [], rs; auto|]. destruct (IH _ _ _ E2) as (s1 & s2 & -> & H). exists (w :: s1), s2. auto.
    - destruct (IH _ _ _ E) as (s1 & s2 & -> & H). exists (z :: s1), s2. auto. }
  intros r1 x r2 y r3 E. destruct (One _ _ _ _ E) as (s1 & s2 & -> & E2). destruct (One _ _ _ _ E2) as (s3 & s4 & -> & _). exists s1, s3, s4. reflexivity.
Qed.
Lemma find_single c rs a r : table c rs -> address a -> first (fun r => single r /\ rule_covers a r) rs (Some r) -> ipchunk_find c a = Ret (Some (act_seen (ru_act r))).
Proof.
  intros (l1 & l2 & H1 & H2 & F1 & F2) Ha HF. rewrite (find_fetch c a Ha).
  destruct (fetch_rules _ _ _ a (Some r) H1 F1 Ha) as (o1 & -> & S1).
  - left. apply Forall_forall. intros x Hx. apply filter_In in Hx. apply singleb_ok, Hx.
  - apply (first_iff (fun r => single r /\ rule_covers a r)); [|apply first_filter; [|exact HF]; intros x (X & _); apply singleb_ok, X]. intros x Hx. apply filter_In in Hx. destruct Hx as (_ & Hx). apply singleb_ok in Hx. intuition.
  - cbn [bind]. destruct o1 as [e|]; [|discriminate]. injection S1 as S1. rewrite S1. reflexivity.
Qed.
Lemma find_range c rs a o : table c rs -> address a -> orderly rs -> (forall r, In r rs -> single r -> ~ rule_covers a r) -> first (rule_covers a) rs o ->
  ipchunk_find c a = Ret (option_map (fun r => act_seen (ru_act r)) o).
Proof.
  intros (l1 & l2 & H1 & H2 & F1 & F2) Ha HO HS HF. rewrite (find_fetch c a Ha).
  destruct (fetch_rules _ _ _ a None H1 F1 Ha) as (o1 & -> & S1).
  - left. apply Forall_forall. intros x Hx. apply filter_In in Hx. apply singleb_ok, Hx.
  - apply none_first. intros x Hx. apply filter_In in Hx. destruct Hx as (X1 & X2). apply HS; [exact X1|]. apply singleb_ok, X2.
  - destruct o1; [discriminate|]. cbn [bind]. assert (NS : forall x, negb (singleb x) = true <-> ~ single x) by (intros x; rewrite <- singleb_ok; destruct (singleb x); intuition discriminate).
    destruct (fetch_rules _ _ _ a o H2 F2 Ha) as (o2 & -> & S2).
    + right. split; [apply Forall_forall; intros x Hx; apply filter_In in Hx; apply NS, Hx|]. intros r1 r2 r3 x y E Hxy.
      assert (Ix : ~ single x /\ ~ single y). { split; apply NS; eapply (proj2 (A := In _ rs)); apply (filter_In (fun r => negb (singleb r))); rewrite E; rewrite !in_app_iff; cbn [In]; rewrite ?in_app_iff; cbn [In]; auto. }
      destruct (filter_split2 _ _ _ _ _ _ _ E) as (s1 & s2 & s3 & E2). apply (HO s1 s2 s3 x y E2); intuition.
    + apply (first_iff (fun r => ~ single r /\ rule_covers a r)).
      * intros x Hx. apply filter_In in Hx. destruct Hx as (_ & Hx). apply NS in Hx. intuition.
      * apply first_filter; [intros x (X & _); apply NS, X|]. apply (first_iff (rule_covers a)); [|exact HF]. intros x Hx. split; [intros X; split; [intros Y; apply (HS x Hx Y X)|exact X]|intuition].
    + cbn [bind]. rewrite S2. reflexivity.
Qed.

(** * C29: single addresses *)
(** For all rule sets: the first rule for exactly this address is the one found; with rules for single addresses only, nothing
    is found for the other addresses. *)
Theorem C29_exact stale rs l a : written rs l -> address a -> exists c, add_all stale ipchunk_init l = Ret c /\
  (forall r, first (fun r => single r /\ rule_covers a r) rs (Some r) -> ipchunk_find c a = Ret (Some (act_seen (ru_act r)))) /\
  (Forall single rs -> forall o, first (rule_covers a) rs o -> ipchunk_find c a = Ret (option_map (fun r => act_seen (ru_act r)) o)).
Proof.
  intros HW Ha. destruct (configured stale rs l HW) as (c & E & HT). exists c. split; [exact E|]. split; [intros r HF; apply (find_single c rs a r HT Ha HF)|].
  intros HS o HF. rewrite Forall_forall in HS. destruct o as [r|].
  - apply (find_single c rs a r HT Ha). apply (first_iff (rule_covers a)); [|exact HF]. intros x Hx. specialize (HS x Hx). intuition.
  - destruct (find_seen c rs a HT Ha) as (o & -> & _ & S). destruct o as [act|]; [|reflexivity]. destruct (S act eq_refl) as (r & Hr & Cr & _). exfalso. apply (first_nothing _ _ HF r Hr Cr).
Qed.
Print Assumptions C29_exact.

(** A range of full length has one member. *)
Theorem C29_one a b : Forall is_byte a -> Forall is_byte b -> (covers (mk_range b (width b)) a <-> a = b).
Proof.
  intros Ha Hb. unfold covers. cbn [r_base r_len]. split; [|intros ->; auto]. intros (L & E). assert (W : width a = width b) by (unfold width; lia). rewrite W, Z.sub_diag, !Z.div_1_r in E. clear W.
  revert b Hb L E. induction Ha as [|x a Hx Ha IH]; intros [|y b] Hb L E; try discriminate; [reflexivity|]. injection L as L. inversion Hb as [|? ? Hy Hb']; subst. rewrite !value_cons, L in E. pose proof (value_range a Ha) as Ra. pose proof (value_range b Hb') as Rb. rewrite L in Ra.
  set (B := 256 ^ Z.of_nat (length b)) in *. assert (x = y) by nia. subst y. f_equal. apply IH; auto. lia.
Qed.
Print Assumptions C29_one.

(** * C30: ranges *)
(** For all rule sets, whatever is found is what some rule that covers the address says; with one rule alone, it is found exactly
    for the addresses that agree with it in the first bits. *)
Theorem C30_sound stale rs l a : written rs l -> address a -> exists c, add_all stale ipchunk_init l = Ret c /\
  exists o, ipchunk_find c a = Ret (option_map act_seen o) /\ forall act, o = Some act -> exists r, In r rs /\ rule_covers a r /\ ru_act r = act.
Proof. intros HW Ha. destruct (configured stale rs l HW) as (c & E & HT). exists c. split; [exact E|]. destruct (find_seen c rs a HT Ha) as (o & H1 & _ & H2). eauto. Qed.
Theorem C30_exact stale r l a : written [r] l -> address a -> exists c, add_all stale ipchunk_init l = Ret c /\
  (rule_covers a r -> ipchunk_find c a = Ret (Some (act_seen (ru_act r)))) /\ (~ rule_covers a r -> ipchunk_find c a = Ret None).
Proof.
  intros HW Ha. destruct (configured stale [r] l HW) as (c & E & HT). exists c. split; [exact E|]. split.
  - intros Hc. destruct (singleb r) eqn:Es.
    + apply (find_single c [r] a r HT Ha). constructor. split; [apply singleb_ok, Es|exact Hc].
    + apply (find_range c [r] a (Some r) HT Ha); [| |constructor; exact Hc].
      * intros r1 r2 r3 x y E1. apply (f_equal (@length rule)) in E1. rewrite !app_length in E1. cbn [length] in E1. rewrite app_length in E1. cbn [length] in E1. lia.
      * intros x [<-|[]] Hs. apply singleb_ok in Hs. congruence.
  - intros Hc. destruct (find_seen c [r] a HT Ha) as (o & -> & _ & S). destruct o as [act|]; [|reflexivity]. destruct (S act eq_refl) as (x & [<-|[]] & Cx & _). contradiction.
Qed.
Print Assumptions C30_exact.
Print Assumptions C30_sound.

(** * C31: every range takes effect *)
(** Full statement: if a rule covers the address, one that covers it is found.  Not true: *)
Definition covered_is_found : Prop := forall stale rs l a c, written rs l -> address a -> add_all stale ipchunk_init l = Ret c ->
  (exists r, In r rs /\ rule_covers a r) -> exists r, In r rs /\ rule_covers a r /\ ipchunk_find c a = Ret (Some (act_seen (ru_act r))).
(** proved when no range is given after a narrower one inside of it; then the first one that covers the address is found. *)
Theorem C31_effect_partial stale rs l a : written rs l -> address a -> orderly rs -> exists c, add_all stale ipchunk_init l = Ret c /\
  ((exists r, In r rs /\ rule_covers a r) -> exists r, In r rs /\ rule_covers a r /\ ipchunk_find c a = Ret (Some (act_seen (ru_act r)))) /\
  (forall o, (forall r, In r rs -> single r -> ~ rule_covers a r) -> first (rule_covers a) rs o -> ipchunk_find c a = Ret (option_map (fun r => act_seen (ru_act r)) o)).
Proof.
  intros HW Ha HO. destruct (configured stale rs l HW) as (c & E & HT). exists c. split; [exact E|].
  assert (HR : forall o, (forall r, In r rs -> single r -> ~ rule_covers a r) -> first (rule_covers a) rs o -> ipchunk_find c a = Ret (option_map (fun r => act_seen (ru_act r)) o)) by (intros o H1 H2; apply (find_range c rs a o HT Ha HO H1 H2)).
  split; [|exact HR]. intros (r & Hr & Cr).
  assert (Dec : forall P : rule -> Prop, (forall x, In x rs -> P x \/ ~ P x) -> exists o, first P rs o).
  { intros P. clear. induction rs as [|x rs IH]; intros H; [exists None; constructor|]. destruct (H x (or_introl eq_refl)) as [X|X]; [exists (Some x); constructor; exact X|]. destruct IH as (o & Ho); [intros y Hy; apply H; right; exact Hy|]. exists o. constructor; assumption. }
  assert (CD : forall x, rule_covers a x \/ ~ rule_covers a x).
  { intros x. unfold rule_covers, covers. destruct (ru_range x) as [g|]; [|auto]. destruct (Nat.eq_dec (length a) (length (r_base g))); [|right; intuition]. destruct (Z.eq_dec (value a / 2 ^ (width a - r_len g)) (value (r_base g) / 2 ^ (width a - r_len g))); [left|right]; intuition. }
  destruct (Dec (fun r => single r /\ rule_covers a r)) as (o & Ho).
  { intros x _. destruct (CD x); [|right; intuition]. destruct (singleb x) eqn:Es; [left; split; [apply singleb_ok, Es|assumption]|right; intros (X & _); apply singleb_ok in X; congruence]. }
  destruct o as [x|].
  - exists x. destruct (first_split _ _ _ Ho) as (r1 & r2 & E1 & (_ & X) & _). split; [rewrite E1; apply in_app_iff; right; left; reflexivity|]. split; [exact X|]. apply (find_single c rs a x HT Ha Ho).
  - destruct (Dec (rule_covers a)) as (o & Ho2); [intros x _; apply CD|]. destruct o as [x|]; [|exfalso; apply (first_nothing _ _ Ho2 r Hr Cr)].
    exists x. destruct (first_split _ _ _ Ho2) as (r1 & r2 & E1 & X & _). split; [rewrite E1; apply in_app_iff; right; left; reflexivity|]. split; [exact X|].
    rewrite (HR (Some x)); [reflexivity| |exact Ho2]. intros y Hy Sy Cy. apply (first_nothing _ _ Ho y Hy). auto.
Qed.
Print Assumptions C31_effect_partial.

(** "10.1.0.0/16" and then "10.0.0.0/8" *)
Definition t_10_1 : list Z := [49;48;46;49;46;48;46;48;47;49;54].
Definition t_10 : list Z := [49;48;46;48;46;48;46;48;47;56].
Definition r_10_1 := mk_rule (Some (mk_range [10;1;0;0] 16)) Block.
Definition r_10 := mk_rule (Some (mk_range [10;0;0;0] 8)) Block.
Lemma dec1 d : 0 <= d <= 9 -> decimal [48 + d] d. Proof. apply dec_one. Qed.
Lemma dec2 d e : 0 <= d <= 9 -> 0 <= e <= 9 -> decimal [48 + d; 48 + e] (10 * d + e).
Proof. intros H1 H2. apply (dec_more [48 + d] d e); [apply dec_one; exact H1|exact H2]. Qed.
Lemma dotted_10 b : 0 <= b <= 9 -> dotted [10; b; 0; 0] [49;48;46;48 + b;46;48;46;48].
Proof.
  intros H. exists [[49;48]; [48 + b]; [48]; [48]]. split; [reflexivity|]. split; [unfold is_byte; repeat constructor; lia|]. split; [|reflexivity].
  constructor; [apply (dec2 1 0); lia|]. constructor; [apply dec1, H|]. constructor; [apply (dec1 0); lia|]. constructor; [apply (dec1 0); lia|constructor].
Qed.
Lemma written_10 : written [r_10_1; r_10] [(t_10_1, None); (t_10, None)].
Proof.
  constructor; [|constructor; [|constructor]].
  - split; [|exact I]. apply (ri_range [10;1;0;0] [49;48;46;49;46;48;46;48] 16 [49;54]); [constructor; apply (dotted_10 1); lia|apply (dec2 1 6); lia|lia].
  - split; [|exact I]. apply (ri_range [10;0;0;0] [49;48;46;48;46;48;46;48] 8 [56]); [constructor; apply (dotted_10 0); lia|apply (dec1 8); lia|lia].
Qed.
Theorem C31_effect_refuted : ~ covered_is_found.
Proof.
  intros H. destruct (add_all (fun _ => 0) ipchunk_init [(t_10_1, None); (t_10, None)]) as [c| | |] eqn:E; try (vm_compute in E; discriminate).
  destruct (H (fun _ => 0) _ _ [10;2;0;5] c written_10) as (r & _ & _ & F).
  - split; [left; reflexivity|]. unfold is_byte. repeat constructor; lia.
  - exact E.
  - exists r_10. split; [right; left; reflexivity|]. split; [reflexivity|]. vm_compute. reflexivity.
  - assert (G : (let! c := add_all (fun _ => 0) ipchunk_init [(t_10_1, None); (t_10, None)] in ipchunk_find c [10;2;0;5]) = Ret None) by (vm_compute; reflexivity).
    rewrite E in G. cbn [bind] in G. rewrite F in G. discriminate.
Qed.
Print Assumptions C31_effect_refuted.

(** * The table of a list of rules *)
Lemma filter_table stale rs l : written rs l -> exists c look, add_all stale ipchunk_init l = Ret c /\ policy rs look /\
  (orderly rs -> forall a o, address a -> (forall r, In r rs -> single r -> ~ rule_covers a r) -> first (rule_covers a) rs o -> look a = option_map ru_act o) /\
  (forall a, address a -> ipchunk_find c a = Ret (option_map act_seen (look a))) /\
  (forall a d, address a -> look a = Some (Replace d) -> length d = length a /\ Forall is_byte d).
Proof.
  intros HW. destruct (configured stale rs l HW) as (c & E & HT). exists c, (look_of c). split; [exact E|].
  assert (HF : forall a, address a -> ipchunk_find c a = Ret (option_map act_seen (look_of c a))) by (intros a Ha; destruct (find_seen c rs a HT Ha) as (o & H1 & H2 & _); rewrite H2; exact H1).
  assert (inj : forall x y, act_seen x = act_seen y -> x = y) by (intros [|x] [|y] X; try discriminate; [reflexivity|]; injection X as ->; reflexivity).
  assert (HS : forall a act, address a -> look_of c a = Some act -> exists r, In r rs /\ rule_covers a r /\ ru_act r = act) by (intros a act Ha X; destruct (find_seen c rs a HT Ha) as (o & _ & H2 & S); rewrite H2 in X; apply S, X).
  split; [constructor; [exact HS|]|split; [|split; [exact HF|]]].
  - intros a r Ha X. pose proof (find_single c rs a r HT Ha X) as Y. rewrite (HF a Ha) in Y. injection Y as Y. destruct (look_of c a) as [z|]; [|discriminate]. injection Y as Y. f_equal. apply inj, Y.
  - intros HO a o Ha X1 X2. pose proof (find_range c rs a o HT Ha HO X1 X2) as Y. rewrite (HF a Ha) in Y. injection Y as Y. destruct (look_of c a) as [z|], o as [r|]; try discriminate; [|reflexivity]. injection Y as Y. cbn [option_map]. f_equal. apply inj, Y.
  - intros a d Ha X. destruct (HS a _ Ha X) as (r & Hr & Cr & Er). destruct (F2_in_l _ _ _ _ HW Hr) as ((ip, sub) & _ & (_ & HA)). cbn [fst snd] in HA. rewrite Er in HA. destruct sub as [t|]; [|contradiction].
    cbn [action_text] in HA. destruct HA as (HA1 & HA2). pose proof (ip_text_address _ _ HA1) as (_ & HB). split; [|exact HB]. unfold rule_covers in Cr. destruct (ru_range r) as [rg|]; [|contradiction]. destruct Cr as (Cl & _). lia.
Qed.

(** * C32: filtering replies *)
(** Full statement: as below for every message, whatever the lengths of the data of its address records and also without
    questions; proved for messages with a question whose address records have the data of an address. *)
Theorem C32_filter_partial stale rs l : written rs l -> exists c look, add_all stale ipchunk_init l = Ret c /\ policy rs look /\
  (orderly rs -> forall a o, address a -> (forall r, In r rs -> single r -> ~ rule_covers a r) -> first (rule_covers a) rs o -> look a = option_map ru_act o) /\
  forall g post fuel neg p0 t0 k0 d0, good_msg g -> m_qs g <> [] -> Forall is_byte post -> Forall address_ok (m_an g) -> (length (m_qs g) <= fuel)%nat -> (length (m_an g) < fuel)%nat ->
  exists b an', filtered look (m_an g) b an' /\
  misc_process fuel c neg (enc_msg g ++ post) (length (enc_msg g)) p0 t0 k0 d0 =
    if neg && negb (nth 3 (m_idflags g) 0 mod 16 =? 0) then Ret (misc_negative, enc_msg g ++ post)
    else Ret (if b then misc_filtered else misc_nothing, enc_msg (with_an g an') ++ post).
Proof.
  intros HW. destruct (filter_table stale rs l HW) as (c & look & E & HP & HO & HF & HR). exists c, look. split; [exact E|]. split; [exact HP|]. split; [exact HO|].
  intros g post fuel neg p0 t0 k0 d0 Hg Hq Hp HA Hf1 Hf2. destruct (filtered_total look (m_an g)) as (b & an' & Hfi). exists b, an'. split; [exact Hfi|].
  apply (process_ok c look HF HR); auto.
Qed.
Print Assumptions C32_filter_partial.
(** What is too short to be a message is left alone. *)
Theorem C32_short fuel c neg m len p0 t0 k0 d0 : (len < 12)%nat -> misc_process fuel c neg m len p0 t0 k0 d0 = Ret (misc_nothing, m).
Proof. intros H. unfold misc_process, parser_init. destruct (Nat.ltb_spec len 12); [reflexivity|lia]. Qed.
Print Assumptions C32_short.

(** Not true of address records with data of another length: bytes of the next record are replaced. *)
Definition bad_reply : message :=
  mk_msg [0; 1; 129; 128] [mk_q (mk_ename [[97]] None) 1 1] [mk_rr (mk_ename [] (Some (192, 12))) 1 1 5 []] [mk_rr (mk_ename [] None) 2 1 0 [0]] [].
Definition t_0020 : list Z := [48;46;48;46;50;46;48].
Definition t_1234 : list Z := [49;46;50;46;51;46;52].
Definition bad_out : list Z := firstn 31 (enc_msg bad_reply) ++ [1;2;3;4] ++ skipn 35 (enc_msg bad_reply).
Lemma bad_run : (let! c := add_all (fun _ => 0) ipchunk_init [(t_0020, Some t_1234)] in misc_process 20 c false (enc_msg bad_reply) (length (enc_msg bad_reply)) P_unknown 0 0 0) = Ret (misc_nothing, bad_out).
Proof. vm_compute. reflexivity. Qed.
Lemma bind_ret {A B} (o : outcome A) (f : A -> outcome B) y : bind o f = Ret y -> exists x, o = Ret x /\ f x = Ret y.
Proof. destruct o as [x| | |]; try discriminate. intros H. exists x. auto. Qed.
Lemma dotted_digits a b c d : 0 <= a <= 9 -> 0 <= b <= 9 -> 0 <= c <= 9 -> 0 <= d <= 9 -> dotted [a;b;c;d] [48 + a;46;48 + b;46;48 + c;46;48 + d].
Proof.
  intros Ha Hb Hc Hd. exists [[48 + a]; [48 + b]; [48 + c]; [48 + d]]. split; [reflexivity|]. split; [unfold is_byte; repeat constructor; lia|]. split; [|reflexivity].
  constructor; [apply dec1, Ha|]. constructor; [apply dec1, Hb|]. constructor; [apply dec1, Hc|]. constructor; [apply dec1, Hd|constructor].
Qed.
Definition bad_rule : rule := mk_rule (Some (mk_range [0;0;2;0] 32)) (Replace [1;2;3;4]).
Lemma bad_written : written [bad_rule] [(t_0020, Some t_1234)].
Proof.
  constructor; [|constructor]. split; [apply (ri_single [0;0;2;0] t_0020); constructor; apply (dotted_digits 0 0 2 0); lia|]. split; [constructor; apply (dotted_digits 1 2 3 4); lia|reflexivity].
Qed.
Lemma bad_good : good_msg bad_reply.
Proof. unfold good_msg, bad_reply, good_rr, good_q, good_name, is_byte. cbn [m_idflags m_qs m_an m_ns m_ar]. repeat match goal with |- _ /\ _ => split end; cbn; try lia; repeat constructor; cbn; try lia. Qed.
Lemma bad_change : (12 + qs_len (m_qs bad_reply) + rrs_len (m_an bad_reply) <= 31)%nat /\ nth_error bad_out 31 <> nth_error (enc_msg bad_reply) 31.
Proof. split; [vm_compute; lia|]. vm_compute. discriminate. Qed.
Theorem C32_filter_refuted : exists rs l c m', written rs l /\ add_all (fun _ => 0) ipchunk_init l = Ret c /\ good_msg bad_reply /\
  misc_process 20 c false (enc_msg bad_reply) (length (enc_msg bad_reply)) P_unknown 0 0 0 = Ret (misc_nothing, m') /\
  exists k, (12 + qs_len (m_qs bad_reply) + rrs_len (m_an bad_reply) <= k)%nat /\ nth_error m' k <> nth_error (enc_msg bad_reply) k.
Proof.
  destruct (bind_ret _ _ _ bad_run) as (c & E1 & E2). exists [bad_rule], [(t_0020, Some t_1234)], c, bad_out.
  split; [exact bad_written|]. split; [exact E1|]. split; [exact bad_good|]. split; [exact E2|]. exists 31%nat. exact bad_change.
Qed.
Print Assumptions C32_filter_refuted.

(** * Cases *)
(** "10.0.0.0/8" blocked, "10.2.0.5" replaced by "1.2.3.4": the single address counts, then the range. *)
Definition t_10205 : list Z := [49;48;46;50;46;48;46;53].
Definition r_10205 : rule := mk_rule (Some (mk_range [10;2;0;5] 32)) (Replace [1;2;3;4]).
Lemma ex_written : written [r_10; r_10205] [(t_10, None); (t_10205, Some t_1234)].
Proof.
  constructor; [|constructor; [|constructor]].
  - split; [|exact I]. apply (ri_range [10;0;0;0] [49;48;46;48;46;48;46;48] 8 [56]); [constructor; apply (dotted_10 0); lia|apply (dec1 8); lia|lia].
  - split; [|split; [constructor; apply (dotted_digits 1 2 3 4); lia|reflexivity]]. apply (ri_single [10;2;0;5] t_10205). constructor. exists [[49;48]; [50]; [48]; [53]]. split; [reflexivity|]. split; [unfold is_byte; repeat constructor; lia|]. split; [|reflexivity].
    constructor; [apply (dec2 1 0); lia|]. constructor; [apply (dec1 2); lia|]. constructor; [apply (dec1 0); lia|]. constructor; [apply (dec1 5); lia|constructor].
Qed.
Lemma ex_orderly : orderly [r_10; r_10205].
Proof.
  intros r1 r2 r3 x y E Hx Hy. exfalso. assert (S : single r_10205) by reflexivity. destruct r1 as [|w r1]; [|destruct r1 as [|w2 [|w3 r1]]]; destruct r2 as [|v r2]; injection E; intros; subst; try contradiction; try discriminate.
  destruct r2; discriminate.
Qed.
Example C29_nonvacuous : first (fun r => single r /\ rule_covers [10;2;0;5] r) [r_10; r_10205] (Some r_10205).
Proof. apply first_later; [intros (S & _); discriminate|]. apply first_here. split; [reflexivity|]. split; [reflexivity|vm_compute; reflexivity]. Qed.
Example C30_nonvacuous : rule_covers [10;255;1;1] r_10 /\ ~ rule_covers [11;0;0;0] r_10.
Proof. split; [split; [reflexivity|vm_compute; reflexivity]|]. intros (_ & H). vm_compute in H. discriminate. Qed.
Example C31_nonvacuous : written [r_10; r_10205] [(t_10, None); (t_10205, Some t_1234)] /\ orderly [r_10; r_10205] /\ exists r, In r [r_10; r_10205] /\ rule_covers [10;255;1;1] r.
Proof. split; [exact ex_written|]. split; [exact ex_orderly|]. exists r_10. split; [left; reflexivity|apply C30_nonvacuous]. Qed.
(** A reply with a record of this address and one of another: the first is replaced. *)
Definition ex_reply : message :=
  mk_msg [0; 1; 129; 128] [mk_q (mk_ename [[97]] None) 1 1] [mk_rr (mk_ename [] (Some (192, 12))) 1 1 5 [10;2;0;5]; mk_rr (mk_ename [] (Some (192, 12))) 1 1 5 [9;9;9;9]] [mk_rr (mk_ename [] None) 2 1 0 [0]] [].
Example C32_nonvacuous : good_msg ex_reply /\ Forall address_ok (m_an ex_reply) /\
  (let! c := add_all (fun _ => 0) ipchunk_init [(t_10, None); (t_10205, Some t_1234)] in misc_process 20 c true (enc_msg ex_reply) (length (enc_msg ex_reply)) P_unknown 0 0 0) =
  Ret (misc_nothing, enc_msg (with_an ex_reply [mk_rr (mk_ename [] (Some (192, 12))) 1 1 5 [1;2;3;4]; mk_rr (mk_ename [] (Some (192, 12))) 1 1 5 [9;9;9;9]])).
Proof.
  split; [unfold good_msg, ex_reply, good_rr, good_q, good_name, is_byte; cbn [m_idflags m_qs m_an m_ns m_ar]; repeat match goal with |- _ /\ _ => split end; cbn; try lia; repeat constructor; cbn; try lia|].
  split; [|vm_compute; reflexivity]. constructor; [|constructor; [|constructor]]; intros _; (split; [reflexivity|discriminate]).
Qed.
