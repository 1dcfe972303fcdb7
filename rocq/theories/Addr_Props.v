(** C40, C41 and C54: addresses and their text. *)
From Verif Require Import Base BaseFacts ListFacts List2Facts Hash_Model Ttl_Model Ttl_Spec Ttl_Proofs Addr_Model Addr_Spec Addr_Proofs Addr2_Proofs Addr3_Proofs.
Require Import ZifyBool ZifyNat.

(** * C40 *)
(** The text of every IPv4 address is its dotted decimal form of at most 15 characters, and reading it - whatever the variables
    held before - gives the address and reports four components. *)
Theorem C40_round_trip stale a : length a = 4%nat -> Forall is_byte a ->
  dotted a (v4_to_asc a) /\ (length (v4_to_asc a) <= 15)%nat /\ v4_to_num stale (v4_to_asc a) = (4, a).
Proof.
  intros H1 H2. destruct (v4_to_asc_ok a H1 H2) as (H3 & H4). split; [exact H3|]. split; [exact H4|].
  pose proof (v4_to_num_ok stale a (v4_to_asc a) [] H3 I) as E. rewrite app_nil_r in E. exact E.
Qed.
Print Assumptions C40_round_trip.
(** Reading any dotted decimal text (leading zeros allowed). *)
Theorem C40_reads stale a t : dotted a t -> v4_to_num stale t = (4, a).
Proof. intros H. pose proof (v4_to_num_ok stale a t [] H I) as E. rewrite app_nil_r in E. exact E. Qed.
Print Assumptions C40_reads.
Example C40_nonvacuous : v4_to_asc [192; 0; 2; 255] = [49; 57; 50; 46; 48; 46; 50; 46; 50; 53; 53] /\ dotted [1; 2; 3; 4] [49; 46; 48; 50; 46; 51; 46; 52].
Proof.
  split; [vm_compute; reflexivity|]. exists [[49]; [48; 50]; [51]; [52]]. split; [reflexivity|]. split; [repeat constructor; unfold is_byte; lia|]. split; [|reflexivity].
  constructor; [apply (dec_one 1); lia|]. constructor; [apply (dec_more [48] 0 2 (dec_one 0 ltac:(lia))); lia|]. constructor; [apply (dec_one 3); lia|]. constructor; [apply (dec_one 4); lia|]. constructor.
Qed.

(** * C41 *)
Lemma bytes_groups a : length a = 16%nat -> Forall is_byte a -> exists gs, length gs = 8%nat /\ Forall (fun g => 0 <= g < 65536) gs /\ a = group_bytes gs.
Proof.
  assert (H : forall n (a : list Z), length a = (2 * n)%nat -> Forall is_byte a -> exists gs, length gs = n /\ Forall (fun g => 0 <= g < 65536) gs /\ a = group_bytes gs).
  { induction n as [|n IH]; intros b Hl HB; [destruct b; [|discriminate]; exists []; auto|]. destruct b as [|x [|y b]]; [cbn [length] in Hl; lia..|]. inversion HB as [|? ? Hx HB1]; subst. inversion HB1 as [|? ? Hy HB2]; subst.
    destruct (IH b ltac:(cbn [length] in Hl; lia) HB2) as (gs & L & HR & ->). exists (x * 256 + y :: gs). unfold is_byte in *. split; [cbn [length]; lia|]. split; [constructor; [lia|exact HR]|].
    cbn [group_bytes flat_map app]. f_equal; [|f_equal].
    - apply Z.div_unique with y; lia.
    - apply Z.mod_unique with x; lia. }
  intros L HB. apply (H 8%nat); assumption.
Qed.
Lemma be16_groups gs : Forall (fun g => 0 <= g < 65536) gs -> words_bytes gs = group_bytes gs.
Proof.
  induction 1 as [|g gs Hg HF IH]; [reflexivity|]. unfold words_bytes, group_bytes in *. cbn [map concat flat_map be16]. rewrite IH. unfold be16. cbn [app]. f_equal. apply Z.mod_small. split; [apply Z.div_pos; lia|apply Z.div_lt_upper_bound; lia].
Qed.
Lemma form_range gs t : v6_form gs t -> Forall (fun g => 0 <= g < 65536) gs.
Proof.
  intros [ts L HF|pre tp post tq H1 H2 HL ->]; [apply (groups_range ts), HF|]. apply Forall_app. split; [apply (groups_range tp), H1|]. apply Forall_app. split; [|apply (groups_range tq), H2].
  apply Forall_forall. intros g Hg. apply repeat_spec in Hg. lia.
Qed.
Lemma v6_to_num_ok stale gs t r : v6_form gs t -> tail_ok r -> (r <> [] -> forall u, t <> u ++ [58]) -> v6_to_num stale (t ++ r) = Ret (16, group_bytes gs).
Proof. intros H1 H2 H3. unfold v6_to_num. rewrite (v6_words_ok stale gs t r H1 H2 H3). cbn [bind fst snd]. rewrite be16_groups; [reflexivity|apply (form_range gs t H1)]. Qed.

(** For all addresses: the text has at most 39 characters, and reading it gives the address. *)
Theorem C41_round_trip stale a : length a = 16%nat -> Forall is_byte a ->
  (length (v6_to_asc a) <= 39)%nat /\ exists code, v6_to_num stale (v6_to_asc a) = Ret (code, a) /\ (a <> repeat 0 16 -> code = 16).
Proof.
  intros L HB. destruct (bytes_groups a L HB) as (gs & Lg & HR & ->). destruct (v6_to_asc_ok gs Lg HR) as (H1 & H2 & H3). split; [exact H1|].
  destruct (list_eq_dec Z.eq_dec gs (repeat 0 8)) as [E|N].
  - exists 0. rewrite (H2 E), E. split; [vm_compute; reflexivity|]. intros X. exfalso. apply X. reflexivity.
  - exists 16. split; [|auto]. pose proof (v6_to_num_ok stale gs _ [] (H3 N)) as E. rewrite app_nil_r in E. apply E; [split; [intros []|auto]|contradiction].
Qed.
Print Assumptions C41_round_trip.
(** What the text is: the standard notation of the address. *)
Theorem C41_text gs : length gs = 8%nat -> Forall (fun g => 0 <= g < 65536) gs -> gs <> repeat 0 8 -> v6_form gs (v6_to_asc (group_bytes gs)).
Proof. intros H1 H2. apply (v6_to_asc_ok gs H1 H2). Qed.
Print Assumptions C41_text.
(** "2001:0:0:1:0:0:0:1" is printed as "2001:0:0:1::1". *)
Example C41_nonvacuous : v6_to_asc (group_bytes [0x2001; 0; 0; 1; 0; 0; 0; 1]) = [50; 48; 48; 49; 58; 48; 58; 48; 58; 49; 58; 58; 49] /\ v6_to_asc (repeat 255 16) = join 58 (repeat [102; 102; 102; 102] 8).
Proof. vm_compute. auto. Qed.

(** * C54 *)
(** Every IPv6 text - full or with "::", digits of either case, leading zeros allowed, blanks before - is read as the address it
    denotes and accepted (result 16), except for "::" alone. *)
Theorem C54_reads_partial stale gs b t : spaces b -> v6_form gs t -> v6_to_num stale (b ++ t) = Ret (16, group_bytes gs).
Proof.
  intros Hb H. assert (E0 : v6_to_num stale (b ++ t) = v6_to_num stale t).
  { unfold v6_to_num, v6_words. assert (Es : skip_space (b ++ t) = skip_space t); [|rewrite Es; reflexivity]. induction b as [|c b IH]; [reflexivity|]. cbn [app skip_space].
    assert (Ec : is_space c = true) by (unfold is_space; pose proof (Hb c (or_introl eq_refl)); lia). rewrite Ec. apply IH. intros x Hx. apply Hb. right. exact Hx. }
  rewrite E0. pose proof (v6_to_num_ok stale gs t [] H) as E. rewrite app_nil_r in E. apply E; [split; [intros []|auto]|contradiction].
Qed.
Print Assumptions C54_reads_partial.
(** A zone behind the address does not change what is read. *)
Theorem C54_zone stale gs t w : v6_form gs t -> (forall u, t <> u ++ [58]) -> ~ In 58 w -> v6_to_num stale (t ++ 37 :: w) = Ret (16, group_bytes gs).
Proof. intros H Hc Hw. apply (v6_to_num_ok stale gs t (37 :: w) H); [|intros _; exact Hc]. split; [intros [X|X]; [discriminate|contradiction]|right; eauto]. Qed.
Print Assumptions C54_zone.
(** "::" is read as the right address but reported as a failure (0). *)
Theorem C54_unspecified_refuted stale : v6_to_num stale [58; 58] = Ret (0, repeat 0 16).
Proof. reflexivity. Qed.
Print Assumptions C54_unspecified_refuted.
(** "2001:DB8::00a:1" *)
Example C54_nonvacuous : v6_form [0x2001; 0xdb8; 0; 0; 0; 0; 10; 1] [50; 48; 48; 49; 58; 68; 66; 56; 58; 58; 48; 48; 97; 58; 49].
Proof.
  assert (H1 : group [50; 48; 48; 49] 0x2001).
  { split; [|lia]. apply (hex_more [50; 48; 48] 512 49 1); [|apply (hx_num 1); lia]. apply (hex_more [50; 48] 32 48 0); [|apply (hx_num 0); lia]. apply (hex_more [50] 2 48 0); [|apply (hx_num 0); lia]. apply hex_one, (hx_num 2). lia. }
  assert (H2 : group [68; 66; 56] 0xdb8).
  { split; [|lia]. apply (hex_more [68; 66] 219 56 8); [|apply (hx_num 8); lia]. apply (hex_more [68] 13 66 11); [|apply (hx_upper 11); lia]. apply hex_one, (hx_upper 13). lia. }
  assert (H3 : group [48; 48; 97] 10).
  { split; [|lia]. apply (hex_more [48; 48] 0 97 10); [|apply (hx_lower 10); lia]. apply (hex_more [48] 0 48 0); [|apply (hx_num 0); lia]. apply hex_one, (hx_num 0). lia. }
  assert (H4 : group [49] 1) by (split; [apply hex_one, (hx_num 1)|]; lia).
  apply (v6_short _ [0x2001; 0xdb8] [[50; 48; 48; 49]; [68; 66; 56]] [10; 1] [[48; 48; 97]; [49]]); [constructor; [exact H1|constructor; [exact H2|constructor]]|constructor; [exact H3|constructor; [exact H4|constructor]]|cbn [length]; lia|reflexivity].
Qed.
