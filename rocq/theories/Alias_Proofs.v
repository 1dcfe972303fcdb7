(** Proofs about answering from the cache. *)
From Verif Require Import Base BaseFacts ListFacts List2Facts Hash_Model Sht_Model Sht_Proofs Parser_Model Gen_Model Gen_Proofs Cht_Model Cht_Proofs Cht_Inv Cache_Model Cache_Spec Cache_Proofs Cache2_Proofs Cache3_Proofs Cache4_Proofs Alias_Spec.
Require Import ZifyBool ZifyNat.

Lemma find_hd {A} (f : A -> bool) l : find f l = match filter f l with [] => None | x :: _ => Some x end.
Proof. induction l as [|a l IH]; cbn [find filter]; [reflexivity|]. destruct (f a); [reflexivity|exact IH]. Qed.
Lemma rd_str_ok raw c s : forall off fuel, slice (c_mem c) off (length s + 1) = Some (s ++ [0]) -> (off + length s + 1 <= bottom c)%nat -> ~ In 0 s -> (length s < fuel)%nat ->
  rd_str raw fuel c off = Ret s.
Proof.
  induction s as [|b s IH]; intros off fuel Hs Hb Hn Hf; (destruct fuel as [|fuel]; [lia|]); cbn [rd_str length app] in *.
  - rewrite (rd_mem raw c off 0); [reflexivity|lia|]. pose proof (slice_nth _ _ _ _ 0 Hs ltac:(lia)) as E; rewrite Nat.add_0_r in E; cbn in E; congruence.
  - rewrite (rd_mem raw c off b); [|lia|pose proof (slice_nth _ _ _ _ 0 Hs ltac:(lia)) as E; rewrite Nat.add_0_r in E; cbn in E; congruence]. cbn [bind]. destruct (Z.eqb_spec b 0) as [->|]; [cbn in Hn; tauto|].
    rewrite IH; [reflexivity| |lia|cbn in Hn; tauto|lia]. replace (S off) with (off + length [b])%nat by (cbn; lia). replace (length s + 1)%nat with (length (s ++ [0%Z])) by (rewrite app_length; reflexivity).
    apply slice_tail. cbn [app length]. rewrite app_length. cbn [length]. exact Hs.
Qed.

Section Answer.
Context (raw : list Z -> list cnode -> nat -> Z) (ignore : bool).
Lemma cname_ok c A name now : rep c A -> ~ In 0 name -> (length name <= 253)%nat -> Forall (fun e => data_ok (e_type e) (e_data e)) A ->
  match alias ignore A name now with
  | None => get_cname_from raw ignore c name now = Ret None
  | Some e => exists n s, get_cname_from raw ignore c name now = Ret (Some (n, s)) /\ In e A /\ fresh ignore now e = true /\ e_data e = s ++ [0] /\ ~ In 0 s /\ (length s <= 253)%nat /\
      n_ttl n = e_ttl e /\ n_time n = e_time e
  end.
Proof.
  intros [(L & F & H & HL) He Hc HA] Hn Hl HD. unfold get_cname_from, alias. set (key := triplet name 5 1).
  assert (Hkl : length key = (length name + 4)%nat) by (unfold key, triplet; rewrite app_length; reflexivity).
  unfold key_fits. destruct (Nat.ltb_spec (length key) 264); [|lia].
  assert (Hkey : ~ In 0 key) by (apply triplet_no_nul; [exact Hn|lia|lia]).
  assert (HK : kform L) by (eapply kform_of; eauto).
  rewrite (find_key raw ignore c [] [] L F key None now H HK Hkey eq_refl).
  assert (EF : map snd (filter (keyP ignore key now) L) = map item (filter (fun e => same_key name 5 1 e && fresh ignore now e) A)).
  { unfold keyP. apply (lift_filter L A (fun e => keyQ ignore key now e) (fun e => same_key name 5 1 e && fresh ignore now e) HL).
    intros a Ha. rewrite Forall_forall in HA. unfold keyQ. rewrite (same_key_item name 5 1 a (HA a Ha)) by lia. fold key. rewrite fresh_item. apply andb_comm. }
  rewrite find_hd. destruct (filter (fun e => same_key name 5 1 e && fresh ignore now e) A) as [|a R] eqn:EA; destruct (filter (keyP ignore key now) L) as [|[i e] R'] eqn:EL; try discriminate; cbn [first bind].
  - reflexivity.
  - cbn [map snd] in EF. injection EF as -> EF. assert (Hin : In (i, item a) L) by (apply (proj1 (proj1 (filter_In (keyP ignore key now) _ _) ltac:(rewrite EL; cbn; auto)))).
    assert (Ha : In a A /\ same_key name 5 1 a && fresh ignore now a = true) by (apply (proj1 (filter_In (fun e => same_key name 5 1 e && fresh ignore now e) a A)); rewrite EA; cbn; auto).
    destruct Ha as (Ha & Hq). apply andb_true_iff in Hq. destruct Hq as (Hq1 & Hq2). apply same_key_iff in Hq1. destruct Hq1 as (E1 & E2 & E3).
    destruct (v_live _ _ _ _ H i _ Hin) as (n & Hn' & [C1 C2 C3 C4 C5 C6]). rewrite (derefn_nat c i n Hn'). cbn [bind].
    rewrite Forall_forall in HD. destruct (proj1 (HD a Ha) (or_introl E2)) as (s & Es & Hs1 & Hs2).
    assert (Eb : si_bytes (item a) = (key ++ [0]) ++ s ++ [0]) by (cbn [item si_bytes]; rewrite E1, E2, E3, Es; fold key; rewrite <- app_assoc; reflexivity).
    pose proof (live_bottom c [] L F i _ n H Hin Hn') as Hbot. rewrite Eb in Hbot. rewrite !app_length in Hbot. cbn [length] in Hbot.
    rewrite (rd_str_ok raw c s).
    + cbn [bind]. destruct (Nat.ltb_spec 253 (length s)); [lia|]. destruct (in_split _ _ Hin) as (L1 & L2 & EL2). rewrite EL2 in *.
      assert (El3 : L1 ++ (i, item a) :: L2 = (L1 ++ [(i, item a)]) ++ L2) by (rewrite <- app_assoc; reflexivity).
      assert (Hsi : si_key (item a) = key). { rewrite item_key; [unfold key; congruence|]. rewrite Forall_forall in HA. auto. }
      rewrite (find_key raw ignore c [] (L1 ++ [(i, item a)]) L2 F key (Some (Z.of_nat i)) now); [|rewrite <- El3; exact H|rewrite <- El3; exact HK|exact Hkey|exists L1, i, (item a); rewrite Hsi; auto].
      cbn [bind]. exists n, s. cbn [item si_ttl si_time] in *. auto 10.
    + replace (n_off n + 1 + length key + 1)%nat with (n_off n + 1 + length (key ++ [0%Z]))%nat by (rewrite app_length; cbn; lia). replace (length s + 1)%nat with (length (s ++ [0%Z])) by (rewrite app_length; reflexivity).
      apply slice_tail. rewrite <- Eb. exact C6.
    + lia.
    + exact Hs1.
    + unfold bottom in Hbot. lia.
Qed.

End Answer.

(** ** Records that fit or not *)
Definition keeps_of (g g' : gen) : Prop := ginv g' /\ length (g_buf g') = length (g_buf g) /\ (g_itr g <= g_itr g')%nat.
Lemma keeps_refl g : ginv g -> keeps_of g g. Proof. intros; split; [assumption|]; split; [reflexivity|lia]. Qed.
Lemma keeps_trans g1 g2 g3 : keeps_of g1 g2 -> keeps_of g2 g3 -> keeps_of g1 g3.
Proof. intros (A1 & A2 & A3) (B1 & B2 & B3). split; [assumption|]. split; [congruence|lia]. Qed.

Lemma gen_cname_fits n s t g : ginv g -> exists code g', gen_cname n s t g = Ret (code, g') /\ keeps_of g g' /\ (code = 0 -> (g_itr g < g_itr g')%nat).
Proof.
  intros HG. change (gen_cname n s t g) with (gen_step (OCName n s t) g).
  destruct (gen_step_cases_fit (OCName n s t) g HG I ltac:(discriminate)) as [(_ & E)|[(? & ? & ? & ? & E0 & _)|[(_ & H10 & Hf & E)|(_ & Hf & c & g' & E & HF)]]].
  - rewrite E. exists 1, g. split; [reflexivity|]. split; [apply keeps_refl, HG|discriminate].
  - discriminate.
  - rewrite E. eexists _, _. split; [reflexivity|]. assert (Hl : (0 < length (op_bytes (OCName n s t)))%nat) by (cbn [op_bytes]; rewrite !app_length, !be16_length; lia).
    destruct (append_firstn g (op_bytes (OCName n s t)) HG H10 Hf) as (Hi & Hb). pose proof (gen_append_inv g _ HG H10 Hf) as HI.
    split; [split; [exact HI|split; [|rewrite Hi; lia]]|rewrite Hi; lia]. unfold gen_append. cbn [g_buf]. rewrite bump_length; rewrite splice_length by exact Hf; [reflexivity|]. destruct HG as [HL _]. lia.
  - rewrite E. exists c, g'. split; [reflexivity|]. pose proof (failed_inv _ _ _ HG HF) as HI. destruct HF as (F1 & F2 & F3 & F4 & F5). split; [split; [exact HI|split; [exact F3|lia]]|lia].
Qed.

Section Follow.
Context (raw : list Z -> list cnode -> nat -> Z) (ignore : bool).
Lemma served_ok A now n e : (ignore = false -> Forall (good now) A) -> In e A -> fresh ignore now e = true -> n_ttl n = e_ttl e -> n_time n = e_time e ->
  served_ttl ignore n now = remaining ignore now e.
Proof.
  intros Hg He Hf E1 E2. unfold served_ttl, remaining. rewrite E1, E2. destruct ignore eqn:Ei; [reflexivity|]. specialize (Hg eq_refl). rewrite Forall_forall in Hg.
  destruct (Hg e He) as (G1 & G2). unfold fresh in Hf. cbn [orb] in Hf. unfold u32. apply Z.mod_small. lia.
Qed.

Lemma alias_loop_ok c A now : rep c A -> Forall (fun e => data_ok (e_type e) (e_data e)) A -> (ignore = false -> Forall (good now) A) ->
  forall fuel name g, ~ In 0 name -> (length name <= 253)%nat -> ginv g -> (length (g_buf g) - g_itr g < fuel)%nat ->
  exists code name' g', alias_loop raw ignore fuel c name now g = Ret (code, name', g') /\ follow ignore A now name g code name' g' /\ keeps_of g g' /\ ~ In 0 name' /\ (length name' <= 253)%nat.
Proof.
  intros Hrep HD Hg. induction fuel as [|fuel IH]; intros name g Hn Hl HG Hf; [lia|]. cbn [alias_loop].
  pose proof (cname_ok raw ignore c A name now Hrep Hn Hl HD) as Hc. destruct (alias ignore A name now) as [e|] eqn:Ea.
  - destruct Hc as (n & s & -> & He & Hfr & Ed & Hs1 & Hs2 & E1 & E2). cbn [bind]. rewrite (served_ok A now n e Hg He Hfr E1 E2).
    destruct (gen_cname_fits [97] s (remaining ignore now e) g HG) as (code & g1 & Eg & Hk & Hlt). rewrite Eg. cbn [bind]. destruct (Z.eqb_spec code 0) as [->|Hc].
    + pose proof Hk as (K1 & K2 & K3). specialize (Hlt eq_refl). destruct (IH s g1 Hs1 Hs2 K1) as (code' & name' & g' & E' & F' & K' & N' & L'). { pose proof (gi_len g1 K1). lia. }
      exists code', name', g'. split; [exact E'|]. split; [eapply fo_step; eauto|]. split; [eapply keeps_trans; eauto|auto].
    + exists (-5), name, g1. split; [reflexivity|]. split; [eapply fo_full; eauto|]. auto.
  - rewrite Hc. cbn [bind]. exists 0, name, g. split; [reflexivity|]. split; [apply fo_end; exact Ea|]. split; [apply keeps_refl, HG|auto].
Qed.

End Follow.

(** Giving out records of the other types never leaves the buffer; the raw types do when the data do not fit. *)
Lemma generate_ok name ty kl data ttl g : ginv g -> data_ok ty data ->
  (exists code g', gen_generate name ty kl data ttl g = Ret (code, g') /\ keeps_of g g') \/
  (gen_generate name ty kl data ttl g = UBW /\ raw_type ty /\
     Z.of_nat (g_itr g) + label_length name + 10 <= Z.of_nat (length (g_buf g)) < Z.of_nat (g_itr g) + label_length name + 10 + Z.of_nat (length data)).
Proof.
  intros HG (HD1 & HD2). unfold gen_generate. destruct ((ty =? 1) || (ty =? 28) || (ty =? 65) || (ty =? 16)) eqn:E1.
  - change (gen_raw name ty kl data ttl g) with (gen_step (ORaw name ty kl data ttl) g). destruct (gen_step_safe (ORaw name ty kl data ttl) g HG) as [HU|(c & g' & E & HI & HL)].
    + right. split; [exact HU|]. split; [unfold raw_type; lia|]. destruct (raw_fits_dec (ORaw name ty kl data ttl) g) as [HF|HF].
      * exfalso. destruct (gen_step_cases_fit _ g HG HF ltac:(discriminate)) as [(_ & H)|[(? & ? & ? & ? & _ & _ & H)|[(_ & _ & _ & H)|(_ & _ & ? & ? & H & _)]]]; congruence.
      * pose proof (raw_misfit name ty kl data ttl g HG HF) as HM. cbn zeta in HM. cbn [raw_fits op_bytes] in HF. rewrite !app_length, !be16_length, be32_length in HF, HM. pose proof (name_bytes_length name) as Hnb.
        destruct HM as [[_ ?]|[(_ & _ & ?)|[(_ & _ & _ & ? & ? & ? & _)|(_ & _ & Hx & _)]]]; [congruence|congruence|congruence|].
        rewrite app_length, be16_length in HF. rewrite be16_length in Hx. lia.
    + left. exists c, g'. split; [exact E|]. split; [exact HI|]. split; [exact HL|]. destruct (gen_step_cases (ORaw name ty kl data ttl) g HG ltac:(congruence) ltac:(discriminate)) as [(_ & H)|[(? & ? & ? & ? & _ & _ & H)|[(_ & H10 & Hf & H)|(_ & _ & c0 & g0 & H & HF)]]]; rewrite E in H; inversion H; subst; [lia|lia| |].
      * unfold gen_append; cbn [g_itr]; lia.
      * destruct HF as (_ & _ & _ & F4 & _). lia.
  - left. destruct ((ty =? 5) || (ty =? 12) || (ty =? 2)) eqn:E2.
    + destruct (HD1 ltac:(lia)) as (s0 & -> & _). unfold str_in. rewrite existsb_app. change (existsb (Z.eqb 0) [0]) with true. rewrite orb_true_r. cbn [bind]. destruct (gen_cname_fits name (cstr (s0 ++ [0])) ttl g HG) as (c & g' & E & K & _). eauto.
    + destruct (Z.eqb_spec ty 15) as [->|]; [|eexists _, _; split; [reflexivity|apply keeps_refl, HG]].
      destruct (HD2 eq_refl) as (a & b & d' & -> & s0 & -> & _). unfold rd16, get16, slice. cbn [length Nat.add Nat.leb firstn skipn option_map bind].
      unfold str_in. rewrite existsb_app. change (existsb (Z.eqb 0) [0]) with true. rewrite orb_true_r. cbn [bind].
      match goal with |- context [gen_mx ?n ?p ?s ?t g] => change (gen_mx n p s t g) with (gen_step (OMX n p s t) g); set (o := OMX n p s t) end.
      destruct (gen_step_cases_fit o g HG I ltac:(discriminate)) as [(_ & E)|[(? & ? & ? & ? & E0 & _)|[(_ & H10 & Hf & E)|(_ & Hf & c & g' & E & HF)]]].
      * rewrite E. eexists _, _. split; [reflexivity|apply keeps_refl, HG].
      * discriminate.
      * rewrite E. eexists _, _. split; [reflexivity|]. destruct (append_firstn g (op_bytes o) HG H10 Hf) as (Hi & _). split; [apply gen_append_inv; assumption|].
        split; [|rewrite Hi; lia]. unfold gen_append. cbn [g_buf]. rewrite bump_length; rewrite splice_length by exact Hf; [reflexivity|]. destruct HG as [HL _]. lia.
      * rewrite E. exists c, g'. split; [reflexivity|]. pose proof (failed_inv _ _ _ HG HF) as HI. destruct HF as (F1 & F2 & F3 & F4 & F5). split; [exact HI|]. split; [exact F3|lia].
Qed.
Lemma serve_ok name ty kl l : forall ret g, ginv g -> (forall d t, In (d, t) l -> data_ok ty d) ->
  (exists code g', serve name ty kl l ret g = Ret (code, g') /\ keeps_of g g') \/
  (serve name ty kl l ret g = UBW /\ raw_type ty /\ exists d t itr, In (d, t) l /\ (g_itr g <= itr)%nat /\
     Z.of_nat itr + label_length name + 10 <= Z.of_nat (length (g_buf g)) < Z.of_nat itr + label_length name + 10 + Z.of_nat (length d)).
Proof.
  induction l as [|[d t] l IH]; intros ret g HG HD; cbn [serve]; [left; eexists _, _; split; [reflexivity|apply keeps_refl, HG]|].
  destruct (generate_ok name ty kl d t g HG (HD d t (or_introl eq_refl))) as [(code & g1 & E & K)|(E & Hr & Hl)]; rewrite E; cbn [bind].
  - destruct (Z.eqb_spec code 0) as [->|Hc]; [|left; eauto]. pose proof K as (K1 & K2 & K3). destruct (IH 0 g1 K1) as [(code' & g' & E' & K')|(E' & Hr & d' & t' & itr & Hin & Hi & Hl)].
    + intros; eapply HD; cbn; eauto.
    + left. exists code', g'. split; [exact E'|]. eapply keeps_trans; eauto.
    + right. split; [exact E'|]. split; [exact Hr|]. exists d', t', itr. rewrite K2 in Hl. cbn [In]. split; [auto|]. split; [lia|exact Hl].
  - right. split; [reflexivity|]. split; [exact Hr|]. exists d, t, (g_itr g). cbn [In]. split; [auto|]. split; [lia|exact Hl].
Qed.
