(** A well-formed reply in the UDP upstream module. *)
From Verif Require Import Base BaseFacts ListFacts List2Facts Hash_Model Bst_Model Bst_Spec Bst_Proofs Cht_Model Cache_Model Name_Model Name_Proofs Parser_Model Parser_Spec Parser_Proofs Gen_Model Compress_Proofs
  Iheader_Model Iheader_Spec Iheader_Proofs
  Ip_Model Ip_Spec Ip_Proofs Ip3_Proofs Ip5_Proofs Ip_Props Rdata_Model Rdata_Spec Rdata_Proofs Arr_Model Mctx_Model Mctx_Spec Mctx_Proofs Udpm_Model Udpm_Spec Udpm_Proofs.
Require Import Permutation ZifyBool ZifyNat.
Set Default Proof Using "Type".

(** ** The filter *)
Definition misc_look (misc : option (ipchunk * bool)) (look : list Z -> option action) : Prop :=
  match misc with
  | None => forall a, look a = None
  | Some (c, _) => (forall a, address a -> ipchunk_find c a = Ret (option_map act_seen (look a))) /\
                   (forall a d, address a -> look a = Some (Replace d) -> length d = length a /\ Forall is_byte d)
  end.
Lemma misc_look_repl misc look a d : misc_look misc look -> address a -> look a = Some (Replace d) -> length d = length a /\ Forall is_byte d.
Proof. destruct misc as [[c neg]|]; cbn [misc_look]; [intros (_ & H); apply H|intros H _ E; rewrite H in E; discriminate]. Qed.
Lemma filter_look rs misc : filter_from rs misc -> exists look, policy rs look /\
  (orderly rs -> forall a o, address a -> (forall r, In r rs -> single r -> ~ rule_covers a r) -> first (rule_covers a) rs o -> look a = option_map ru_act o) /\ misc_look misc look.
Proof.
  intros [|stale rs' l c neg HW HA].
  - exists (fun _ => None). split; [|split].
    + constructor; [discriminate|]. intros a r _ H. inversion H.
    + intros _ a o _ _ H. inversion H. reflexivity.
    + intros a. reflexivity.
  - destruct (filter_table stale rs' l HW) as (c' & look & E & H1 & H2 & H3 & H4). assert (c' = c) as -> by congruence. exists look. cbn [misc_look]. auto.
Qed.
Lemma filtered_none look rs b rs' : (forall a, look a = None) -> filtered look rs b rs' -> b = false /\ rs' = rs.
Proof. intros H. induction 1 as [|r rs _ E|r rs d b rs' _ E _ _|r rs b rs' _ _ (-> & ->)]; try (rewrite H in E; discriminate); auto. Qed.
Lemma filtered_sizes misc look rs b rs' : misc_look misc look -> Forall good_rr rs -> Forall address_ok rs -> filtered look rs b rs' ->
  length (concat (map enc_rr rs')) = length (concat (map enc_rr rs)) /\ Forall good_rr rs'.
Proof.
  intros HM HG HO HF. induction HF as [|r rs H1 H2|r rs d b rs' H1 H2 HF IH|r rs b rs' H1 HF IH]; auto.
  - inversion HG as [|? ? G1 G2]; inversion HO as [|? ? O1 O2]; subst. destruct (IH G2 O2) as (IH1 & IH2).
    assert (HA : address (r_data r)).
    { destruct H1 as (Hc & Ht). specialize (O1 Hc). split; [|apply G1]. destruct Ht as [Ht|Ht]; [left|right]; apply O1, Ht. }
    destruct (misc_look_repl misc look _ _ HM HA H2) as (L & B). destruct (enc_rr_data r d L) as (R & E1 & E2). split; [|constructor; [apply with_data_good; assumption|assumption]].
    cbn [map concat]. rewrite E1, E2, !app_length. lia.
  - inversion HG as [|? ? G1 G2]; inversion HO as [|? ? O1 O2]; subst. destruct (IH G2 O2) as (IH1 & IH2). split; [|constructor; assumption]. cbn [map concat]. rewrite !app_length. lia.
Qed.
Lemma misc_loop_buf c look : misc_look (Some (c, false)) look -> forall fuel m dlen i w m', Forall is_byte m -> misc_loop fuel c m dlen i = Ret (w, m') -> length m' = length m /\ Forall is_byte m'.
Proof.
  intros (HL & HR). induction fuel as [|fuel IH]; intros m dlen i w m' HB H; [discriminate|]. cbn [misc_loop] in H.
  destruct (iter_next m dlen i) as [[[pos|] i']| | |]; try discriminate; cbn [bind] in H; [|injection H as <- <-; auto].
  destruct (negb (purpose_eqb (it_purpose i') P_answer)); [injection H as <- <-; auto|]. destruct (negb (it_klass i' =? 1)); [eapply IH; eauto|].
  destruct (addr_len (it_type i')) as [n|] eqn:EN; [|eapply IH; eauto]. destruct (rec_dpos m pos) as [dp| | |]; try discriminate. cbn [bind] in H.
  destruct (slice m dp n) as [b|] eqn:ES; [|discriminate]. assert (HA : address b).
  { split; [|eapply slice_bytes; eauto]. rewrite (slice_length _ _ _ _ ES). unfold addr_len in EN. destruct (it_type i' =? 1); [injection EN as <-; auto|]. destruct (it_type i' =? 28); [injection EN as <-; auto|discriminate]. }
  rewrite (HL b HA) in H. cbn [bind] in H. destruct (look b) as [[|d]|] eqn:EL; cbn [option_map act_seen] in H; [injection H as <- <-; auto| |eapply IH; eauto].
  cbn in H. destruct (HR b d HA EL) as (Ld & Bd). destruct (slice d 0 n) as [d'|] eqn:ED; [|discriminate]. destruct (write m dp d') as [m1|] eqn:EW; [|discriminate].
  assert (HB1 : Forall is_byte m1).
  { apply write_some in EW. destruct EW as (_ & ->). apply Forall_app. split; [rewrite <- (firstn_skipn dp m) in HB; apply Forall_app in HB; apply HB|]. apply Forall_app. split; [eapply slice_bytes; eauto|apply Forall_skip, HB]. }
  apply IH in H; [|exact HB1]. rewrite (write_length _ _ _ _ EW) in H. exact H.
Qed.
Lemma misc_apply_buf misc look fuel h m it w m' : misc_look misc look -> Forall is_byte m -> misc_apply misc fuel h m it = Ret (w, m') -> length m' = length m /\ Forall is_byte m'.
Proof.
  unfold misc_apply. destruct misc as [[c neg]|]; [|intros _ HB H; injection H as <- <-; auto]. intros HL HB H. destruct it as [[[p0 t0] k0] d0].
  destruct (h_len h <? 0); [injection H as <- <-; auto|]. unfold misc_process in H. destruct (parser_init _ false) as [[x dlen]|]; [|injection H as <- <-; auto].
  destruct (if neg then _ else _) as [b| | |]; try discriminate. cbn [bind] in H. destruct b; [injection H as <- <-; auto|].
  destruct (iter_init m p0 t0 k0 d0) as [i| | |]; try discriminate. cbn [bind] in H. destruct (goto_answers fuel m dlen i) as [i'| | |]; try discriminate. cbn [bind] in H.
  eapply misc_loop_buf; eauto.
Qed.
Lemma with_an_same g : with_an g (m_an g) = g.
Proof. destruct g. reflexivity. Qed.
Lemma misc_apply_good misc look g post fuel h it b an' : misc_look misc look -> good_msg g -> m_qs g <> [] -> Forall is_byte post -> Forall address_ok (m_an g) -> filtered look (m_an g) b an' ->
  (length (m_qs g) <= fuel)%nat -> (length (m_an g) < fuel)%nat -> h_len h = Z.of_nat (length (enc_msg g)) ->
  misc_apply misc fuel h (enc_msg g ++ post) it =
    if no_negative misc && negb (nth 3 (m_idflags g) 0 mod 16 =? 0) then Ret (misc_negative, enc_msg g ++ post)
    else Ret (if b then misc_filtered else misc_nothing, enc_msg (with_an g an') ++ post).
Proof.
  intros HM Hg Hq Hp HA HF F1 F2 Hl. unfold misc_apply, no_negative. destruct misc as [[c neg]|].
  - destruct it as [[[p0 t0] k0] d0]. rewrite Hl. destruct (Z.of_nat (length (enc_msg g)) <? 0) eqn:E; [lia|]. rewrite Nat2Z.id. destruct HM as (HM1 & HM2). apply (process_ok c look HM1 HM2); auto.
  - cbn [andb]. destruct (filtered_none look _ _ _ HM HF) as (-> & ->). rewrite with_an_same. reflexivity.
Qed.

(** ** The receive buffer *)
Section Buffer.
Context {A : Type} (ap : bool) (misc : option (ipchunk * bool)) (par : option (list A)).
Context (raw : list Z -> list cnode -> nat -> Z) (ignore parallel : bool) (get : list Z -> option ctrl).
Context (hdr : iheader -> list Z) (arr : list Z -> list Z) (fuel nf : nat).
Context (look : list Z -> option action) (HM : misc_look misc look) (Harr : forall d, length (arr d) = 256%nat) (room : nat).
Notation step := (u_step ap misc par raw ignore parallel get hdr arr fuel nf).
Notation run := (u_run ap misc par raw ignore parallel get hdr arr fuel nf).

Lemma handle_buf (s : @udpm A) mem n x e s' : ubuf_ok room (u_rb s) -> length mem = room -> Forall is_byte mem -> u_handle ap misc raw ignore parallel get hdr arr fuel nf s mem n x = Ret (e, s') -> ubuf_ok room (u_rb s').
Proof using HM Harr.
  intros (B1 & B2 & B3) HMl HMb H. unfold u_handle in H. cbv zeta in H. assert (HM1 : length mem = room /\ Forall is_byte mem) by auto.
    destruct (ih_fill fuel nf _ _ _ _ _ _ _ _) as [[[c0 h] dom]| | |] eqn:EF; try discriminate. cbn [bind] in H. apply ih_fill_any in EF. destruct EF as (Ed & _).
    destruct (misc_apply misc fuel h mem _) as [[why mem1]| | |] eqn:EM; try discriminate. cbn [bind] in H. apply (misc_apply_buf misc look) in EM; [|exact HM|apply HM1]. destruct EM as (L1 & B1').
    assert (HG : forall h', ubuf_ok room (mk_ubuf h' dom mem1)) by (intros h'; split; [cbn; lia|]; cbn; split; [lia|exact B1']).
    destruct (negb (why =? misc_nothing)); [|destruct (is_blocked ap (mk_ctx h mem1))]; try (match type of H with Ret (_, ?y) = _ => assert (s' = y) as -> by congruence end; apply HG).
    destruct (mc_answer (u_tab s) (mk_ctx h mem1)) as [[[code c] tab]| | |]; try discriminate. cbn [bind] in H.
    destruct (cache_apply raw ignore parallel get fuel nf s (code =? 0) c x) as [k| | |]; try discriminate. cbn [bind] in H. destruct (code =? 0).
    + destruct (send_back hdr c (x_ret x)) as [[t cd]| | |]; try discriminate. cbn [bind fst snd] in H.
      match type of H with Ret (_, ?y) = _ => assert (s' = y) as -> by congruence end. cbn [u_rb]. split; [apply Harr|]. cbn. split; [lia|exact B1'].
    + match type of H with Ret (_, ?y) = _ => assert (s' = y) as -> by congruence end. apply HG.
Qed.
Lemma receive_buf (s : @udpm A) x e s' : ubuf_ok room (u_rb s) -> Forall is_byte (x_bytes x) -> u_receive ap misc raw ignore parallel get hdr arr fuel nf s x = Ret (e, s') -> ubuf_ok room (u_rb s').
Proof using HM Harr.
  intros HB HX H. assert (HB0 := HB). destruct HB0 as (B1 & B2 & B3). unfold u_receive in H. cbv zeta in H. destruct (firstn (length (u_mem (u_rb s))) (x_bytes x)) as [|z zs] eqn:EB.
  - assert (s' = s) as -> by congruence. exact HB.
  - set (bytes := z :: zs) in *. assert (HL : (length bytes <= length (u_mem (u_rb s)))%nat) by (rewrite <- EB, firstn_length; lia).
    assert (HBy : Forall is_byte bytes). { rewrite <- EB. rewrite <- (firstn_skipn (length (u_mem (u_rb s))) (x_bytes x)) in HX. apply Forall_app in HX. apply HX. }
    eapply handle_buf; [exact HB| | |exact H]; [rewrite app_length, skipn_length; lia|]. apply Forall_app. split; [exact HBy|apply Forall_skip, B3].
Qed.
Lemma step_buf (s : @udpm A) o e s' : ubuf_ok room (u_rb s) -> uop_ok o -> step s o = Ret (e, s') -> ubuf_ok room (u_rb s').
Proof using HM Harr.
  intros HB Ho H. destruct o as [c now ok|b x|now]; cbn [u_step] in H.
  - unfold u_send in H. destruct (with_edns ap fuel c) as [c1| | |]; try discriminate. cbn [bind] in H. destruct (mc_add (u_tab s) c1 now) as [[a tab]| | |]; try discriminate. cbn [bind fst snd] in H. cbv zeta in H.
    assert (HX : u_rb s' = u_rb s); [|rewrite HX; exact HB].
    destruct (u_open s); [|match type of H with Ret (_, ?y) = _ => assert (s' = y) as -> by congruence end; reflexivity].
    destruct (if h_len (c_h c1) <? 0 then None else _) as [bytes|]; [|discriminate].
    destruct par as [l|]; [match type of H with Ret (_, ?y) = _ => assert (s' = y) as -> by congruence end; reflexivity|].
    destruct (al_get (u_addrs s)) as [[a0|]| | |]; try discriminate; cbn [bind] in H; match type of H with Ret (_, ?y) = _ => assert (s' = y) as -> by congruence end; reflexivity.
  - unfold u_turn in H. destruct (negb (u_alive s)); [assert (s' = s) as -> by congruence; exact HB|].
    destruct (u_setup par s b) as [[s1|]| | |] eqn:ES; try discriminate; cbn [bind] in H.
    2:{ assert (s' = u_cleanup s) as -> by congruence. exact HB. }
    destruct (setup_same par _ _ _ ES) as (E1 & E2 & E3). rewrite <- E2 in HB. destruct x as [| |[x|]].
    + assert (s' = u_close s1) as -> by congruence. exact HB.
    + assert (s' = if 8 <? u_cnt s1 then u_close s1 else s1) as -> by congruence. destruct (8 <? u_cnt s1); exact HB.
    + eapply receive_buf; eauto.
    + assert (s' = s1) as -> by congruence. exact HB.
  - unfold u_sweep in H. destruct (mc_sweep (u_tab s) now) as [[l tab]| | |]; try discriminate. cbn [bind fst snd] in H.
    match type of H with Ret (_, ?y) = _ => assert (s' = y) as -> by congruence end. exact HB.
Qed.
Lemma run_buf os : forall (s : @udpm A) es s', ubuf_ok room (u_rb s) -> Forall uop_ok os -> run s os = Ret (es, s') -> ubuf_ok room (u_rb s').
Proof using HM Harr.
  induction os as [|o os IH]; intros s es s' HB HO H; cbn [u_run] in H; [assert (s' = s) as -> by congruence; exact HB|].
  inversion HO as [|? ? Ho HO']; subst. destruct (step s o) as [[e s1]| | |] eqn:E1; try discriminate. cbn [bind fst snd] in H. destruct (run s1 os) as [[es1 s2]| | |] eqn:E2; try discriminate. cbn [bind fst snd] in H.
  assert (s' = s2) as -> by congruence. eapply IH; [|exact HO'|exact E2]. eapply step_buf; eauto.
Qed.
End Buffer.

(** ** A well-formed reply *)
Lemma match_ne {X Y} (l : list X) (a b : Y) : l <> [] -> match l with [] => a | _ :: _ => b end = b.
Proof. destruct l; congruence. Qed.
Lemma edns_dec (g : message) edns : (edns = true <-> offers_edns g) -> edns = false -> ~ offers_edns g.
Proof. intros H -> H1. apply H in H1. discriminate. Qed.
Section Good.
Context {A : Type} (ap : bool) (misc : option (ipchunk * bool)) (par : option (list A)).
Context (raw : list Z -> list cnode -> nat -> Z) (ignore parallel : bool) (get : list Z -> option ctrl).
Context (hdr : iheader -> list Z) (arr : list Z -> list Z).

Definition after_reply fuel nf (s : @udpm A) (x : rx) (h : iheader) (dom mem1 : list Z) : outcome (@uev A * @udpm A) :=
  let! a := mc_answer (u_tab s) (mk_ctx h mem1) in
  let '(code, c, tab) := a in
  let! k := cache_apply raw ignore parallel get fuel nf s (code =? 0) c x in
  if code =? 0
  then let! t := send_back hdr c (x_ret x) in
       Ret (VReplied (fst t) (snd t), mk_udpm tab (mk_ubuf (c_h c) (arr (h_domain (c_h c))) mem1) k (u_open s) 0 (u_addrs s) (u_alive s))
  else Ret (VUnmatched, mk_udpm tab (mk_ubuf h dom mem1) k (u_open s) 0 (u_addrs s) (u_alive s)).

Lemma receive_good look room g b an' : misc_look misc look -> acceptable g -> Forall address_ok (m_an g) -> (length (enc_msg g) <= room)%nat -> filtered look (m_an g) b an' ->
  exists f0, forall fuel nf (s : @udpm A) x, (f0 <= fuel)%nat -> (f0 <= nf)%nat -> ubuf_ok room (u_rb s) -> x_bytes x = enc_msg g ->
  let post := skipn (length (enc_msg g)) (u_mem (u_rb s)) in
  exists name type edns dom, asked g name type /\ (edns = true <-> offers_edns g) /\
    let h := mk_ih None false (h_time (u_h (u_rb s))) None (-1) name (bkdr name) type false edns (Z.of_nat (length (enc_msg g))) [] in
    let dropped m := mk_udpm (u_tab s) (mk_ubuf h dom m) (u_cache s) (u_open s) 0 (u_addrs s) (u_alive s) in
    u_receive ap misc raw ignore parallel get hdr arr fuel nf s x =
      if no_negative misc && negb (nth 3 (m_idflags g) 0 mod 16 =? 0) then Ret (VDiscarded misc_negative, dropped (enc_msg g ++ post))
      else if b then Ret (VDiscarded misc_filtered, dropped (enc_msg (with_an g an') ++ post))
      else if ap && negb edns then Ret (VDiscarded misc_nothing, dropped (enc_msg (with_an g an') ++ post))
      else after_reply fuel nf s x h dom (enc_msg (with_an g an') ++ post).
Proof.
  intros HM Ha HA Hr HF. destruct (ih_fill_accept g Ha) as (f0 & HFill). exists (f0 + S (length (m_qs g)) + S (length (m_an g)))%nat.
  intros fuel nf s x Hf Hn (B1 & B2 & B3) HX. cbv zeta. set (post := skipn (length (enc_msg g)) (u_mem (u_rb s))).
  assert (Hp : Forall is_byte post) by (apply Forall_skip, B3).
  destruct (HFill post fuel nf (u_h (u_rb s)) (u_dom (u_rb s)) false None (-1) None Hp ltac:(lia) ltac:(lia) B1) as (name & type & edns & dom & H1 & H2 & H3 & H4 & H5).
  exists name, type, edns, dom. split; [exact H1|]. split; [exact H2|].
  destruct Ha as (Hg & Hq & _). assert (HL : (12 <= length (enc_msg g))%nat).
  { rewrite enc_msg_items, app_length, header_length by apply Hg. lia. }
  unfold u_receive, u_handle. rewrite HX, firstn_all2 by lia. cbv zeta. rewrite match_ne by (intros E0; rewrite E0 in HL; cbn in HL; lia). fold post. rewrite H5. cbn [bind].
  rewrite (misc_apply_good misc look g post fuel _ (x_it x) b an' HM Hg Hq Hp HA HF) by (cbn [h_len]; lia).
  destruct (no_negative misc && negb (nth 3 (m_idflags g) 0 mod 16 =? 0)); cbn [bind]; [reflexivity|]. destruct b; [reflexivity|]. cbn [negb Z.eqb misc_nothing].
  change (negb (misc_nothing =? misc_nothing)) with false. cbv iota. unfold is_blocked. cbn [c_h h_edns]. destruct (ap && negb edns); [reflexivity|]. reflexivity.
Qed.
End Good.
