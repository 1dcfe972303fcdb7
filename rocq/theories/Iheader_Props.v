(** C59: a received message is labelled with its own question.  C60: a datagram is attributed to the client that sent it. *)
From Verif Require Import Base BaseFacts Name_Model Name_Spec Name_Proofs Parser_Model Parser_Spec Parser_Proofs Parser_Walk Hash_Model
  Gen_Model Mctx_Model Iheader_Model Iheader_Spec Iheader_Proofs.
Require Import ZifyBool ZifyNat.

(** For every message with questions, all of class IN and with readable names of at most 255 characters, whatever lies behind it in memory and
    whatever the header held before: it is accepted, and the header holds the name and type asked for, the name's hash, whether EDNS is offered, the
    length, and what the caller gave. *)
Theorem C59_labelled g : acceptable g ->
  exists f0, forall post fuel nf h dom rethdr back sock agent, Forall is_byte post -> (f0 <= fuel)%nat -> (f0 <= nf)%nat -> length dom = 256%nat ->
    exists name type edns dom', asked g name type /\ (edns = true <-> offers_edns g) /\ cstr dom' = name /\ length dom' = 256%nat /\
    ih_fill fuel nf h dom rethdr (enc_msg g ++ post) (length (enc_msg g)) back sock agent =
      Ret (0, mk_ih None false (h_time h) back sock name (bkdr name) type rethdr edns (Z.of_nat (length (enc_msg g)))
               (match agent with Some a => firstn 47 a | None => [] end), dom').
Proof. exact (ih_fill_accept g). Qed.
Print Assumptions C59_labelled.

(** What is asked for is determined by the message. *)
Theorem C59_asked_unique g n1 t1 n2 t2 : asked g n1 t1 -> asked g n2 t2 -> n1 = n2 /\ t1 = t2.
Proof.
  intros (ls1 & w1 & x1 & q1 & r1 & Hq1 & -> & HD1 & HN1 & ->) (ls2 & w2 & x2 & q2 & r2 & Hq2 & -> & HD2 & HN2 & ->).
  rewrite Hq1 in Hq2. injection Hq2 as <- <-. split; [|reflexivity].
  destruct (denotes_fun 63 _ _ _ _ _ _ ltac:(lia) HD1 HD2) as [<- _]. f_equal.
  rewrite <- (cstr_before _ [] _ HN1). apply cstr_before, HN2.
Qed.
Print Assumptions C59_asked_unique.

(** With the anti-pollution option, the messages that offer no EDNS are the ones that are blocked, and no others. *)
Theorem C59_blocked g post : acceptable g -> Forall is_byte post ->
  exists f0, forall fuel nf h dom rethdr back sock agent c h' dom' ap e, (f0 <= fuel)%nat -> (f0 <= nf)%nat -> length dom = 256%nat ->
    ih_fill fuel nf h dom rethdr (enc_msg g ++ post) (length (enc_msg g)) back sock agent = Ret (c, h', dom') ->
    (is_blocked ap (mk_ctx h' e) = true <-> ap = true /\ ~ offers_edns g).
Proof.
  intros Ha Hp. destruct (ih_fill_accept g Ha) as (f0 & HF). exists f0. intros fuel nf h dom rethdr back sock agent c h' dom' ap e Hf Hnf Hd H.
  destruct (HF post fuel nf h dom rethdr back sock agent Hp Hf Hnf Hd) as (name & type & edns & d2 & _ & HE & _ & _ & HR). rewrite HR in H.
  assert (h_edns h' = edns) as Hed by (assert (h' = mk_ih None false (h_time h) back sock name (bkdr name) type rethdr edns (Z.of_nat (length (enc_msg g)))
    (match agent with Some a => firstn 47 a | None => [] end)) as -> by congruence; reflexivity).
  unfold is_blocked. cbn [c_h]. rewrite Hed, <- HE. destruct ap, edns; cbn; intuition congruence.
Qed.
Print Assumptions C59_blocked.

(** A message whose first question is of another class is refused, and its name is not recorded. *)
Theorem C59_other_class g q qs post : good_msg g -> m_qs g = q :: qs -> q_class q <> 1 -> Forall is_byte post ->
  forall fuel nf h dom rethdr back sock agent, (0 < fuel)%nat ->
  exists h', ih_fill fuel nf h dom rethdr (enc_msg g ++ post) (length (enc_msg g)) back sock agent = Ret (-48, h', dom).
Proof.
  intros Hg Hq Hk Hp fuel nf h dom rethdr back sock agent Hf.
  destruct (readable_first_class g Hg q qs post Hq Hk Hp fuel nf h dom rethdr back sock agent Hf) as (h' & d & HE & ->). eauto.
Qed.
Print Assumptions C59_other_class.

(** For every packet: it is refused as too short exactly if it has less than 12 bytes; the client, the socket, the length and the agent are those of
    the packet if it is accepted, and those of an earlier packet if it is not. *)
Theorem C59_any_packet fuel nf h dom rethdr m len back sock agent c h' dom' :
  ih_fill fuel nf h dom rethdr m len back sock agent = Ret (c, h', dom') ->
  length dom' = length dom /\ h_parent h' = None /\ h_reqtcp h' = false /\ h_time h' = h_time h /\
  (c = -31 <-> (len < 12)%nat) /\ (c = 0 \/ c = -31 \/ c = -46 \/ c = -48) /\
  (c = 0 -> h_back h' = back /\ h_sock h' = sock /\ h_len h' = Z.of_nat len /\ h_rethdr h' = rethdr /\
            h_agent h' = match agent with Some a => firstn 47 a | None => [] end) /\
  (c <> 0 -> h_back h' = h_back h /\ h_sock h' = h_sock h /\ h_len h' = h_len h /\ h_rethdr h' = h_rethdr h /\ h_agent h' = h_agent h).
Proof. apply ih_fill_any. Qed.
Print Assumptions C59_any_packet.

(** "A.b", type AAAA, with an OPT record. *)
Definition ex59 : message := mk_msg [1; 2; 1; 0] [mk_q (mk_ename [[65]; [98]] None) 28 1] [] [] [mk_rr (mk_ename [] None) 41 1280 0 []].
Lemma ex59_ok : acceptable ex59.
Proof.
  split; [|split; [discriminate|]].
  - unfold good_msg, good_q, good_rr, good_name, is_byte. cbn. repeat split; auto; repeat constructor; cbn; lia.
  - cbn [readable m_qs ex59]. split; [reflexivity|]. split; [|exact I]. exists [[65]; [98]], 5%nat. split; [|cbn; lia].
    change 5%nat with (S 1 + (S 1 + 1))%nat. eapply D_label; [reflexivity|lia|reflexivity|]. eapply D_label; [reflexivity|lia|reflexivity|].
    apply D_root. reflexivity.
Qed.
Definition ex_h : iheader := mk_ih (Some 3%nat) true 7 None 0 [120] 5 1 true false 99 [9].
Example C59_nonvacuous : acceptable ex59 /\ offers_edns ex59 /\
  exists d, ih_fill 9 9 ex_h (repeat 0 256) false (enc_msg ex59 ++ [1; 2; 3]) 32 (Some [10]) 4 (Some [55]) =
    Ret (0, mk_ih None false 7 (Some [10]) 4 [97; 46; 98] (bkdr [97; 46; 98]) 28 false true 32 [55], d).
Proof. split; [exact ex59_ok|]. split; [exists (mk_rr (mk_ename [] None) 41 1280 0 []); split; [now left|reflexivity]|]. eexists. vm_compute. reflexivity. Qed.

(** A message without a question is accepted, and labelled with the name of the one before. *)
Theorem C59_no_question_refuted :
  exists fuel nf h dom m len h' dom', (12 <= len)%nat /\ slice m 4 2 = Some [0; 0] /\ cstr dom = [101; 118; 105; 108] /\
    ih_fill fuel nf h dom false m len (Some [10]) 4 (Some [55]) = Ret (0, h', dom') /\ h_domain h' = [101; 118; 105; 108].
Proof.
  exists 9%nat, 9%nat, ex_h, ([101; 118; 105; 108] ++ repeat 0 252), [1;2;1;0;0;0;0;0;0;0;0;0], 12%nat.
  eexists _, _. split; [lia|]. split; [reflexivity|]. split; [reflexivity|]. split; [vm_compute; reflexivity|]. reflexivity.
Qed.
Print Assumptions C59_no_question_refuted.

(** A name with a NUL in a label is taken for another name: "a<NUL>b" for "a". *)
Theorem C59_nul_refuted :
  exists fuel nf g h' dom', good_msg g /\ map q_name (m_qs g) = [mk_ename [[97; 0; 98]] None] /\
    ih_fill fuel nf ex_h (repeat 0 256) false (enc_msg g) (length (enc_msg g)) (Some [10]) 4 (Some [55]) = Ret (0, h', dom') /\ h_domain h' = [97].
Proof.
  exists 9%nat, 9%nat, (mk_msg [1; 2; 1; 0] [mk_q (mk_ename [[97; 0; 98]] None) 1 1] [] [] []). eexists _, _. split.
  - unfold good_msg, good_q, good_rr, good_name, is_byte. cbn. repeat split; auto; repeat constructor; cbn; lia.
  - split; [reflexivity|]. split; [vm_compute; reflexivity|]. reflexivity.
Qed.
Print Assumptions C59_nul_refuted.

(** With two questions, the name of the second goes with the type of the first. *)
Theorem C59_two_questions_refuted :
  exists fuel nf g h' dom', acceptable g /\ m_qs g = [mk_q (mk_ename [[97]] None) 28 1; mk_q (mk_ename [[98]] None) 1 1] /\
    ih_fill fuel nf ex_h (repeat 0 256) false (enc_msg g) (length (enc_msg g)) (Some [10]) 4 (Some [55]) = Ret (0, h', dom') /\
    h_domain h' = [98] /\ h_type h' = 28.
Proof.
  exists 9%nat, 9%nat, (mk_msg [1; 2; 1; 0] [mk_q (mk_ename [[97]] None) 28 1; mk_q (mk_ename [[98]] None) 1 1] [] [] []). eexists _, _. split.
  - split; [|split; [discriminate|]].
    + unfold good_msg, good_q, good_rr, good_name, is_byte. cbn. repeat split; auto; repeat constructor; cbn; lia.
    + cbn [readable m_qs]. split; [reflexivity|]. split; [|split; [reflexivity|split; [|exact I]]].
      * exists [[97]], (S 1 + 1)%nat. split; [|cbn; lia]. eapply D_label; [reflexivity|lia|reflexivity|]. apply D_root. reflexivity.
      * exists [[98]], (S 1 + 1)%nat. split; [|cbn; lia]. eapply D_label; [reflexivity|lia|reflexivity|]. apply D_root. reflexivity.
  - split; [reflexivity|]. split; [vm_compute; reflexivity|]. split; reflexivity.
Qed.
Print Assumptions C59_two_questions_refuted.

(** In every run of the front end over any datagrams, whatever the rest of the program leaves in the buffer between two of them: a datagram that is
    an acceptable message and fits is handed on as itself, for the client that sent it.  A failed receive hands on nothing. *)
Theorem C60_attributed_partial leave n : (forall b, ubuf_ok n b -> ubuf_ok n (leave b)) ->
  forall fuel nf ds b rs, ubuf_ok n b -> (forall e, In (Some e) ds -> Forall is_byte (d_bytes e)) -> udp_turns leave fuel nf b ds = Ret rs ->
  length rs = length ds /\ forall k, (nth_error ds k = Some None -> nth_error rs k = Some None) /\
    forall d g, nth_error ds k = Some (Some d) -> d_bytes d = enc_msg g -> acceptable g -> (length (enc_msg g) <= n)%nat ->
    exists c, nth_error rs k = Some (Some c) /\ handed_for g (d_addr d) (d_sock d) (d_agent d) c.
Proof.
  intros Hl fuel nf ds b rs Hb Hd H. destruct (turns_nth leave n fuel nf Hl ds b rs Hb Hd H) as [HL HN]. split; [exact HL|]. intros k. split.
  - intros Hk. destruct (HN k _ Hk) as (b1 & x & b2 & _ & HT & Hx). cbn [udp_turn] in HT. injection HT as <- <-. exact Hx.
  - intros d g Hk Hg Ha Hfit. destruct (HN k _ Hk) as (b1 & x & b2 & Hb1 & HT & Hx). cbn [udp_turn] in HT.
    assert (HF : firstn (length (u_mem b1)) (d_bytes d) = enc_msg g).
    { rewrite Hg. apply firstn_all2. destruct Hb1 as (_ & -> & _). exact Hfit. }
    rewrite HF in HT. destruct (ih_fill fuel nf (u_h b1) (u_dom b1) false _ _ _ _ _) as [[[c h] dom]| | |] eqn:E; try discriminate. cbn [bind] in HT.
    injection HT as <- <-. eexists. split; [exact Hx|].
    destruct (ih_fill_accept g Ha) as (f0 & HFill).
    destruct (HFill (skipn (length (enc_msg g)) (u_mem b1)) (fuel + f0)%nat (nf + f0)%nat (u_h b1) (u_dom b1) false (Some (d_addr d)) (d_sock d) (Some (d_agent d)) ltac:(apply Forall_skip, Hb1) ltac:(lia) ltac:(lia) ltac:(apply Hb1))
      as (name & type & edns & dom2 & Has & _ & _ & _ & HR).
    rewrite (ih_fill_mono _ _ _ _ _ _ _ _ _ _ _ E (fuel + f0) (nf + f0) ltac:(lia) ltac:(lia)) in HR.
    assert (h = mk_ih None false (h_time (u_h b1)) (Some (d_addr d)) (d_sock d) name (bkdr name) type false edns (Z.of_nat (length (enc_msg g)))
      (firstn 47 (d_agent d))) as -> by congruence.
    exists name. cbn [c_h c_entity h_type h_domain h_back h_sock h_agent h_len h_parent]. repeat (split; [reflexivity||exact Has|]).
    rewrite firstn_app, firstn_all, Nat.sub_diag, app_nil_r. reflexivity.
Qed.
Print Assumptions C60_attributed_partial.

(** Every turn of every such run does return if the names in the datagrams can be read to their ends: here one with two clients. *)
Definition ex_b : ubuf := mk_ubuf ex_h (repeat 0 256) (repeat 0 64).
Definition from_a : dgram := mk_dgram (enc_msg ex59) [10] 4 [65].
(** "c", type TXT, class CH. *)
Definition ex_ch : message := mk_msg [3; 4; 1; 0] [mk_q (mk_ename [[99]] None) 16 3] [] [] [].
Definition from_b : dgram := mk_dgram (enc_msg ex_ch) [11] 5 [66].
Lemma ex_b_ok : ubuf_ok 64 ex_b.
Proof. split; [reflexivity|]. split; [reflexivity|]. apply Forall_forall. intros z Hz. apply repeat_spec in Hz. unfold is_byte. lia. Qed.
Example C60_nonvacuous : ubuf_ok 64 ex_b /\ acceptable ex59 /\
  exists c0 c1, udp_turns (fun b => b) 9 9 ex_b [Some (mk_dgram (enc_msg ex59) [11] 5 [66]); None; Some from_a] = Ret [Some c0; None; Some c1] /\
    h_back (c_h c0) = Some [11] /\ h_back (c_h c1) = Some [10].
Proof. split; [exact ex_b_ok|]. split; [exact ex59_ok|]. eexists _, _. split; [vm_compute; reflexivity|]. split; reflexivity. Qed.

(** The general statement is false: client B's question of class CH is handed on as one of client A's, with A's name and address. *)
Theorem C60_other_client_refuted :
  exists n fuel nf b ds rs c, ubuf_ok n b /\ ds = [Some from_a; Some from_b] /\ udp_turns (fun b => b) fuel nf b ds = Ret rs /\
    nth_error rs 1 = Some (Some c) /\ good_msg ex_ch /\ d_bytes from_b = enc_msg ex_ch /\ (length (enc_msg ex_ch) <= n)%nat /\
    h_back (c_h c) = Some (d_addr from_a) /\ h_back (c_h c) <> Some (d_addr from_b) /\ h_domain (c_h c) = [97; 46; 98].
Proof.
  exists 64%nat, 9%nat, 9%nat, ex_b. eexists _, _, _. split; [exact ex_b_ok|]. split; [reflexivity|]. split; [vm_compute; reflexivity|].
  split; [reflexivity|]. split.
  - unfold good_msg, good_q, good_rr, good_name, is_byte. cbn. repeat split; auto; repeat constructor; cbn; lia.
  - split; [reflexivity|]. split; [cbn; lia|]. split; [reflexivity|]. split; [discriminate|reflexivity].
Qed.
Print Assumptions C60_other_client_refuted.
