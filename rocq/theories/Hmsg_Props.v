(** C65: what a client gets from the hosts files. *)
From Verif Require Import Base BaseFacts ListFacts Name_Model Name_Spec Name_Proofs Hash_Model Cht_Model Cache_Model
  Parser_Model Parser_Spec Parser_Proofs Parser_Walk Gen_Model Gen_Spec Gen_Proofs Compress_Spec Compress_Proofs Gen2_Proofs Gen_Props Fetch_Model Fetch_Spec Fetch_Proofs Fetch2_Proofs Fetch_Props
  Sht_Model Chunk_Model Hosts_Model Hosts_Spec Hosts_Props Mctx_Model Mctx_Spec Iheader_Model Udpm_Model Udpm_Spec Udpm_Props Hmsg_Model Hmsg_Spec Hmsg_Proofs.
Require Import ZifyBool ZifyNat.

Section H.
Context (fn : list Z -> list Z -> bool) (parse : list Z -> ipaddr) (good : list Z -> option (list Z)) (hdr : iheader -> list Z).

(** What two hosts files that say [ts1] and [ts2] about a name do with a question for it (C28). *)
Definition verdict (block6 : bool) (ts1 ts2 : list target) (qtype : Z) (r : tryres) : Prop :=
  (r = T_blocked <-> block6 = true /\ qtype = 28 /\ (has v4_of ts1 ts2 \/ has list_of ts1 ts2)) /\
  (r <> T_blocked -> has excl_of ts1 ts2 -> r = T_none) /\
  (r <> T_blocked -> ~ has excl_of ts1 ts2 -> r = match result good ts1 qtype with T_none => result good ts2 qtype | r1 => r1 end).
Lemma has_dec {A} (f : target -> option A) ts1 ts2 : has f ts1 ts2 \/ ~ has f ts1 ts2.
Proof.
  unfold has. destruct (existsb (fun t => match f t with Some _ => true | None => false end) (ts1 ++ ts2)) eqn:E.
  - left. apply existsb_exists in E. destruct E as (t & H1 & H2). exists t. split; [exact H1|]. destruct (f t); congruence.
  - right. intros (t & H1 & H2). assert (existsb (fun t => match f t with Some _ => true | None => false end) (ts1 ++ ts2) = true); [|congruence]. apply existsb_exists. exists t. split; [exact H1|]. destruct (f t); congruence.
Qed.
Lemma verdict_unique block6 ts1 ts2 qtype r r' : verdict block6 ts1 ts2 qtype r -> verdict block6 ts1 ts2 qtype r' -> r' = r.
Proof.
  intros (H1 & H2 & H3) (H1' & H2' & H3').
  assert (D : r = T_blocked \/ r <> T_blocked) by (destruct r; (left; reflexivity) || (right; discriminate)).
  destruct D as [D|D]; [rewrite D; apply H1', H1, D|]. assert (D' : r' <> T_blocked) by (intros X; apply D, H1, H1', X).
  destruct (has_dec excl_of ts1 ts2) as [E|E]; [rewrite (H2 D E); auto|rewrite (H3 D E); auto].
Qed.

(** The tables and the lines they have been loaded from. *)
Context (st dy : option hosts) (l1 l2 : option (list (list Z))) (T1 : table_is parse st l1) (T2 : table_is parse dy l2).
Context (name : list Z) (ts1 ts2 : list target) (S1 : says fn parse l1 name ts1) (S2 : says fn parse l2 name ts2).

Lemma verdict_try block6 qtype r : verdict block6 ts1 ts2 qtype r -> hosts_try fn good block6 st dy name qtype = Ret r.
Proof.
  intros HV. destruct (C28_two_tables fn parse good st dy l1 l2 name ts1 ts2 block6 qtype T1 T2 S1 S2) as (r' & E & V'). rewrite E. f_equal. exact (verdict_unique _ _ _ _ _ _ HV V').
Qed.

(** A query for a name that a hosts file has an answer for: its client gets exactly one message, a well-formed reply with the query's question section and with
    one answer, the record of the file for the name of the question, and with an OPT record if the query has one; the query goes no further (0).
    What is missing from the full statement: queries with answers in them, those for which the reply does not fit ([C65_long_query_refuted]), and queries with
    several questions, for which the record that is looked up is that of the last one ([C65_two_questions_refuted]). *)
Theorem C65_reply_partial block6 a q q0 qs ql r fuel post c inner n :
  h_domain (c_h c) = name -> verdict block6 ts1 ts2 (h_type (c_h c)) (T_answer a) -> host_record ql a r ->
  good_msg q -> m_qs q = q0 :: qs -> q_name q0 = plain ql -> name_ok ql -> ql <> [] -> m_an q = [] ->
  c_entity c = enc_msg q ++ post -> h_len (c_h c) = Z.of_nat (length (enc_msg q)) -> Forall is_byte post -> (length (enc_msg q ++ post) <= fuel)%nat -> Z.of_nat (length post) <= 16384 ->
  (length (enc_msg (full_reply q (h_edns (c_h c)) [r])) <= length post)%nat ->
  exists g code c', is_reply q (h_edns (c_h c)) [r] g /\
    hosts_get fn good hdr fuel block6 st dy c inner n = Ret (0, H_sent (sent_to hdr (c_h c) (with_length (c_h c) (length (enc_msg g))) (enc_msg g)) code, c').
Proof.
  intros Hd HV HR Hg Hq Hqn Ho Hne Han Hce Hcl Hp Hfu H14 Hfit.
  destruct (hosts_message_ok q q0 qs ql a r fuel post c Hg Hq Hqn Ho Hne Han HR Hce Hcl Hp Hfu H14 Hfit) as (g & mem' & EM & _ & HX).
  apply verdict_try in HV. rewrite <- Hd in HV. pose proof (hosts_get_answer fn good hdr fuel block6 st dy c a inner n _ HV EM) as EG.
  destruct (send_back_ok hdr (with_length (c_h c) (length (enc_msg g))) (enc_msg g) mem' n eq_refl) as (code & ES). rewrite ES in EG. cbn [bind fst snd] in EG.
  exists g, code. eexists. split; [exact HX|]. rewrite EG. reflexivity.
Qed.

(** A query that is to be refused: its client gets its message back, marked as a response without error. *)
Theorem C65_refused block6 msg post fuel c inner n :
  h_domain (c_h c) = name -> verdict block6 ts1 ts2 (h_type (c_h c)) T_blocked ->
  c_entity c = msg ++ post -> h_len (c_h c) = Z.of_nat (length msg) -> (4 <= length msg)%nat -> Forall is_byte msg ->
  exists msg' code c', refused msg msg' /\ hosts_get fn good hdr fuel block6 st dy c inner n = Ret (0, H_sent (sent_to hdr (c_h c) (c_h c) msg') code, c').
Proof.
  intros Hd HV Hce Hcl H4 HB. apply verdict_try in HV. rewrite <- Hd in HV. rewrite (hosts_get_other fn good hdr fuel block6 st dy c _ inner n HV ltac:(discriminate)).
  destruct (C45_sent hdr c msg post n Hce Hcl H4 HB) as (msg' & code & HR & E & _). unfold send_refused in E.
  destruct (refuse_flags (c_entity c)) as [m| | |]; try discriminate. cbn [bind] in *. rewrite E. cbn [bind fst snd]. exists msg', code. eexists. split; [exact HR|].
  assert (EQ : to_client hdr c (mk_ctx (c_h c) (msg' ++ post)) msg' = sent_to hdr (c_h c) (c_h c) msg') by (destruct c as [[] ?]; reflexivity). rewrite EQ. reflexivity.
Qed.

(** A query for a name with an alias (C28): its header and identification go to the thread that follows aliases, the client gets nothing now. *)
Theorem C65_alias block6 i1 i2 m fuel c inner n :
  h_domain (c_h c) = name -> verdict block6 ts1 ts2 (h_type (c_h c)) T_recursed -> c_entity c = i1 :: i2 :: m ->
  hosts_get fn good hdr fuel block6 st dy c inner n = Ret (if inner then (0, H_inner (c_h c) [i1; i2], c) else (-126, H_nothing, c)).
Proof.
  intros Hd HV Hce. apply verdict_try in HV. rewrite <- Hd in HV. rewrite (hosts_get_other fn good hdr fuel block6 st dy c _ inner n HV ltac:(discriminate)). rewrite Hce. reflexivity.
Qed.

(** A query that the hosts files say nothing about goes on as it is. *)
Theorem C65_nothing block6 fuel c inner n :
  h_domain (c_h c) = name -> verdict block6 ts1 ts2 (h_type (c_h c)) T_none -> hosts_get fn good hdr fuel block6 st dy c inner n = Ret (-126, H_nothing, c).
Proof. intros Hd HV. apply verdict_try in HV. rewrite <- Hd in HV. exact (hosts_get_other fn good hdr fuel block6 st dy c _ inner n HV ltac:(discriminate)). Qed.
End H.
Print Assumptions C65_reply_partial.
Print Assumptions C65_refused.
Print Assumptions C65_alias.
Print Assumptions C65_nothing.

(** Whatever the tables and whatever the query: one that goes on to the next stage has had no answer, and its header and message are as they were. *)
Theorem C65_untouched fn good hdr fuel block6 st dy c inner n e c' : h_len (c_h c) <= Z.of_nat (length (c_entity c)) ->
  hosts_get fn good hdr fuel block6 st dy c inner n = Ret (-126, e, c') -> e = H_nothing /\ same_query c c'.
Proof. intros Hl. apply hosts_get_none. unfold len_ok. lia. Qed.
Print Assumptions C65_untouched.

(** * Examples and counterexamples *)
Definition hx_fn (p s : list Z) : bool := false.
Definition hx_st : hosts := match hosts_of ex_parse hosts_init [l_v4] with Ret h => h | _ => hosts_init end.
Definition hx_dy : hosts := match hosts_of ex_parse hosts_init [l_alias] with Ret h => h | _ => hosts_init end.
Definition hx_ctx (q : message) (room : nat) (domain : list Z) (type : Z) (edns : bool) : mctx :=
  mk_ctx (mk_ih None false 0 (Some [1]) 5 domain 0 type false edns (Z.of_nat (length (enc_msg q))) []) (enc_msg q ++ repeat 0 room).
Lemma hx_table : table_is ex_parse (Some hx_st) (Some [l_v4]). Proof. vm_compute. reflexivity. Qed.
Lemma hx_table2 : table_is ex_parse (Some hx_dy) (Some [l_alias]). Proof. vm_compute. reflexivity. Qed.
Lemma hx_plain : Chunk_Spec.plain ab.
Proof. unfold Chunk_Spec.plain, ab. cbn. lia. Qed.
Lemma hx_says : says hx_fn ex_parse (Some [l_v4]) ab [V4 (ex_parse [49; 46; 49])].
Proof.
  exists [(ab, V4 (ex_parse [49; 46; 49]))]. split; [eapply L_item; [exact l_v4_words|exact reads_11|apply L_nil]|].
  exists (Some ab). split; [|reflexivity]. left. split; [reflexivity|]. split; [exact hx_plain|]. eexists. left. reflexivity.
Qed.
Lemma hx_says2 : says hx_fn ex_parse (Some [l_alias]) ab [Alias [99; 46; 100]].
Proof.
  exists [(ab, Alias [99; 46; 100])]. split; [eapply L_item; [exact l_alias_words|exact reads_cd|apply L_nil]|].
  exists (Some ab). split; [|reflexivity]. left. split; [reflexivity|]. split; [exact hx_plain|]. eexists. left. reflexivity.
Qed.
Lemma hx_says_nothing : says hx_fn ex_parse (Some [l_v4]) [120] [].
Proof.
  exists [(ab, V4 (ex_parse [49; 46; 49]))]. split; [eapply L_item; [exact l_v4_words|exact reads_11|apply L_nil]|].
  exists None. split; [|reflexivity]. split; [intros _ t [H|[]]; discriminate|reflexivity].
Qed.
Lemma hx_none {A} (f : target -> option A) ts : Forall (fun t => f t = None) ts -> ~ has f ts []. 
Proof. rewrite Forall_forall. intros H (t & Ht & N). rewrite app_nil_r in Ht. exact (N (H t Ht)). Qed.

(** "1.1 a.b" and a query for the IPv4 address of a.b with an OPT record. *)
Definition hx_q : message := mk_msg [18; 52; 1; 32] [mk_q (plain [[97]; [98]]) 1 1] [] [] [opt_record].
Example C65_nonvacuous :
  table_is ex_parse (Some hx_st) (Some [l_v4]) /\ says hx_fn ex_parse (Some [l_v4]) ab [V4 (ex_parse [49; 46; 49])] /\
  verdict (fun _ => None) true [V4 (ex_parse [49; 46; 49])] [] 1 (T_answer (AN_a [49; 46; 49; 0])) /\
  verdict (fun _ => None) true [V4 (ex_parse [49; 46; 49])] [] 28 T_blocked /\ verdict (fun _ => None) true [V4 (ex_parse [49; 46; 49])] [] 16 T_none /\
  verdict (fun _ => None) true [Alias [99; 46; 100]] [] 1 T_recursed /\
  host_record [[97]; [98]] (AN_a [49; 46; 49; 0]) (mk_rr (plain [[97]; [98]]) 1 1 60 [49; 46; 49; 0]) /\
  Z.of_nat (length (enc_msg (full_reply hx_q true [mk_rr (plain [[97]; [98]]) 1 1 60 [49; 46; 49; 0]]))) <= 100 /\
  match hosts_get hx_fn (fun _ => None) (fun _ => []) 200 true (Some hx_st) None (hx_ctx hx_q 100 ab 1 true) true 48 with
  | Ret (e, v, c') => e = 0 /\ v = H_sent (mk_sent 5 (Some [1]) [18; 52; 129; 160; 0; 1; 0; 1; 0; 0; 0; 1; 1; 97; 1; 98; 0; 0; 1; 0; 1;
       192; 12; 0; 1; 0; 1; 0; 0; 0; 60; 0; 4; 49; 46; 49; 0; 0; 0; 41; 5; 0; 0; 0; 0; 0; 0; 0]) 0
  | _ => False end.
Proof.
  assert (NE : ~ has excl_of [V4 (ex_parse [49; 46; 49])] []) by (apply hx_none; repeat constructor).
  assert (NE2 : ~ has excl_of [Alias [99; 46; 100]] []) by (apply hx_none; repeat constructor).
  split; [exact hx_table|]. split; [exact hx_says|]. split; [split; [intuition discriminate|split; [intuition discriminate|intros; reflexivity]]|].
  split; [split; [|split; congruence]|].
  { split; [|reflexivity]. intros _. split; [reflexivity|]. split; [reflexivity|]. left. eexists. split; [left; reflexivity|discriminate]. }
  split; [split; [intuition discriminate|split; [reflexivity|intros; reflexivity]]|]. split; [split; [intuition discriminate|split; [intuition discriminate|intros; reflexivity]]|].
  split; [apply HR_v4; [reflexivity|]; repeat (constructor; [unfold is_byte; lia|]); constructor|]. split; [vm_compute; discriminate|]. vm_compute. auto.
Qed.
(** A query with two questions, for x and for a.b: the header names the last one, the reply says that x has the address of a.b. *)
Definition hx_two : message := mk_msg [18; 52; 1; 0] [mk_q (plain [[120]]) 1 1; mk_q (plain [[97]; [98]]) 1 1] [] [] [].
Lemma hx_two_good : good_msg hx_two.
Proof.
  unfold good_msg, hx_two. cbn [m_idflags m_qs m_an m_ns m_ar]. split; [reflexivity|]. split; [repeat (constructor; [unfold is_byte; lia|]); constructor|]. split; [|repeat split; try constructor; cbn [length]; lia].
  constructor; [split; [|cbn; lia]; apply name_ok_good; constructor; [|constructor]; split; [cbn; lia|]; constructor; [lia|constructor]|].
  constructor; [split; [|cbn; lia]; apply name_ok_good, fx_name; lia|constructor].
Qed.
Theorem C65_two_questions_refuted : exists c g code c', c_entity c = enc_msg hx_two ++ repeat 0 100 /\ h_len (c_h c) = Z.of_nat (length (enc_msg hx_two)) /\
  Iheader_Spec.asked hx_two (h_domain (c_h c)) (h_type (c_h c)) /\ says hx_fn ex_parse (Some [l_v4]) [120] [] /\
  hosts_get hx_fn (fun _ => None) (fun _ => []) 200 false (Some hx_st) None c true 0 = Ret (0, H_sent (mk_sent 5 (Some [1]) (enc_msg g)) code, c') /\
  is_reply hx_two false [mk_rr (plain [[120]]) 1 1 60 [49; 46; 49; 0]] g.
Proof.
  assert (NX : ~ has excl_of [V4 (ex_parse [49; 46; 49])] []) by (apply hx_none; repeat constructor).
  destruct (C65_reply_partial hx_fn ex_parse (fun _ => None) (fun _ => []) (Some hx_st) None (Some [l_v4]) None hx_table I ab [V4 (ex_parse [49; 46; 49])] [] hx_says eq_refl false (AN_a [49; 46; 49; 0])
    hx_two (mk_q (plain [[120]]) 1 1) [mk_q (plain [[97]; [98]]) 1 1] [[120]] (mk_rr (plain [[120]]) 1 1 60 [49; 46; 49; 0]) 200 (repeat 0 100) (hx_ctx hx_two 100 ab 1 false) true 0) as (g & code & c' & HR & HE).
  - reflexivity.
  - split; [intuition discriminate|split; [intuition discriminate|intros; reflexivity]].
  - apply HR_v4; [reflexivity|]. repeat (constructor; [unfold is_byte; lia|]). constructor.
  - exact hx_two_good.
  - reflexivity.
  - reflexivity.
  - constructor; [|constructor]. split; [cbn; lia|]. constructor; [lia|constructor].
  - discriminate.
  - reflexivity.
  - reflexivity.
  - reflexivity.
  - apply Forall_forall. intros x Hx. apply repeat_spec in Hx. subst x. unfold is_byte. lia.
  - apply Nat.leb_le. vm_compute. reflexivity.
  - apply Z.leb_le. vm_compute. reflexivity.
  - apply Nat.leb_le. vm_compute. reflexivity.
  - exists (hx_ctx hx_two 100 ab 1 false), g, code, c'. split; [reflexivity|]. split; [reflexivity|]. split.
    { exists [[97]; [98]], 5%nat, ab. eexists _, _. split; [reflexivity|]. split; [reflexivity|]. split; [|split; [split; [cbn; intuition discriminate|left; reflexivity]|reflexivity]].
      apply (Name_Spec.D_label 63 _ 19 1 [97] [[98]] 3); [reflexivity|lia|reflexivity|]. apply (Name_Spec.D_label 63 _ 21 1 [98] [] 1); [reflexivity|lia|reflexivity|apply Name_Spec.D_root; reflexivity]. }
    split; [exact hx_says_nothing|]. split; [exact HE|exact HR].
Qed.
Print Assumptions C65_two_questions_refuted.
(** A query for a name of a hosts file that takes more than half of the buffer: its copy is written beyond the end of the buffer, whatever its content. *)
Theorem C65_long_query_refuted fn parse good hdr st dy l1 l2 name ts1 ts2 block6 a : table_is parse st l1 -> table_is parse dy l2 -> says fn parse l1 name ts1 -> says fn parse l2 name ts2 ->
  verdict good block6 ts1 ts2 1 (T_answer a) ->
  exists q post, good_msg q /\ length (m_qs q) = 1%nat /\ Forall is_byte post /\ length (enc_msg q ++ post) = 3700%nat /\
  forall c fuel inner n, h_domain (c_h c) = name -> h_type (c_h c) = 1 -> c_entity c = enc_msg q ++ post -> h_len (c_h c) = Z.of_nat (length (enc_msg q)) -> (3700 <= fuel)%nat ->
    hosts_get fn good hdr fuel block6 st dy c inner n = UBW.
Proof.
  intros T1 T2 S1 S2 HV.
  set (q := mk_msg [7; 7; 1; 0] [mk_q (plain [[97]]) 1 1] [mk_rr (plain [[97]]) 16 1 0 (repeat 65 2000)] [] []).
  assert (Hq : length (enc_msg q) = 2032%nat) by reflexivity. set (post := repeat 0 1668).
  assert (Hpost : Forall is_byte post) by (apply Forall_forall; intros x Hx; apply repeat_spec in Hx; subst x; unfold is_byte; lia).
  assert (Hlp : length post = 1668%nat) by (apply repeat_length).
  assert (Hgood : good_msg q).
  { unfold good_msg, q. cbn [m_idflags m_qs m_an m_ns m_ar]. split; [reflexivity|]. split; [repeat constructor; unfold is_byte; lia|].
    assert (Hn : good_name (plain [[97]])) by (apply name_ok_good, name_ok_a).
    split; [constructor; [|constructor]; split; [exact Hn|cbn; lia]|]. split; [|repeat split; try constructor; cbn [length]; lia].
    constructor; [|constructor]. split; [exact Hn|]. cbn [Parser_Spec.r_type Parser_Spec.r_class Parser_Spec.r_ttl Parser_Spec.r_data]. rewrite repeat_length. repeat split; try lia.
    apply Forall_forall. intros x Hx. apply repeat_spec in Hx. subst x. unfold is_byte. lia. }
  assert (Hl : length (enc_msg q ++ post) = 3700%nat) by (rewrite app_length, Hq, Hlp; reflexivity).
  exists q, post. split; [exact Hgood|]. split; [reflexivity|]. split; [exact Hpost|]. split; [exact Hl|]. intros c fuel inner n Hd Ht Hce Hcl Hf.
  assert (HT : hosts_try fn good block6 st dy (h_domain (c_h c)) (h_type (c_h c)) = Ret (T_answer a)).
  { rewrite Hd, Ht. apply (verdict_try fn parse good st dy l1 l2 T1 T2 name ts1 ts2 S1 S2). exact HV. }
  apply (hosts_get_overflow fn good hdr fuel block6 st dy c a inner n q post HT Hgood); [discriminate|exact Hce|exact Hcl|exact Hpost|rewrite Hl; exact Hf|].
  change (stripped q) with q. rewrite Hq, Hlp. apply Nat.leb_le. reflexivity.
Qed.
Print Assumptions C65_long_query_refuted.
