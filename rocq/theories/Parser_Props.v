(** Property theorems about walking the records of a message: C06, C07. *)
From Verif Require Import Base BaseFacts Name_Model Name_Spec Parser_Model Parser_Spec Parser_Proofs.

(** ** C06 Walking the records of any packet is bounded by its header counts.
    The part on sections is false when QDCOUNT is 0 (see below), so it is stated for QDCOUNT > 0. *)
Theorem C06_walk_bounded_partial : forall m dlen p0 t0 k0 d0 i,
  Forall is_byte m -> iter_init m p0 t0 k0 d0 = Ret i ->
  exists qd an ns ar,
  get16 m 4 = Some qd /\ get16 m 6 = Some an /\ get16 m 8 = Some ns /\ get16 m 10 = Some ar /\
  walk (S (Z.to_nat (qd + an + ns + ar))) m dlen i <> Fuel /\
  forall fuel vs, walk fuel m dlen i = Ret vs ->
    Z.of_nat (length vs) <= qd + an + ns + ar /\
    (* in packet order: the first record follows the header, each other one follows its predecessor *)
    (forall v, nth_error vs 0 = Some v -> v_pos v = 12%nat) /\
    (forall k a b, nth_error vs k = Some a -> nth_error vs (S k) = Some b ->
       exists w, extent m (v_pos a) w /\
       Z.of_nat (v_pos b) = Z.of_nat (v_pos a) + Z.of_nat w +
          match v_rr a with None => 4 | Some (_, dl, _) => 10 + dl end) /\
    (* sections *)
    (0 < qd -> forall k v, nth_error vs k = Some v ->
       v_purpose v = section_of qd an ns ar (1 + Z.of_nat k)).
Proof.
  intros m dlen p0 t0 k0 d0 i HF HI. apply iter_init_ok in HI.
  destruct HI as (qd & an & ns & ar & G4 & G6 & G8 & G10 & Hall & Hpos & _ & _ & Hsec).
  exists qd, an, ns, ar. repeat split; auto.
  - apply walk_terminates; auto; [|lia]. rewrite Hpos, Hall. lia.
  - apply walk_bound in H; auto; [|intros p Hp; congruence]. cbn zeta in H. destruct H as (H & _).
    rewrite Hpos, Hall in H.
    pose proof (get16_byte _ _ _ HF G4). pose proof (get16_byte _ _ _ HF G6).
    pose proof (get16_byte _ _ _ HF G8). pose proof (get16_byte _ _ _ HF G10). lia.
  - intros v Hv. apply walk_bound in H; auto; [|intros p Hp; congruence]. destruct H as (_ & _ & _ & H).
    destruct vs; [discriminate|]. inversion Hv; subst. rewrite Hpos in H. exact H.
  - intros k a b Ha Hb. apply walk_bound in H; auto; [|intros p Hp; congruence]. destruct H as (_ & _ & H & _).
    revert k Ha Hb. induction vs as [|v vs IH]; intros k Ha Hb; [destruct k; discriminate|].
    destruct vs as [|v2 vs]; [destruct k as [|[|]]; discriminate|].
    destruct H as (H1 & H2). destruct k as [|k].
    + inversion Ha; inversion Hb; subst. exact H1.
    + apply (IH H2 k); auto.
  - intros Hq k v Hk. apply walk_bound in H; auto; [|intros p Hp; congruence]. cbn zeta in H.
    destruct H as (_ & H & _). apply H in Hk. rewrite Hpos in Hk. destruct Hk as (Hk & _).
    rewrite Hk. rewrite Hsec; auto; lia.
Qed.
Print Assumptions C06_walk_bounded_partial.

(** A packet without question, with one answer and one name server record: the answer record is
    reported as a name server record. *)
Definition no_question : list Z :=
  [0;0;0;0; 0;0; 0;1; 0;1; 0;0;
   0; 0;1; 0;1; 0;0;0;0; 0;4; 1;2;3;4;
   0; 0;1; 0;1; 0;0;0;0; 0;4; 1;2;3;4].
Theorem C06_sections_refuted : exists m i v vs,
  Forall is_byte m /\ iter_init m P_unknown 0 0 0 = Ret i /\
  get16 m 4 = Some 0 /\ get16 m 6 = Some 1 /\ get16 m 8 = Some 1 /\ get16 m 10 = Some 0 /\
  walk 9 m (Z.of_nat (length m)) i = Ret (v :: vs) /\
  v_purpose v = P_nameserver /\ section_of 0 1 1 0 1 = P_answer.
Proof.
  exists no_question. destruct (iter_init no_question P_unknown 0 0 0) as [i| | |] eqn:E; vm_compute in E; try discriminate E.
  inversion E; subst. do 3 eexists.
  split; [repeat constructor; unfold is_byte; lia|]. repeat split.
Qed.
Print Assumptions C06_sections_refuted.

(** ** C07 Walking a well-formed message visits exactly its records *)
Theorem C07_walk_exact_partial : forall g post p0 t0 k0 d0,
  good_msg g -> Forall is_byte post -> m_qs g <> [] ->
  exists i, iter_init (enc_msg g ++ post) p0 t0 k0 d0 = Ret i /\
  forall fuel dlen, (length (view_msg g) < fuel)%nat -> Z.of_nat (length (enc_msg g)) <= dlen ->
  walk fuel (enc_msg g ++ post) dlen i = Ret (view_msg g).
Proof. exact walk_message. Qed.
Print Assumptions C07_walk_exact_partial.

(** HasType finds a record of the given section, class and type (an unknown section and class 0 stand for any) exactly when the
    message has one. *)
Lemma has_type_walk m dlen p kl ty : forall fuel i vs, walk fuel m dlen i = Ret vs ->
  has_type_loop fuel m dlen i p kl ty = Ret (existsb (fun v => (purpose_eqb p P_unknown || purpose_eqb (v_purpose v) p) && ((kl =? 0) || (v_class v =? kl)) && (v_type v =? ty)) vs).
Proof.
  induction fuel as [|fuel IH]; intros i vs H; cbn [walk has_type_loop] in *; [discriminate|].
  destruct (iter_next m dlen i) as [[[pos|] i']| | |]; cbn [bind] in *; try discriminate; [|injection H as <-; reflexivity].
  destruct (view_of m i' pos) as [v| | |] eqn:Ev; cbn [bind] in *; try discriminate.
  destruct (walk fuel m dlen i') as [ws| | |] eqn:Ew; cbn [bind] in *; try discriminate. injection H as <-. cbn [existsb].
  assert (E : v_purpose v = it_purpose i' /\ v_type v = it_type i' /\ v_class v = it_klass i').
  { unfold view_of in Ev. destruct (purpose_eqb (it_purpose i') P_question); [injection Ev as <-; auto|].
    destruct (rec_ttl m pos); cbn [bind] in Ev; try discriminate. destruct (rec_dpos m pos); cbn [bind] in Ev; try discriminate. injection Ev as <-. auto. }
  destruct E as (-> & -> & ->). destruct (_ && _ && _); [reflexivity|]. now apply IH.
Qed.
Theorem C07_has_type_partial : forall g post p0 t0 k0 d0 p kl ty,
  good_msg g -> Forall is_byte post -> m_qs g <> [] ->
  exists i, iter_init (enc_msg g ++ post) p0 t0 k0 d0 = Ret i /\
  forall fuel dlen, (length (view_msg g) < fuel)%nat -> Z.of_nat (length (enc_msg g)) <= dlen ->
  exists b, has_type_loop fuel (enc_msg g ++ post) dlen i p kl ty = Ret b /\
    (b = true <-> exists v, In v (view_msg g) /\ (p = P_unknown \/ v_purpose v = p) /\ (kl = 0 \/ v_class v = kl) /\ v_type v = ty).
Proof.
  intros g post p0 t0 k0 d0 p kl ty H1 H2 H3. destruct (walk_message g post p0 t0 k0 d0 H1 H2 H3) as (i & E & H). exists i. split; [exact E|].
  intros fuel dlen Hf Hd. eexists. split; [apply has_type_walk; now apply H|]. rewrite existsb_exists.
  assert (Hp : forall a b, purpose_eqb a b = true <-> a = b) by (intros [] []; cbn; intuition discriminate).
  split; intros (v & Hv & Hq); exists v; (split; [exact Hv|]); rewrite !andb_true_iff, !orb_true_iff, !Hp, !Z.eqb_eq in *; tauto.
Qed.
Print Assumptions C07_has_type_partial.

(** The restriction to messages with a question is needed. *)
Theorem C07_walk_without_question_refuted : exists g i,
  good_msg g /\ iter_init (enc_msg g) P_unknown 0 0 0 = Ret i /\
  view_msg g <> [] /\ walk 9 (enc_msg g) (Z.of_nat (length (enc_msg g))) i = Ret [].
Proof.
  exists (mk_msg [0;0;0;0] [] [mk_rr (mk_ename [] None) 1 1 60 [1;2;3;4]] [] []). eexists.
  split; [|split; [reflexivity|split; [discriminate|reflexivity]]].
  unfold good_msg, good_rr, good_name, is_byte. crush.
Qed.
Print Assumptions C07_walk_without_question_refuted.

(** A message with one question, two answers (the second compressed) and an OPT record. *)
Definition ex_msg : message :=
  mk_msg [1;2;129;128]
    [mk_q (mk_ename [[97];[98;99]] None) 1 1]
    [mk_rr (mk_ename [] (Some (192,12))) 5 1 300 [1;100;0];
     mk_rr (mk_ename [[100]] None) 1 1 4294967295 [10;0;0;1]]
    [] [mk_rr (mk_ename [] None) 41 1280 0 []].
Example C07_nonvacuous : good_msg ex_msg /\ length (view_msg ex_msg) = 4%nat /\
  exists i, iter_init (enc_msg ex_msg) P_unknown 0 0 0 = Ret i /\
  walk 9 (enc_msg ex_msg) (Z.of_nat (length (enc_msg ex_msg))) i = Ret (view_msg ex_msg).
Proof.
  split; [|split; [reflexivity|eexists; split; reflexivity]].
  unfold good_msg, good_q, good_rr, good_name, is_byte. crush.
Qed.
