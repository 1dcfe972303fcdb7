(** Room in the cache, for C83. *)
From Verif Require Import Base BaseFacts ListFacts Hash_Model Sht_Model Cht_Model Cache_Model Cache_Spec Cache_Proofs Cache2_Proofs Cache3_Proofs Cache4_Proofs.
Require Import ZifyBool ZifyNat.

(** At most [k] nodes, of at most 512 bytes each. *)
Definition small (k : nat) (c : cache) : Prop := (length (c_nodes c) <= k)%nat /\ Forall (fun n => (n_len n <= 512)%nat) (c_nodes c).

Lemma lset_len {A} (l : list A) : forall i x, length (lset l i x) = length l.
Proof. induction l as [|y l IH]; intros [|i] x; cbn [lset length]; auto. Qed.
Lemma lset_forall {A} (P : A -> Prop) (l : list A) : forall i x, P x -> Forall P l -> Forall P (lset l i x).
Proof. induction l as [|y l IH]; intros [|i] x Hx Hl; cbn [lset]; inversion_clear Hl; auto. Qed.
Lemma small_setn k c i n : small k c -> (n_len n <= 512)%nat -> small k (setn c i n).
Proof. intros (H1 & H2) Hn. split; unfold setn; cbn [c_nodes with_nodes]; [now rewrite lset_len|now apply lset_forall]. Qed.
Lemma small_deref k c i n : small k c -> derefn c i = Ret n -> (n_len n <= 512)%nat.
Proof.
  intros (_ & H) E. unfold derefn, getn in E. destruct (i <? 0); [discriminate|]. destruct (nth_error (c_nodes c) (Z.to_nat i)) as [m|] eqn:En; [|discriminate].
  assert (m = n) by congruence. subst m. rewrite Forall_forall in H. exact (H _ (nth_error_In _ _ En)).
Qed.
Lemma small_nodes k c c' : c_nodes c' = c_nodes c -> small k c -> small k c'.
Proof. unfold small. now intros ->. Qed.
Lemma small_S k c : small k c -> small (S k) c.
Proof. intros (H1 & H2). split; [lia|exact H2]. Qed.

Ltac bindH E := match type of E with
  | (let! _ := ?o in _) = Ret _ => let E' := fresh "B" in destruct o eqn:E'; cbn [bind] in E; [|discriminate..]
  end.
Lemma small_find k chunk bound now : (chunk <= 512)%nat -> forall fuel c sub pre grand o b c', small k c -> find_unused_loop fuel c chunk bound now sub pre grand = Ret (o, b, c') -> small (S k) c'.
Proof.
  intros Hch. induction fuel as [|fuel IH]; intros c sub pre grand o b c' Hs E; [discriminate|]. cbn [find_unused_loop] in E. destruct (sub <? 0).
  - unfold create_node in E. destruct (Nat.ltb _ _).
    + assert (c' = c) by congruence. subst c'. now apply small_S.
    + injection E as <- <- <-. destruct Hs as (H1 & H2). split; cbn [c_nodes with_nodes]; [rewrite app_length; cbn [length]; lia|]. apply Forall_app. split; [exact H2|]. constructor; [exact Hch|constructor].
  - bindH E. rename a into cur. pose proof (small_deref _ _ _ _ Hs B) as Hcur.
    match type of E with (let! _ := ?o in _) = _ => destruct o as [c1| | |] eqn:E1; cbn [bind] in E; [|discriminate..] end.
    assert (Hs1 : small k c1).
    { destruct pre as [p|]; [|injection E1 as <-; exact Hs]. bindH E1. destruct (_ && _); injection E1 as <-; [|exact Hs]. apply small_setn; [exact Hs|]. cbn. exact (small_deref _ _ _ _ Hs B0). }
    destruct (Nat.eqb (n_len cur) chunk).
    + assert (Hs2 : small k (setn c1 sub (n_set_used (n_set_time cur now) (n_used cur + 1)))) by (apply small_setn; [exact Hs1|exact Hcur]).
      set (c2 := setn c1 sub _) in *. clearbody c2. cbv zeta in E.
      match type of E with (let! _ := ?o in _) = _ => destruct o as [c3| | |] eqn:E3; cbn [bind] in E; [|discriminate..] end.
      assert (Hs3 : small k c3).
      { destruct (0 <=? _).
        - bindH E3. rename a into h. pose proof (small_deref _ _ _ _ Hs2 B0) as Hh.
          match type of E3 with match ?pre with _ => _ end = _ => destruct pre as [p|] end; [|injection E3 as <-; match goal with |- small k (with_free ?x _) => apply (small_nodes k x _ eq_refl) end; apply small_setn; [exact Hs2|exact Hh]].
          match type of E3 with context [setn c2 ?i ?n] => assert (Hs4 : small k (setn c2 i n)) by (apply small_setn; [exact Hs2|exact Hh]); set (c4 := setn c2 i n) in * end. clearbody c4.
          bindH E3. rename a into ph. pose proof (small_deref _ _ _ _ Hs4 B1) as Hph.
          destruct (_ <? USED_GRADIENT); [injection E3 as <-; apply small_setn; [exact Hs4|exact Hph]|].
          match type of E3 with context [setn c4 ?i ?n] => assert (Hs5 : small k (setn c4 i n)) by (apply small_setn; [exact Hs4|exact Hph]); set (c5 := setn c4 i n) in * end. clearbody c5.
          bindH E3. rename a into h2. pose proof (small_deref _ _ _ _ Hs5 B2) as Hh2.
          match type of E3 with context [setn c5 ?i ?n] => assert (Hs6 : small k (setn c5 i n)) by (apply small_setn; [exact Hs5|exact Hh2]); set (c6 := setn c5 i n) in * end. clearbody c6.
          destruct grand as [g|]; [|injection E3 as <-; exact Hs6]. bindH E3. rename a into gh. pose proof (small_deref _ _ _ _ Hs6 B3) as Hgh. injection E3 as <-. apply small_setn; [exact Hs6|exact Hgh].
        - destruct pre as [p|]; [|injection E3 as <-; exact Hs2]. bindH E3. injection E3 as <-. apply small_setn; [exact Hs2|]. exact (small_deref _ _ _ _ Hs2 B0). }
      bindH E. injection E as <- <- <-. apply small_S, small_setn; [exact Hs3|]. exact (small_deref _ _ _ _ Hs3 B0).
    + exact (IH _ _ _ _ _ _ _ Hs1 E).
Qed.
Lemma small_mem k c off l c' : small k c -> mem_write c off l = Ret c' -> small k c'.
Proof. intros Hs E. unfold mem_write in E. destruct (Nat.ltb _ _); [discriminate|]. destruct (write _ _ _); [|discriminate]. injection E as <-. exact Hs. Qed.
Lemma round16_512 n : (n <= 512)%nat -> (round16 n <= 512)%nat.
Proof. intros H. unfold round16. pose proof (Nat.div_le_mono (n + 15) 527 16 ltac:(lia) ltac:(lia)) as X. change (527 / 16)%nat with 32%nat in X. lia. Qed.
Lemma small_chunk k c len now o c' : (len <= 512)%nat -> small k c -> get_chunk c len now = Ret (o, c') -> small (S k) c'.
Proof.
  intros Hl Hs E. unfold get_chunk in E. bindH E. destruct a as ((o1, b), c1). pose proof (small_find k (round16 len) _ now (round16_512 _ Hl) _ _ _ _ _ _ _ _ Hs B) as H1.
  destruct o1 as [i|]; [|injection E as <- <-; exact H1]. bindH E. rename a into n. pose proof (small_deref _ _ _ _ H1 B0) as Hn.
  match type of E with context [if b then ?x else c1] => assert (H2 : small (S k) (if b then x else c1)) by (destruct b; [|exact H1]; apply (small_setn _ c1 i (n_set_off n (c_end c1)) H1 Hn)); set (c2 := if b then x else c1) in * end. clearbody c2.
  bindH E. bindH E. injection E as <- <-. exact (small_mem _ _ _ _ _ H2 B2).
Qed.
Section Add.
Context (raw : list Z -> list cnode -> nat -> Z) (ignore parallel : bool) (get : list Z -> option ctrl).
Lemma small_equal k content now ttl : forall fuel c start c', small k c -> equal_loop raw ignore fuel c content start now ttl = Ret c' -> small k c'.
Proof.
  induction fuel as [|fuel IH]; intros c start c' Hs E; [discriminate|]. cbn [equal_loop] in E. bindH E. destruct a as [i|]; [|injection E as <-; exact Hs]. bindH E.
  refine (IH _ _ _ _ E). apply small_setn; [exact Hs|]. exact (small_deref _ _ _ _ Hs B0).
Qed.
Lemma small_insert k c key i c' : small k c -> insert_to_slot c key i = Ret c' -> small k c'.
Proof.
  intros Hs E. unfold insert_to_slot in E. cbv zeta in E. bindH E. pose proof (small_deref _ _ _ _ Hs B) as Hn.
  match type of E with context [setn c i ?n] => assert (H1 : small k (setn c i n)) by (apply small_setn; [exact Hs|exact Hn]); set (c1 := setn c i n) in * end. clearbody c1.
  destruct (nth_error _ _); [|injection E as <-; exact H1]. bindH E. injection E as <-. match goal with |- small k (with_slots ?x _) => apply (small_nodes k x _ eq_refl) end. apply small_setn; [exact H1|exact (small_deref _ _ _ _ H1 B0)].
Qed.
Lemma small_add k c inf r now code c' : small k c -> add_item raw ignore parallel get inf c r now = Ret (code, c') -> small (S k) c'.
Proof.
  intros Hs E. unfold add_item in E. destruct (item_of r) as [e|item] eqn:Ei; [injection E as <- <-; now apply small_S|].
  assert (Hlen : (1 + length item <= 512)%nat).
  { unfold item_of in Ei. repeat match type of Ei with (if ?b then _ else _) = _ => destruct b eqn:?; [discriminate|] end. destruct (r_data r) as [|d0 d1] eqn:Ed; [discriminate|].
    match type of Ei with (if ?b then _ else _) = _ => destruct b eqn:Eb; [discriminate|] end. injection Ei as <-. rewrite app_length. cbn [length] in *. lia. }
  bindH E. destruct a as [x|]; [injection E as <- <-; now apply small_S|]. cbv zeta in E. destruct (_ =? 0); [injection E as <- <-; now apply small_S|].
  bindH E. destruct a as (o, c1). pose proof (small_chunk _ _ _ _ _ _ Hlen Hs B0) as H1. destruct o as [i|]; [|injection E as <- <-; exact H1].
  bindH E. rename a into n. pose proof (small_deref _ _ _ _ H1 B1) as Hn. bindH E. rename a into c2. pose proof (small_mem _ _ _ _ _ H1 B2) as H2.
  match type of E with context [setn c2 i ?m] => assert (H3 : small (S k) (setn c2 i m)) by (apply small_setn; [exact H2|exact Hn]); set (c3 := setn c2 i m) in * end. clearbody c3.
  match type of E with (let! _ := ?o in _) = _ => destruct o as [(t4, c4)| | |] eqn:E4; cbn [bind] in E; [|discriminate..] end.
  assert (H4 : small (S k) c4).
  { destruct parallel; [|injection E4 as <- <-; exact H3]. unfold min_ttl in E4. bindH E4. bindH E4. injection E4 as <- <-. exact (small_equal _ _ _ _ _ _ _ _ H3 B4). }
  bindH E. rename a into n4. pose proof (small_deref _ _ _ _ H4 B3) as Hn4. bindH E. rename a into c5. injection E as <- <-.
  apply (small_nodes _ c5 _ eq_refl). refine (small_insert _ _ _ _ _ _ B4). apply small_setn; [exact H4|exact Hn4].
Qed.
End Add.
Lemma small_2d k c i c' : small k c -> add_to_2d c i = Ret c' -> small k c'.
Proof.
  intros Hs E. unfold add_to_2d in E. bindH E. rename a into n. pose proof (small_deref _ _ _ _ Hs B) as Hn. bindH E. destruct a as (sub, pre).
  match type of E with (let! _ := ?o in _) = _ => destruct o as [c1| | |] eqn:E1; cbn [bind] in E; [|discriminate..] end.
  assert (H1 : small k c1).
  { destruct (sub =? -1); [injection E1 as <-; apply (small_nodes k (setn c i (n_set_used (n_set_slot n (c_free c)) 0)) _ eq_refl); apply small_setn; [exact Hs|exact Hn]|].
    bindH E1. cbv zeta in E1. match type of E1 with context [setn c i ?m] => assert (H2 : small k (setn c i m)) by (apply small_setn; [exact Hs|exact Hn]); set (c2 := setn c i m) in * end. clearbody c2.
    destruct pre as [p|]; [|injection E1 as <-; exact H2]. bindH E1. injection E1 as <-. apply small_setn; [exact H2|exact (small_deref _ _ _ _ H2 B2)]. }
  bindH E. injection E as <-. apply small_setn; [exact H1|exact (small_deref _ _ _ _ H1 B1)].
Qed.
Lemma removelast_small {A} (P : A -> Prop) (l : list A) : (length (removelast l) <= length l)%nat /\ (Forall P l -> Forall P (removelast l)).
Proof.
  induction l as [|x l (IH1 & IH2)]; [split; auto|]. cbn [removelast]. destruct l as [|y l']; [split; [cbn; lia|constructor]|]. split; [cbn [length] in *; lia|].
  intros H. inversion_clear H. constructor; auto.
Qed.
Lemma small_remove k c i c' : small k c -> remove_from_slot c i = Ret c' -> small k c'.
Proof.
  intros Hs E. unfold remove_from_slot in E. bindH E. rename a into n. destruct (n_slot n <? 0); [injection E as <-; exact Hs|]. destruct (nth_error (c_slots c) _); [|injection E as <-; exact Hs].
  bindH E. match type of E with (let! _ := ?o in _) = _ => destruct o as [c1| | |] eqn:E1; cbn [bind] in E; [|discriminate..] end.
  assert (H1 : small k c1).
  { destruct a as [q|]; [|injection E1 as <-; exact Hs]. bindH E1. injection E1 as <-. apply small_setn; [exact Hs|exact (small_deref _ _ _ _ Hs B1)]. }
  destruct (negb _); [exact (small_2d _ _ _ _ H1 E)|]. injection E as <-. destruct H1 as (L1 & L2). destruct (removelast_small (fun n => (n_len n <= 512)%nat) (c_nodes c1)) as (R1 & R2).
  split; cbn [c_nodes with_nodes]; [lia|auto].
Qed.
Lemma small_sweep_loop k now : forall n c got c' got', small k c -> sweep_loop c n now got = Ret (c', got') -> small k c'.
Proof.
  induction n as [|n IH]; intros c got c' got' Hs E; cbn [sweep_loop] in E; [injection E as <- <-; exact Hs|]. destruct (nth_error (c_nodes c) n) as [x|] eqn:En; [|injection E as <- <-; exact Hs].
  assert (Hx : (n_len x <= 512)%nat) by (destruct Hs as (_ & Hs); rewrite Forall_forall in Hs; exact (Hs _ (nth_error_In _ _ En))).
  destruct (_ && _); [|exact (IH _ _ _ _ Hs E)]. cbv zeta in E.
  match type of E with context [setn c ?i ?m] => assert (H2 : small k (setn c i m)) by (apply small_setn; [exact Hs|exact Hx]); set (c2 := setn c i m) in * end. clearbody c2.
  bindH E. bindH E. refine (IH _ _ _ _ _ E). apply (small_nodes _ a0 _ eq_refl). refine (small_remove _ _ _ _ _ B0). exact (small_mem _ _ _ _ _ H2 B).
Qed.
Lemma small_sweep k c now c' : small k c -> cache_sweep c now = Ret c' -> small k c'.
Proof.
  intros Hs E. unfold cache_sweep in E. bindH E. destruct a as (c1, got). pose proof (small_sweep_loop _ _ _ _ _ _ _ Hs B) as H1.
  destruct got; [|injection E as <-; exact H1]. destruct (length (c_nodes c1)) eqn:El; [injection E as <-; exact H1|]. destruct (nth_error _ _); [|discriminate]. injection E as <-. exact H1.
Qed.
