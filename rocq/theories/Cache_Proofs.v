(** Lemmas about dnscache.c: searching. *)
From Verif Require Import Base BaseFacts ListFacts List2Facts Hash_Model Sht_Model Sht_Proofs Gen_Model Cht_Model Cht_Proofs Cht_Inv Cache_Model Cache_Spec.
From Coq Require Import Permutation.
Require Import ZifyBool ZifyNat.

(** * Lists *)
Fixpoint is_prefix (a b : list Z) : bool :=
  match a, b with [], _ => true | x :: a', y :: b' => (x =? y) && is_prefix a' b' | _, [] => false end.
Lemma is_prefix_iff a : forall b, is_prefix a b = true <-> prefix a b.
Proof.
  unfold prefix. induction a as [|x a IH]; intros b; cbn [is_prefix].
  - split; [exists b; reflexivity|reflexivity].
  - destruct b as [|y b]; [split; [discriminate|intros (z & E); discriminate]|]. rewrite andb_true_iff, Z.eqb_eq, IH. split.
    + intros (-> & z & ->). exists z. reflexivity.
    + intros (z & E). injection E as -> ->. eauto.
Qed.
Lemma cstr_nul t r : ~ In 0 t -> cstr (t ++ 0 :: r) = t.
Proof.
  intros H. induction t as [|x t IH]; cbn [app cstr]; [reflexivity|]. destruct (Z.eqb_spec x 0) as [->|E]; [exfalso; apply H; cbn; auto|].
  f_equal. apply IH. intros Hx. apply H. cbn; auto.
Qed.
Lemma cstr_no_nul t : ~ In 0 t -> cstr t = t.
Proof.
  intros H. induction t as [|x t IH]; cbn [cstr]; [reflexivity|]. destruct (Z.eqb_spec x 0) as [->|E]; [exfalso; apply H; cbn; auto|].
  f_equal. apply IH. intros Hx. apply H. cbn; auto.
Qed.
Lemma cstr_in x l : In x (cstr l) -> x <> 0.
Proof. induction l as [|y l IH]; cbn [cstr]; [tauto|]. destruct (Z.eqb_spec y 0); [intros []|]. intros [<-|H]; auto. Qed.
(** Comparing with "key NUL" is comparing the text. *)
Lemma prefix_key k b d : ~ In 0 k -> ~ In 0 b -> is_prefix (k ++ [0]) (b ++ 0 :: d) = if list_eq_dec Z.eq_dec b k then true else false.
Proof.
  revert b. induction k as [|x k IH]; intros b Hk Hb.
  - destruct b as [|y b]; cbn [app is_prefix]; [reflexivity|]. destruct (Z.eqb_spec 0 y) as [<-|E]; [exfalso; apply Hb; cbn; auto|]. destruct (list_eq_dec Z.eq_dec (y :: b) []); [discriminate|reflexivity].
  - destruct b as [|y b]; cbn [app is_prefix].
    + destruct (Z.eqb_spec x 0) as [->|E]; [exfalso; apply Hk; cbn; auto|]. reflexivity.
    + rewrite IH; [|intros Hx; apply Hk; cbn; auto|intros Hx; apply Hb; cbn; auto]. destruct (Z.eqb_spec x y) as [->|E]; cbn [andb].
      * destruct (list_eq_dec Z.eq_dec b k) as [Eb|N], (list_eq_dec Z.eq_dec (y :: b) (y :: k)); congruence.
      * destruct (list_eq_dec Z.eq_dec (y :: b) (x :: k)); congruence.
Qed.
Lemma filter_split {A} (q : A -> bool) l x r : filter q l = x :: r -> exists l1 l2, l = l1 ++ x :: l2 /\ q x = true /\ filter q l1 = [] /\ filter q l2 = r.
Proof.
  induction l as [|y l IH]; cbn [filter]; [discriminate|]. destruct (q y) eqn:E.
  - intros H. injection H as -> <-. exists [], l. auto.
  - intros H. destruct (IH H) as (l1 & l2 & -> & H1 & H2 & H3). exists (y :: l1), l2. cbn [filter app]. rewrite E. auto.
Qed.
Lemma filter_filter {A} (p q : A -> bool) l : filter p (filter q l) = filter (fun x => q x && p x) l.
Proof. induction l as [|x l IH]; cbn [filter]; [reflexivity|]. destruct (q x); cbn [filter andb]; [destruct (p x); congruence|exact IH]. Qed.
Lemma filter_length_le' {A} (q : A -> bool) l : (length (filter q l) <= length l)%nat.
Proof. induction l as [|x l IH]; cbn [filter length]; [lia|]. destruct (q x); cbn [length]; lia. Qed.

(** * Searching *)
Section Find.
Context (raw : list Z -> list cnode -> nat -> Z) (ignore : bool).
Notation mem_eq := (mem_eq raw). Notation rd := (rd raw).
Notation find_from_loop := (find_from_loop raw ignore). Notation find_from := (find_from raw ignore).

Lemma rd_mem c a b : (a < bottom c)%nat -> nth_error (c_mem c) a = Some b -> rd c a = Ret b.
Proof. intros H E. unfold Cache_Model.rd. rewrite (proj2 (Nat.ltb_lt _ _) H), E. reflexivity. Qed.
Lemma rd_total c a : length (c_mem c) = c_size c -> (a < c_size c)%nat -> exists b, rd c a = Ret b.
Proof.
  intros H Ha. unfold Cache_Model.rd. destruct (Nat.ltb_spec a (bottom c)); [|destruct (Nat.ltb_spec a (c_size c)); [eauto|lia]].
  destruct (nth_error (c_mem c) a) eqn:E; [eauto|]. apply nth_error_None in E. lia.
Qed.
Lemma mem_eq_total c content : forall off, length (c_mem c) = c_size c ->
  (exists b, mem_eq c content off = Ret b) \/ (mem_eq c content off = UBR /\ (c_size c < off + length content)%nat).
Proof.
  induction content as [|x r IH]; intros off H; cbn [Cache_Model.mem_eq]; [left; eauto|].
  destruct (Nat.lt_ge_cases off (c_size c)) as [Ho|Ho].
  - destruct (rd_total c off H Ho) as (b & ->). cbn [bind]. destruct (x =? b); [|left; eauto].
    destruct (IH (S off) H) as [E|(E & Hs)]; [left; exact E|right; split; [exact E|]]. cbn [length]. lia.
  - right. unfold Cache_Model.rd at 1. destruct (Nat.ltb_spec off (bottom c)); [unfold bottom in *; lia|]. destruct (Nat.ltb_spec off (c_size c)); [lia|].
    cbn [bind length]. split; [reflexivity|lia].
Qed.
Lemma mem_eq_spec c bs : forall content off, slice (c_mem c) off (length bs) = Some bs -> (off + length bs <= bottom c)%nat ->
  mem_eq c content off = if is_prefix content bs then Ret true else if is_prefix bs content then mem_eq c (skipn (length bs) content) (off + length bs) else Ret false.
Proof.
  induction bs as [|b bs IH]; intros content off Hs Hb.
  - destruct content; cbn [is_prefix length skipn]; [reflexivity|]. rewrite Nat.add_0_r. reflexivity.
  - destruct content as [|x r]; cbn [is_prefix length skipn]; [reflexivity|]. cbn [Cache_Model.mem_eq].
    cbn [length] in Hs, Hb. rewrite (rd_mem c off b); [|lia|].
    2:{ pose proof (slice_nth _ _ _ _ 0 Hs ltac:(lia)) as E. rewrite Nat.add_0_r in E. cbn in E. congruence. }
    cbn [bind]. rewrite (Z.eqb_sym b x). destruct (Z.eqb_spec x b) as [->|E]; cbn [andb]; [|reflexivity].
    rewrite IH; [replace (S off + length bs)%nat with (off + S (length bs))%nat by lia; reflexivity| |lia].
    apply slice_some in Hs. destruct Hs as (Hl & Hs). apply slice_some. split; [lia|].
    assert (E : skipn off (c_mem c) = b :: skipn (S off) (c_mem c)).
    { destruct (skipn off (c_mem c)) as [|y m] eqn:Em; [discriminate|]. cbn [firstn] in Hs. injection Hs as -> _. f_equal.
      replace (S off) with (off + 1)%nat by lia. rewrite <- skipn_skipn', Em. reflexivity. }
    rewrite E in Hs. cbn [firstn] in Hs. injection Hs as Hs. exact Hs.
Qed.

(** The nodes that a search visits from [start] on. *)
Definition at_ (c : cache) (key : list Z) (start : option Z) (l : list nat) : Prop :=
  match start with
  | None => nth_error (c_slots c) (slot_of c key) = Some (hz l (-1))
  | Some z => exists i n, z = Z.of_nat i /\ nth_error (c_nodes c) i = Some n /\ n_next n = hz l (-1)
  end.
Lemma ht_get_ok c key start l : at_ c key start l -> seg n_next (c_nodes c) l (-1) ->
  ht_get c key start = Ret (match l with [] => None | i :: _ => Some (Z.of_nat i) end).
Proof.
  intros H Hs. unfold ht_get.
  assert (E : (match start with None => match nth_error (c_slots c) (slot_of c key) with None => UBR | Some h => Ret h end
               | Some i => let! n := derefn c i in Ret (n_next n) end) = Ret (hz l (-1))).
  { destruct start as [z|]; cbn [at_] in H; [|rewrite H; reflexivity]. destruct H as (i & n & -> & Hn & E). rewrite (derefn_nat c i n Hn). cbn [bind]. congruence. }
  rewrite E. cbn [bind]. destruct l as [|i l]; cbn [hz]; [reflexivity|]. rewrite getn_nat. destruct (seg_in _ _ _ _ i Hs) as (n & ->); [cbn; auto|reflexivity].
Qed.

Notation pairs := (list (nat * sitem)).
Definition first (P : pairs) : option Z := match P with [] => None | (i, _) :: _ => Some (Z.of_nat i) end.
Definition sfresh (now : Z) (e : sitem) : bool := ignore || (now - si_time e <? si_ttl e).
(** A search whose test of each visited item is [Q]. *)
Lemma find_loop_ok c content now (Q : sitem -> bool) : forall (P : pairs) start fuel,
  at_ c (cstr content) start (map fst P) -> seg n_next (c_nodes c) (map fst P) (-1) -> (length P < fuel)%nat ->
  (forall i e, In (i, e) P -> exists n, nth_error (c_nodes c) i = Some n /\ n_ttl n = si_ttl e /\ n_time n = si_time e /\
     (sfresh now e = true -> mem_eq c content (n_off n + 1) = Ret (Q e)) /\ (sfresh now e = false -> Q e = false)) ->
  find_from_loop fuel c content start now = Ret (first (filter (fun p => Q (snd p)) P)).
Proof.
  induction P as [|[i e] P IH]; intros start fuel Hat Hseg Hf HP; (destruct fuel as [|fuel]; [cbn [length] in Hf; lia|]); cbn [Cache_Model.find_from_loop];
    rewrite (ht_get_ok _ _ _ _ Hat Hseg); cbn [bind map fst filter snd]; [reflexivity|].
  destruct (HP i e (or_introl eq_refl)) as (n & Hn & E1 & E2 & H1 & H2). rewrite (derefn_nat c i n Hn). cbn [bind].
  cbn [map fst seg] in Hseg. destruct Hseg as ((n' & Hn' & Hnx) & Hseg). assert (n' = n) by congruence. subst n'.
  assert (IH' : find_from_loop fuel c content (Some (Z.of_nat i)) now = Ret (first (filter (fun p => Q (snd p)) P))).
  { apply IH; [|exact Hseg|cbn [length] in Hf; lia|intros; apply HP; cbn; auto]. cbn [at_]. exists i, n. auto. }
  unfold sfresh in H1, H2. rewrite E1, E2. destruct (ignore || (now - si_time e <? si_ttl e)).
  - rewrite H1 by reflexivity. cbn [bind]. destruct (Q e); [reflexivity|exact IH'].
  - rewrite H2 by reflexivity. exact IH'.
Qed.
(** A search for a whole item. *)
Lemma find_item_ok c content now : length (c_mem c) = c_size c -> forall (P : pairs) start fuel,
  at_ c (cstr content) start (map fst P) -> seg n_next (c_nodes c) (map fst P) (-1) -> (length P < fuel)%nat ->
  (forall i e, In (i, e) P -> exists n, nth_error (c_nodes c) i = Some n /\ n_ttl n = si_ttl e /\ n_time n = si_time e /\
     slice (c_mem c) (n_off n + 1) (length (si_bytes e)) = Some (si_bytes e) /\ (n_off n + 1 + length (si_bytes e) <= bottom c)%nat) ->
  (find_from_loop fuel c content start now = UBR /\ (slot_size * length (c_slots c) < length content)%nat /\ exists i e, In (i, e) P /\ sfresh now e = true /\ prefix (si_bytes e) content) \/
  (find_from_loop fuel c content start now = Ret None /\ forall i e, In (i, e) P -> sfresh now e = true -> ~ prefix content (si_bytes e)) \/
  (exists i e, In (i, e) P /\ find_from_loop fuel c content start now = Ret (Some (Z.of_nat i)) /\ sfresh now e = true /\
     (prefix content (si_bytes e) \/ prefix (si_bytes e) content)).
Proof.
  intros Hmem. induction P as [|[i e] P IH]; intros start fuel Hat Hseg Hf HP; (destruct fuel as [|fuel]; [cbn [length] in Hf; lia|]); cbn [Cache_Model.find_from_loop];
    rewrite (ht_get_ok _ _ _ _ Hat Hseg); cbn [bind map fst]; [right; left; split; [reflexivity|intros ? ? []]|].
  destruct (HP i e (or_introl eq_refl)) as (n & Hn & E1 & E2 & H1 & H2). rewrite (derefn_nat c i n Hn). cbn [bind].
  cbn [map fst seg] in Hseg. destruct Hseg as ((n' & Hn' & Hnx) & Hseg). assert (n' = n) by congruence. subst n'.
  assert (IH' := IH (Some (Z.of_nat i)) fuel). rewrite E1, E2. clear IH.
  assert (Hskip : (sfresh now e = true -> ~ prefix content (si_bytes e)) ->
    (find_from_loop fuel c content (Some (Z.of_nat i)) now = UBR /\ (slot_size * length (c_slots c) < length content)%nat /\ exists j f, In (j, f) ((i, e) :: P) /\ sfresh now f = true /\ prefix (si_bytes f) content) \/
    (find_from_loop fuel c content (Some (Z.of_nat i)) now = Ret None /\ forall j f, In (j, f) ((i, e) :: P) -> sfresh now f = true -> ~ prefix content (si_bytes f)) \/
    (exists j f, In (j, f) ((i, e) :: P) /\ find_from_loop fuel c content (Some (Z.of_nat i)) now = Ret (Some (Z.of_nat j)) /\ sfresh now f = true /\
       (prefix content (si_bytes f) \/ prefix (si_bytes f) content))).
  { intros Hno. destruct IH' as [A|[(A & B)|(j & f & A & B & C)]].
    - cbn [at_]. exists i, n. auto.
    - exact Hseg.
    - cbn [length] in Hf; lia.
    - intros; apply HP; cbn; auto.
    - left. destruct A as (A1 & A2 & j & f & A3 & A4). split; [exact A1|]. split; [exact A2|]. exists j, f. cbn [In]. auto.
    - right; left. split; [exact A|]. intros j f [E|Hj]; [injection E as <- <-; exact Hno|eauto].
    - right; right. exists j, f. cbn [In]. auto. }
  fold (sfresh now e). destruct (sfresh now e) eqn:Ef; [|apply Hskip; discriminate].
  rewrite (mem_eq_spec c (si_bytes e) content (n_off n + 1) H1 H2).
  destruct (is_prefix content (si_bytes e)) eqn:Ep.
  - apply is_prefix_iff in Ep. cbn [bind]. right; right. exists i, e. cbn [In]. auto.
  - assert (Hnp : ~ prefix content (si_bytes e)) by (rewrite <- is_prefix_iff; congruence).
    destruct (is_prefix (si_bytes e) content) eqn:Ep'; [|cbn [bind]; apply Hskip; auto].
    apply is_prefix_iff in Ep'. set (rest := skipn (length (si_bytes e)) content).
    destruct (mem_eq_total c rest (n_off n + 1 + length (si_bytes e)) Hmem) as [(b & E)|(E & Hs)]; rewrite E; cbn [bind].
    + destruct b; [|apply Hskip; auto]. right; right. exists i, e. cbn [In]. auto.
    + left. split; [reflexivity|]. split; [|exists i, e; cbn [In]; auto]. unfold rest in Hs. rewrite skipn_length in Hs. destruct Ep' as (z & ->). rewrite app_length in *. unfold bottom in H2. lia.
Qed.
End Find.
