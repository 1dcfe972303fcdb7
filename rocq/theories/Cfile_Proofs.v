(** Lemmas about the cache's file. *)
From Verif Require Import Base BaseFacts ListFacts List2Facts Hash_Model Sht_Model Sht_Proofs Gen_Model Cht_Model Cht_Proofs Cht_Inv Cache_Model Cache_Spec
  Cache_Proofs Cache2_Proofs Cache3_Proofs Cfile_Model Cfile_Spec.
Require Import ZifyBool ZifyNat.
Set Default Proof Using "Type".

(** * Integers in memory *)
Lemma le_length k : forall v, length (le k v) = k.
Proof. induction k as [|k IH]; intros v; cbn [le length]; [reflexivity|]. now rewrite IH. Qed.
Lemma unle_le k : forall v, unle (le k v) = v mod (256 ^ Z.of_nat k).
Proof.
  induction k as [|k IH]; intros v; cbn [le unle]; [now rewrite Z.mod_1_r|]. rewrite IH.
  replace (Z.of_nat (S k)) with (Z.succ (Z.of_nat k)) by lia. rewrite Z.pow_succ_r by lia. rewrite Z.rem_mul_r by lia. reflexivity.
Qed.
Lemma unle4 v : unle (le 4 v) = v mod 4294967296.
Proof. rewrite unle_le. reflexivity. Qed.
Lemma unle8 v : unle (le 8 v) = v mod 18446744073709551616.
Proof. rewrite unle_le. reflexivity. Qed.
Lemma s32_le v : -2147483648 <= v < 2147483648 -> s32 (unle (le 4 v)) = v.
Proof.
  intros H. rewrite unle4. unfold s32. destruct (Z.ltb_spec v 0).
  - assert (E : v mod 4294967296 = v + 4294967296) by (symmetry; apply (Z.mod_unique _ _ (-1)); lia). rewrite E.
    destruct (Z.ltb_spec (v + 4294967296) 2147483648); lia.
  - rewrite Z.mod_small by lia. destruct (Z.ltb_spec v 2147483648); lia.
Qed.
Lemma s64_le v : -9223372036854775808 <= v < 9223372036854775808 -> s64 (unle (le 8 v)) = v.
Proof.
  intros H. rewrite unle8. unfold s64. destruct (Z.ltb_spec v 0).
  - assert (E : v mod 18446744073709551616 = v + 18446744073709551616) by (symmetry; apply (Z.mod_unique _ _ (-1)); lia). rewrite E.
    destruct (Z.ltb_spec (v + 18446744073709551616) 9223372036854775808); lia.
  - rewrite Z.mod_small by lia. destruct (Z.ltb_spec v 9223372036854775808); lia.
Qed.

(** * Reading a field *)
Lemma slice_mid {A} (a x b : list A) i n : i = length a -> n = length x -> slice (a ++ x ++ b) i n = Some x.
Proof.
  intros -> ->. unfold slice. rewrite !app_length. destruct (Nat.leb_spec (length a + length x) (length a + (length x + length b))); [|lia].
  rewrite skipn_app, Nat.sub_diag, skipn_all. cbn [app skipn]. rewrite firstn_app, Nat.sub_diag, firstn_all. cbn [firstn]. now rewrite app_nil_r.
Qed.
Lemma field_mid k a v b p : p = Z.of_nat (length a) -> field k (a ++ le k v ++ b) p = Ret (unle (le k v)).
Proof.
  intros ->. unfold field. destruct (Z.ltb_spec (Z.of_nat (length a)) 0); [lia|].
  rewrite slice_mid; [reflexivity|lia|now rewrite le_length].
Qed.
Lemma i32_mid a v b p : p = Z.of_nat (length a) -> -2147483648 <= v < 2147483648 -> i32 (a ++ le 4 v ++ b) p = Ret v.
Proof. intros H Hv. unfold i32. rewrite field_mid by exact H. cbn [bind]. now rewrite s32_le. Qed.

Lemma concat_width {A B} (f : A -> list B) w l : (forall x, length (f x) = w) -> length (concat (map f l)) = (w * length l)%nat.
Proof. intros H. induction l as [|x l IH]; cbn [map concat length]; [lia|]. rewrite app_length, H, IH. lia. Qed.
Lemma concat_split {A B} (f : A -> list B) l i x : nth_error l i = Some x ->
  concat (map f l) = concat (map f (firstn i l)) ++ f x ++ concat (map f (skipn (S i) l)).
Proof.
  intros H. rewrite <- (firstn_skipn i l) at 1. rewrite (skipn_nth i l x H), map_app, concat_app. reflexivity.
Qed.

Lemma elements_ok {A} (get : Z -> outcome A) (l : list A) : (forall i x, nth_error l i = Some x -> get (Z.of_nat i) = Ret x) -> elements get (length l) = Ret l.
Proof.
  intros H. assert (G : forall k, (k <= length l)%nat -> elements get k = Ret (firstn k l)).
  { induction k as [|k IH]; intros Hk; cbn [elements]; [reflexivity|]. rewrite IH by lia. cbn [bind].
    destruct (nth_error l k) as [x|] eqn:E; [|apply nth_error_None in E; lia]. rewrite (H k x E). cbn [bind].
    f_equal. rewrite <- (firstn_skipn k l) at 2. rewrite firstn_app, firstn_firstn, firstn_length, (skipn_nth k l x E).
    replace (Nat.min (S k) k) with k by lia. replace (S k - Nat.min k (length l))%nat with 1%nat by lia. reflexivity. }
  rewrite G by lia. now rewrite firstn_all.
Qed.

Lemma field_at k m a v b p : m = a ++ le k v ++ b -> p = Z.of_nat (length a) -> field k m p = Ret (unle (le k v)).
Proof. intros -> ->. now apply field_mid. Qed.
Lemma i32_at m a v b p : m = a ++ le 4 v ++ b -> p = Z.of_nat (length a) -> -2147483648 <= v < 2147483648 -> i32 m p = Ret v.
Proof. intros -> -> H. now apply i32_mid. Qed.

Lemma node_bytes_length n : length (node_bytes n) = 32%nat.
Proof. unfold node_bytes. rewrite !app_length, !le_length. reflexivity. Qed.

(** What fits the fields of a node; [k] is the number of operations so far. *)
Definition zr (z : Z) : Prop := -1 <= z < 2147483648.
Record nr (k : nat) (n : cnode) : Prop := {
  nr_slot : zr (n_slot n);
  nr_next : zr (n_next n);
  nr_ttl : 0 <= n_ttl n < 4294967296;
  nr_time : -9223372036854775808 <= n_time n < 9223372036854775808;
  nr_used : 0 <= n_used n <= 512 + Z.of_nat k }.

Lemma node_at_ok k m a n b p : m = a ++ node_bytes n ++ b -> p = Z.of_nat (length a) -> nr k n -> Z.of_nat k < 2147480000 ->
  Z.of_nat (n_off n) < 2147483648 -> Z.of_nat (n_len n) < 4294967296 -> node_at m p = Ret n.
Proof.
  intros E Ep [H1 H2 H3 H4 H5] Hk Ho Hl. unfold zr in *. unfold node_at. unfold node_bytes in E. rewrite <- !app_assoc in E.
  set (s := le 4 (n_slot n)) in *. set (x := le 4 (n_next n)) in *. set (o := le 4 (Z.of_nat (n_off n))) in *. set (t := le 4 (n_ttl n)) in *.
  set (w := le 8 (n_time n)) in *. set (l := le 4 (Z.of_nat (n_len n))) in *. set (u := le 4 (n_used n)) in *.
  assert (Ls : length s = 4%nat) by apply le_length. assert (Lx : length x = 4%nat) by apply le_length. assert (Lo : length o = 4%nat) by apply le_length.
  assert (Lt : length t = 4%nat) by apply le_length. assert (Lw : length w = 8%nat) by apply le_length. assert (Ll : length l = 4%nat) by apply le_length.
  rewrite (i32_at m a (n_slot n) (x ++ o ++ t ++ w ++ l ++ u ++ b) p E Ep) by lia. cbn [bind].
  rewrite (i32_at m (a ++ s) (n_next n) (o ++ t ++ w ++ l ++ u ++ b) (p + 4)); [|rewrite <- !app_assoc; exact E|rewrite !app_length; lia|lia]. cbn [bind].
  rewrite (i32_at m (a ++ s ++ x) (Z.of_nat (n_off n)) (t ++ w ++ l ++ u ++ b) (p + 8)); [|rewrite <- !app_assoc; exact E|rewrite !app_length; lia|lia]. cbn [bind].
  rewrite (field_at 4 m (a ++ s ++ x ++ o) (n_ttl n) (w ++ l ++ u ++ b) (p + 12)); [|rewrite <- !app_assoc; exact E|rewrite !app_length; lia]. cbn [bind].
  rewrite (field_at 8 m (a ++ s ++ x ++ o ++ t) (n_time n) (l ++ u ++ b) (p + 16)); [|rewrite <- !app_assoc; exact E|rewrite !app_length; lia]. cbn [bind].
  rewrite (field_at 4 m (a ++ s ++ x ++ o ++ t ++ w) (Z.of_nat (n_len n)) (u ++ b) (p + 24)); [|rewrite <- !app_assoc; exact E|rewrite !app_length; lia]. cbn [bind].
  rewrite (i32_at m (a ++ s ++ x ++ o ++ t ++ w ++ l) (n_used n) b (p + 28)); [|rewrite <- !app_assoc; exact E|rewrite !app_length; lia|lia]. cbn [bind].
  rewrite s64_le by lia. rewrite !unle4, !Z.mod_small by lia. rewrite !Nat2Z.id. destruct n. reflexivity.
Qed.

(** * The image of a cache *)
Lemma header_length pn ps c : length (header_bytes pn ps c) = 128%nat.
Proof. unfold header_bytes. rewrite !app_length, !le_length, repeat_length. reflexivity. Qed.
Lemma image_length pn ps c : length (c_mem c) = c_size c -> (128 + 32 * length (c_nodes c) + 4 * length (c_slots c) <= c_size c)%nat -> length (image pn ps c) = c_size c.
Proof.
  intros Hm Hs. unfold image, bottom, header_size, node_size, slot_size. rewrite !app_length, header_length, firstn_length, skipn_length.
  rewrite (concat_width node_bytes 32) by (intros; apply node_bytes_length). rewrite (concat_width (le 4) 4) by (intros; apply le_length).
  rewrite rev_length. lia.
Qed.
Lemma image_mem pn ps c a : length (c_mem c) = c_size c -> (128 + 32 * length (c_nodes c) + 4 * length (c_slots c) <= c_size c)%nat ->
  (128 <= a < bottom c)%nat -> nth_error (image pn ps c) a = nth_error (c_mem c) a.
Proof.
  intros Hm Hs Ha. unfold image, header_size. rewrite nth_error_app2 by (rewrite header_length; lia). rewrite header_length.
  assert (Hl : length (firstn (bottom c - 128) (skipn 128 (c_mem c))) = (bottom c - 128)%nat) by (rewrite firstn_length, skipn_length; unfold bottom, node_size, slot_size in *; lia).
  rewrite nth_error_app1 by lia. rewrite nth_error_firstn. destruct (Nat.ltb_spec (a - 128) (bottom c - 128)); [|lia].
  rewrite nth_error_skipn. f_equal. lia.
Qed.

Lemma hfield_at k m h r i a v b : m = h ++ r -> h = a ++ le k v ++ b -> i = Z.of_nat (length a) -> field k m i = Ret (unle (le k v)).
Proof. intros -> -> ->. apply (field_at k _ a v (b ++ r)); [now rewrite <- !app_assoc|reflexivity]. Qed.
Lemma hi32_at m h r i a v b : m = h ++ r -> h = a ++ le 4 v ++ b -> i = Z.of_nat (length a) -> -2147483648 <= v < 2147483648 -> i32 m i = Ret v.
Proof. intros -> -> -> Hv. apply (i32_at _ a v (b ++ r)); [now rewrite <- !app_assoc|reflexivity|exact Hv]. Qed.

Lemma header_fields pn ps c r (size := Z.of_nat (c_size c)) (nn := Z.of_nat (length (c_nodes c))) (ns := Z.of_nat (length (c_slots c))) :
  let m := header_bytes pn ps c ++ r in
  size < 2147483648 -> Z.of_nat (c_end c) < 2147483648 -> -2147483648 <= c_count c < 2147483648 -> nn < 2147483648 -> ns < 2147483648 -> -2147483648 <= c_free c < 2147483648 ->
  field 4 m 0 = Ret 23 /\ i32 m 4 = Ret size /\ i32 m 8 = Ret (Z.of_nat (c_end c)) /\ i32 m 12 = Ret (c_count c) /\ i32 m 24 = Ret 32 /\ i32 m 28 = Ret nn /\ i32 m 32 = Ret (-1) /\ i32 m 48 = Ret 4 /\ i32 m 52 = Ret ns /\ i32 m 56 = Ret ns /\ i32 m 64 = Ret (c_free c).
Proof.
  intros m H1 H2 H3 H4 H5 H6. subst m. unfold size, nn, ns in *. clear size nn ns.
  set (m := header_bytes pn ps c ++ r). assert (Em : m = header_bytes pn ps c ++ r) by reflexivity. clearbody m.
  set (v := le 4 CACHE_VERSION). set (sz := le 4 (Z.of_nat (c_size c))). set (en := le 4 (Z.of_nat (c_end c))). set (co := le 4 (c_count c)).
  set (p := le 8 pn). set (q := le 8 ps). set (w := le 4 32). set (nn := le 4 (Z.of_nat (length (c_nodes c)))). set (an := le 4 (-1)). set (z := le 4 0).
  set (w' := le 4 4). set (ns := le 4 (Z.of_nat (length (c_slots c)))). set (fr := le 4 (c_free c)).
  assert (Eh : header_bytes pn ps c = v ++ sz ++ en ++ co ++ p ++ w ++ nn ++ an ++ z ++ q ++ w' ++ ns ++ ns ++ z ++ fr ++ z ++ note ++ repeat 0 32) by reflexivity.
  assert (L : length v = 4%nat /\ length sz = 4%nat /\ length en = 4%nat /\ length co = 4%nat /\ length p = 8%nat /\ length q = 8%nat /\ length w = 4%nat /\ length nn = 4%nat /\ length an = 4%nat /\ length z = 4%nat /\ length w' = 4%nat /\ length ns = 4%nat) by (repeat split; apply le_length).
  destruct L as (L1 & L2 & L3 & L4 & L5 & L6 & L7 & L8 & L9 & L10 & L11 & L12).
  split; [exact (hfield_at 4 m _ r 0 [] CACHE_VERSION _ Em Eh eq_refl)|].
  assert (G : forall i a x b, header_bytes pn ps c = a ++ le 4 x ++ b -> i = Z.of_nat (length a) -> -2147483648 <= x < 2147483648 -> i32 m i = Ret x).
  { intros i a x b E Ei Hx. exact (hi32_at m _ r i a x b Em E Ei Hx). }
  split; [apply (G 4 v (Z.of_nat (c_size c)) (en ++ co ++ p ++ w ++ nn ++ an ++ z ++ q ++ w' ++ ns ++ ns ++ z ++ fr ++ z ++ note ++ repeat 0 32)); [exact Eh|rewrite ?app_length; lia|lia]|].
  split; [apply (G 8 (v ++ sz) (Z.of_nat (c_end c)) (co ++ p ++ w ++ nn ++ an ++ z ++ q ++ w' ++ ns ++ ns ++ z ++ fr ++ z ++ note ++ repeat 0 32)); [rewrite <- !app_assoc; exact Eh|rewrite ?app_length; lia|lia]|].
  split; [apply (G 12 (v ++ sz ++ en) (c_count c) (p ++ w ++ nn ++ an ++ z ++ q ++ w' ++ ns ++ ns ++ z ++ fr ++ z ++ note ++ repeat 0 32)); [rewrite <- !app_assoc; exact Eh|rewrite ?app_length; lia|lia]|].
  split; [apply (G 24 (v ++ sz ++ en ++ co ++ p) 32 (nn ++ an ++ z ++ q ++ w' ++ ns ++ ns ++ z ++ fr ++ z ++ note ++ repeat 0 32)); [rewrite <- !app_assoc; exact Eh|rewrite ?app_length; lia|lia]|].
  split; [apply (G 28 (v ++ sz ++ en ++ co ++ p ++ w) (Z.of_nat (length (c_nodes c))) (an ++ z ++ q ++ w' ++ ns ++ ns ++ z ++ fr ++ z ++ note ++ repeat 0 32)); [rewrite <- !app_assoc; exact Eh|rewrite ?app_length; lia|lia]|].
  split; [apply (G 32 (v ++ sz ++ en ++ co ++ p ++ w ++ nn) (-1) (z ++ q ++ w' ++ ns ++ ns ++ z ++ fr ++ z ++ note ++ repeat 0 32)); [rewrite <- !app_assoc; exact Eh|rewrite ?app_length; lia|lia]|].
  split; [apply (G 48 (v ++ sz ++ en ++ co ++ p ++ w ++ nn ++ an ++ z ++ q) 4 (ns ++ ns ++ z ++ fr ++ z ++ note ++ repeat 0 32)); [rewrite <- !app_assoc; exact Eh|rewrite ?app_length; lia|lia]|].
  split; [apply (G 52 (v ++ sz ++ en ++ co ++ p ++ w ++ nn ++ an ++ z ++ q ++ w') (Z.of_nat (length (c_slots c))) (ns ++ z ++ fr ++ z ++ note ++ repeat 0 32)); [rewrite <- !app_assoc; exact Eh|rewrite ?app_length; lia|lia]|].
  split; [apply (G 56 (v ++ sz ++ en ++ co ++ p ++ w ++ nn ++ an ++ z ++ q ++ w' ++ ns) (Z.of_nat (length (c_slots c))) (z ++ fr ++ z ++ note ++ repeat 0 32)); [rewrite <- !app_assoc; exact Eh|rewrite ?app_length; lia|lia]|].
  apply (G 64 (v ++ sz ++ en ++ co ++ p ++ w ++ nn ++ an ++ z ++ q ++ w' ++ ns ++ ns ++ z) (c_free c) (z ++ note ++ repeat 0 32)); [rewrite <- !app_assoc; exact Eh|rewrite ?app_length; lia|lia].
Qed.

(** The file of a cache is taken for what it is. *)
Definition wide (k : nat) (c : cache) : Prop := Forall (nr k) (c_nodes c) /\ Forall zr (c_slots c) /\ zr (c_free c).
Record fits (k : nat) (c : cache) : Prop := {
  ft_size : Z.of_nat (c_size c) < 2147483648;
  ft_room : (128 + 32 * length (c_nodes c) + 4 * length (c_slots c) <= c_size c)%nat;
  ft_mem : length (c_mem c) = c_size c;
  ft_end : (c_end c <= c_size c)%nat;
  ft_count : 0 <= c_count c < 2147483648;
  ft_wide : wide k c;
  ft_chunk : forall n, In n (c_nodes c) -> (n_off n + n_len n <= c_size c)%nat;
  ft_k : Z.of_nat k < 2147480000 }.

Lemma nth_rev {A} (l : list A) i x : nth_error l i = Some x -> nth_error (rev l) (length l - S i) = Some x.
Proof.
  intros H. assert (Hi : (i < length l)%nat) by (apply nth_error_Some; congruence).
  rewrite <- (rev_involutive l) in H. rewrite (nth_error_nth' _ x) in H by (rewrite !rev_length; exact Hi). rewrite rev_nth in H by (rewrite rev_length; exact Hi).
  rewrite rev_length in H. rewrite (nth_error_nth' _ x) by (rewrite rev_length; lia). exact H.
Qed.

Lemma reload_image pn ps k c : fits k c -> is_reloadable (image pn ps c) (c_size c) = Ret true /\ reload (image pn ps c) (c_size c) = Ret (with_mem c (image pn ps c)).
Proof.
  intros [H1 H2 H3 H4 H5 (W1 & W2 & W3) H7 H8]. unfold zr in W3.
  set (mid := firstn (bottom c - header_size) (skipn header_size (c_mem c))).
  assert (Lm : length mid = (bottom c - 128)%nat) by (unfold mid, header_size; rewrite firstn_length, skipn_length; unfold bottom, node_size, slot_size in *; lia).
  set (nb := concat (map node_bytes (rev (c_nodes c)))). set (sb := concat (map (le 4) (c_slots c))).
  assert (Ei : image pn ps c = header_bytes pn ps c ++ mid ++ nb ++ sb) by reflexivity.
  destruct (header_fields pn ps c (mid ++ nb ++ sb)) as (F1 & F2 & F3 & F4 & F5 & F6 & F7 & F8 & F9 & F10 & F11); try lia.
  rewrite <- Ei in *. set (m := image pn ps c) in *.
  split.
  { unfold is_reloadable. rewrite F1, F2. cbn [bind]. change (23 =? CACHE_VERSION) with true. rewrite Z.eqb_refl. reflexivity. }
  unfold reload. rewrite F3, F4, F5, F6, F7, F8, F9, F10, F11. cbn [bind]. rewrite !Nat2Z.id.
  set (b := bottom c) in *.
  assert (Eb : Z.of_nat b = Z.of_nat (c_size c) - 4 * Z.of_nat (length (c_slots c)) - 32 * Z.of_nat (length (c_nodes c))) by (unfold b, bottom, slot_size, node_size; lia).
  assert (Hb : (128 <= b)%nat) by lia.
  rewrite (elements_ok _ (c_slots c)).
  2:{ intros i x Hx. assert (Hi : (i < length (c_slots c))%nat) by (apply nth_error_Some; congruence).
      apply (i32_at m (header_bytes pn ps c ++ mid ++ nb ++ concat (map (le 4) (firstn i (c_slots c)))) x (concat (map (le 4) (skipn (S i) (c_slots c))))).
      - rewrite Ei. unfold sb. rewrite (concat_split (le 4) _ i x Hx). rewrite <- !app_assoc. reflexivity.
      - unfold element. destruct (Z.ltb_spec (Z.of_nat (length (c_slots c))) 0); [lia|]. rewrite !app_length, header_length, Lm. unfold nb.
        rewrite (concat_width node_bytes 32) by (intros; apply node_bytes_length). rewrite (concat_width (le 4) 4) by (intros; apply le_length).
        rewrite rev_length, firstn_length. lia.
      - rewrite Forall_forall in W2. apply nth_error_In in Hx. specialize (W2 x Hx). unfold zr in W2. lia. }
  cbn [bind]. rewrite (elements_ok _ (c_nodes c)).
  2:{ intros i n Hn. assert (Hi : (i < length (c_nodes c))%nat) by (apply nth_error_Some; congruence).
      pose proof (nth_rev _ _ _ Hn) as Hr. pose proof (nth_error_In _ _ Hn) as Hin.
      apply (node_at_ok k m (header_bytes pn ps c ++ mid ++ concat (map node_bytes (firstn (length (c_nodes c) - S i) (rev (c_nodes c))))) n
               (concat (map node_bytes (skipn (S (length (c_nodes c) - S i)) (rev (c_nodes c)))) ++ sb)).
      - rewrite Ei. unfold nb. rewrite (concat_split node_bytes _ _ n Hr). rewrite <- !app_assoc. reflexivity.
      - unfold element. cbn [Z.ltb Z.compare]. rewrite !app_length, header_length, Lm.
        rewrite (concat_width node_bytes 32) by (intros; apply node_bytes_length). rewrite firstn_length, rev_length. lia.
      - rewrite Forall_forall in W1. auto.
      - exact H8.
      - specialize (H7 n Hin). lia.
      - specialize (H7 n Hin). lia. }
  cbn [bind]. reflexivity.
Qed.

(** * The numbers stay in their ranges *)
Lemma nr_up k k' n : (k <= k')%nat -> nr k n -> nr k' n.
Proof. intros H [H1 H2 H3 H4 H5]. constructor; auto. lia. Qed.
Lemma wide_up k k' c : (k <= k')%nat -> wide k c -> wide k' c.
Proof. intros H (H1 & H2 & H3). split; [|auto]. eapply Forall_impl; [|exact H1]. intros n. now apply nr_up. Qed.
Lemma forall_lset {A} (P : A -> Prop) l i x : Forall P l -> P x -> Forall P (lset l i x).
Proof.
  intros H Hx. rewrite Forall_forall in *. intros y Hy. apply In_nth_error in Hy. destruct Hy as (j & Hj). rewrite lset_nth in Hj.
  destruct (Nat.eqb i j); [destruct (Nat.ltb j (length l))|]; try (injection Hj as <-; exact Hx); try discriminate; apply H; eapply nth_error_In; eauto.
Qed.
Lemma wide_setn k c i n : wide k c -> nr k n -> wide k (setn c i n).
Proof. intros (H1 & H2 & H3) Hn. split; [apply forall_lset; assumption|split; assumption]. Qed.
Lemma wide_free k c f : wide k c -> zr f -> wide k (with_free c f).
Proof. intros (H1 & H2 & H3) Hf. split; [exact H1|split; assumption]. Qed.
Lemma wide_slots k c i z : wide k c -> zr z -> wide k (with_slots c (lset (c_slots c) i z)).
Proof. intros (H1 & H2 & H3) Hf. split; [exact H1|split; [|exact H3]]. now apply forall_lset. Qed.
Lemma wide_end k c e : wide k c -> wide k (with_end c e).
Proof. intros H; exact H. Qed.
Lemma wide_count k c e : wide k c -> wide k (with_count c e).
Proof. intros H; exact H. Qed.
Lemma wide_mem k c m : wide k c -> wide k (with_mem c m).
Proof. intros H; exact H. Qed.
Lemma wide_deref k c i n : wide k c -> derefn c i = Ret n -> nr k n.
Proof.
  intros (H & _). unfold derefn, getn. destruct (i <? 0); [discriminate|]. destruct (nth_error (c_nodes c) (Z.to_nat i)) as [x|] eqn:E; [|discriminate].
  intros Ex. injection Ex as ->. rewrite Forall_forall in H. apply H. eapply nth_error_In; eauto.
Qed.
Lemma nr_set_slot k n z : nr k n -> zr z -> nr k (n_set_slot n z).
Proof. intros [H1 H2 H3 H4 H5] H. constructor; assumption. Qed.
Lemma nr_set_next k n z : nr k n -> zr z -> nr k (n_set_next n z).
Proof. intros [H1 H2 H3 H4 H5] H. constructor; assumption. Qed.
Lemma nr_set_off k n z : nr k n -> nr k (n_set_off n z).
Proof. intros [H1 H2 H3 H4 H5]. constructor; assumption. Qed.
Lemma nr_set_ttl k n z : nr k n -> 0 <= z < 4294967296 -> nr k (n_set_ttl n z).
Proof. intros [H1 H2 H3 H4 H5] H. constructor; assumption. Qed.
Lemma nr_set_time k n z : nr k n -> -9223372036854775808 <= z < 9223372036854775808 -> nr k (n_set_time n z).
Proof. intros [H1 H2 H3 H4 H5] H. constructor; assumption. Qed.
Lemma nr_set_used k n z : nr k n -> 0 <= z <= 512 + Z.of_nat k -> nr k (n_set_used n z).
Proof. intros [H1 H2 H3 H4 H5] H. constructor; assumption. Qed.

Ltac unbind H := match type of H with bind ?o _ = Ret _ => let x := fresh "x" in let E := fresh "E" in destruct o as [x| | |] eqn:E; cbn [bind] in H; try discriminate H end.
Ltac fields := repeat match goal with
  | |- nr _ (n_set_slot _ _) => apply nr_set_slot
  | |- nr _ (n_set_next _ _) => apply nr_set_next
  | |- nr _ (n_set_off _ _) => apply nr_set_off
  | |- nr _ (n_set_ttl _ _) => apply nr_set_ttl
  | |- nr _ (n_set_time _ _) => apply nr_set_time
  | |- nr _ (n_set_used _ _) => apply nr_set_used end.

Definition stamp (t : Z) : Prop := -9223372036854775808 <= t < 9223372036854775808.
Lemma find_unused_wide k chunk bound now : stamp now -> forall fuel c sub pre grand o b c',
  Z.of_nat (c_size c) < 2147483648 -> wide k c -> zr sub -> (forall p, pre = Some p -> zr p) -> (forall g, grand = Some g -> zr g) ->
  find_unused_loop fuel c chunk bound now sub pre grand = Ret (o, b, c') -> wide (S k) c' /\ forall i, o = Some i -> zr i.
Proof.
  intros Ht. induction fuel as [|fuel IH]; intros c sub pre grand o b c' Hz Hw Hs Hp Hg H; cbn [find_unused_loop] in H; [discriminate|].
  assert (Hw' : wide (S k) c) by (eapply wide_up; [|exact Hw]; lia).
  destruct (Z.ltb_spec sub 0).
  { unfold create_node in H. destruct (Nat.ltb_spec (c_size c) (bound + node_size * (length (c_nodes c) + 1) + slot_size * length (c_slots c))).
    - injection H as <- <- <-. split; [exact Hw'|discriminate].
    - injection H as <- <- <-. unfold node_size in *. split; [|intros i Ei; injection Ei as <-; unfold zr; lia].
      destruct Hw' as (B1 & B2 & B3). split; [|split; assumption]. cbn [with_nodes c_nodes]. apply Forall_app. split; [exact B1|]. constructor; [|constructor].
      constructor; cbn; unfold zr; lia. }
  unbind H. unbind H. rename x into cur, x0 into c1.
  pose proof (wide_deref _ _ _ _ Hw E) as Hcur.
  assert (Hw1 : wide k c1 /\ c_size c1 = c_size c).
  { destruct pre as [p|]; [|injection E0 as <-; auto]. unbind E0. pose proof (wide_deref _ _ _ _ Hw E1) as Hx.
    destruct ((n_used cur <? n_used x) && (IDLE_TIME_SEC <=? n_time x - n_time cur)); injection E0 as <-; [|auto]. split; [|reflexivity].
    apply wide_setn; [exact Hw|]. fields; [exact Hx|apply Hcur|exact Ht]. }
  destruct Hw1 as (Hw1 & Hz1). destruct (Nat.eqb (n_len cur) chunk).
  2:{ apply (IH c1 (n_slot cur) (Some sub) pre o b c'); [lia|exact Hw1|apply Hcur|intros p Ep; injection Ep as <-; exact Hs|exact Hp|exact H]. }
  set (cur1 := n_set_used (n_set_time cur now) (n_used cur + 1)) in *.
  assert (Hcur1 : nr (S k) cur1). { unfold cur1. fields; [eapply nr_up; [|exact Hcur]; lia|exact Ht|]. pose proof (nr_used _ _ Hcur). lia. }
  assert (Hw2 : wide (S k) (setn c1 sub cur1)) by (apply wide_setn; [eapply wide_up; [|exact Hw1]; lia|exact Hcur1]).
  unbind H. rename x into c3. assert (Hw3 : wide (S k) c3).
  { destruct (Z.leb_spec 0 (n_next cur1)).
    - unbind E1. pose proof (wide_deref _ _ _ _ Hw2 E2) as Hh.
      set (h1 := n_set_used (n_set_time (n_set_slot x (n_slot cur1)) (n_time cur1)) (n_used cur1)) in *.
      assert (Hh1 : nr (S k) h1) by (unfold h1; fields; [exact Hh|apply Hcur1|apply Hcur1|apply Hcur1]).
      assert (Hw4 : wide (S k) (setn (setn c1 sub cur1) (n_next cur1) h1)) by (apply wide_setn; assumption).
      destruct pre as [p|]; [|injection E1 as <-; apply wide_free; [exact Hw4|apply Hcur1]].
      unbind E1. pose proof (wide_deref _ _ _ _ Hw4 E3) as Hx0. destruct (n_used h1 - n_used x0 <? USED_GRADIENT).
      + injection E1 as <-. apply wide_setn; [exact Hw4|]. fields; [exact Hx0|apply Hcur1].
      + assert (Hw5 : wide (S k) (setn (setn (setn c1 sub cur1) (n_next cur1) h1) p (n_set_slot x0 (n_slot h1)))) by (apply wide_setn; [exact Hw4|fields; [exact Hx0|apply Hh1]]).
        unbind E1. pose proof (wide_deref _ _ _ _ Hw5 E4) as Hx1.
        assert (Hw6 : wide (S k) (setn (setn (setn (setn c1 sub cur1) (n_next cur1) h1) p (n_set_slot x0 (n_slot h1))) (n_next cur1) (n_set_slot x1 p))) by (apply wide_setn; [exact Hw5|fields; [exact Hx1|now apply Hp]]).
        destruct grand as [g|]; [|injection E1 as <-; apply wide_free; [exact Hw6|apply Hcur1]].
        unbind E1. pose proof (wide_deref _ _ _ _ Hw6 E5) as Hx2. injection E1 as <-. apply wide_setn; [exact Hw6|fields; [exact Hx2|apply Hcur1]].
    - destruct pre as [p|]; [|injection E1 as <-; apply wide_free; [exact Hw2|apply Hcur1]].
      unbind E1. pose proof (wide_deref _ _ _ _ Hw2 E2) as Hx. injection E1 as <-. apply wide_setn; [exact Hw2|fields; [exact Hx|apply Hcur1]]. }
  unbind H. pose proof (wide_deref _ _ _ _ Hw3 E2) as Hx. injection H as <- <- <-. split; [|intros i Ei; injection Ei as <-; exact Hs].
  apply wide_setn; [exact Hw3|fields; [exact Hx|lia|unfold zr; lia]].
Qed.
Lemma mem_write_wide k c off l c' : wide k c -> mem_write c off l = Ret c' -> wide k c'.
Proof.
  intros Hw. unfold mem_write. destruct (Nat.ltb (bottom c) (off + length l)); [discriminate|]. destruct (write (c_mem c) off l); [|discriminate].
  intros E. injection E as <-. exact Hw.
Qed.
Lemma get_chunk_wide k c len now o c' : stamp now -> Z.of_nat (c_size c) < 2147483648 -> wide k c -> get_chunk c len now = Ret (o, c') ->
  wide (S k) c' /\ forall i, o = Some i -> zr i.
Proof.
  intros Ht Hz Hw H. unfold get_chunk in H. unbind H. destruct x as [[o1 b] c1]. unfold find_unused in E.
  apply (find_unused_wide k _ _ _ Ht) in E; [|exact Hz|exact Hw|apply Hw|discriminate|discriminate]. destruct E as (Hw1 & Hi).
  destruct o1 as [i|]; [|injection H as <- <-; auto]. unbind H. pose proof (wide_deref _ _ _ _ Hw1 E) as Hx.
  set (c2 := if b then with_end (setn c1 i (n_set_off x (c_end c1))) (c_end c1 + round16 len) else c1) in *.
  assert (Hw2 : wide (S k) c2). { unfold c2. destruct b; [|exact Hw1]. apply wide_end, wide_setn; [exact Hw1|fields; exact Hx]. }
  unbind H. unbind H. injection H as <- <-. split; [eapply mem_write_wide; eauto|exact Hi].
Qed.
Lemma group_loop_wide k fuel : forall c len sub cur r, wide k c -> zr sub -> (forall p, cur = Some p -> zr p) -> group_loop fuel c len sub cur = Ret r ->
  zr (fst r) /\ forall p, snd r = Some p -> zr p.
Proof.
  induction fuel as [|fuel IH]; intros c len sub cur r Hw Hs Hc H; cbn [group_loop] in H; [discriminate|].
  destruct (sub <? 0); [injection H as <-; auto|]. unbind H. pose proof (wide_deref _ _ _ _ Hw E) as Hx.
  destruct (Nat.eqb (n_len x) len); [injection H as <-; auto|]. apply (IH _ _ _ _ _ Hw) in H; [exact H|apply Hx|]. intros p Ep. injection Ep as <-. exact Hs.
Qed.
Lemma add_to_2d_wide k c i c' : wide k c -> zr i -> add_to_2d c i = Ret c' -> wide k c'.
Proof.
  intros Hw Hi H. unfold add_to_2d in H. unbind H. pose proof (wide_deref _ _ _ _ Hw E) as Hx. unbind H. destruct x0 as [sub pre].
  apply (group_loop_wide k) in E0; [|exact Hw|apply Hw|discriminate]. cbn [fst snd] in E0. destruct E0 as (Hsub & Hpre).
  unbind H. rename x0 into c1. assert (Hw1 : wide k c1).
  { destruct (sub =? -1).
    - injection E0 as <-. apply wide_free; [|exact Hi]. apply wide_setn; [exact Hw|]. fields; [exact Hx|apply Hw|lia].
    - unbind E0. pose proof (wide_deref _ _ _ _ Hw E1) as Hx0.
      assert (Hw2 : wide k (setn c i (n_set_used (n_set_slot x (n_slot x0)) (n_used x0)))) by (apply wide_setn; [exact Hw|fields; [exact Hx|apply Hx0|apply Hx0]]).
      destruct pre as [p|]; [|injection E0 as <-; apply wide_free; [exact Hw2|exact Hi]].
      unbind E0. pose proof (wide_deref _ _ _ _ Hw2 E2) as Hx1. injection E0 as <-. apply wide_setn; [exact Hw2|fields; [exact Hx1|exact Hi]]. }
  unbind H. pose proof (wide_deref _ _ _ _ Hw1 E1) as Hx0. injection H as <-. apply wide_setn; [exact Hw1|fields; [exact Hx0|exact Hsub]].
Qed.
Lemma remove_from_slot_wide k c i c' : wide k c -> zr i -> remove_from_slot c i = Ret c' -> wide k c'.
Proof.
  intros Hw Hi H. unfold remove_from_slot in H. unbind H. pose proof (wide_deref _ _ _ _ Hw E) as Hx.
  destruct (n_slot x <? 0); [injection H as <-; exact Hw|]. destruct (nth_error (c_slots c) (Z.to_nat (n_slot x))) as [head|]; [|injection H as <-; exact Hw].
  unbind H. unbind H. rename x1 into c1. assert (Hw1 : wide k c1).
  { destruct x0 as [q|]; [|injection E1 as <-; apply wide_slots; [exact Hw|apply Hx]]. unbind E1. pose proof (wide_deref _ _ _ _ Hw E2) as Hx1.
    injection E1 as <-. apply wide_setn; [exact Hw|fields; [exact Hx1|apply Hx]]. }
  destruct (negb (i =? Z.of_nat (length (c_nodes c1)) - 1)); [eapply add_to_2d_wide; eauto|]. injection H as <-. destruct Hw1 as (B1 & B2 & B3). split; [|split; assumption].
  cbn [with_nodes c_nodes]. rewrite Forall_forall in *. intros n Hn. apply B1. destruct (split_last (c_nodes c1)) as [Ex|(l & y & Ex)]; rewrite Ex in *; [exact Hn|].
  rewrite removelast_last in Hn. apply in_or_app. left. exact Hn.
Qed.
Lemma insert_to_slot_wide k c key i c' : wide k c -> zr i -> Z.of_nat (length (c_slots c)) < 2147483648 -> (0 < length (c_slots c))%nat -> insert_to_slot c key i = Ret c' -> wide k c'.
Proof.
  intros Hw Hi Hl Hl0 H. unfold insert_to_slot in H. unbind H. pose proof (wide_deref _ _ _ _ Hw E) as Hx. pose proof (slot_of_lt c key Hl0) as Hsl.
  assert (Hw1 : wide k (setn c i (n_set_slot x (Z.of_nat (slot_of c key))))) by (apply wide_setn; [exact Hw|fields; [exact Hx|unfold zr; lia]]).
  destruct (nth_error (c_slots (setn c i (n_set_slot x (Z.of_nat (slot_of c key))))) (slot_of c key)) as [head|] eqn:Eh; [|injection H as <-; exact Hw1].
  unbind H. pose proof (wide_deref _ _ _ _ Hw1 E0) as Hx0. injection H as <-.
  assert (Hhead : zr head). { destruct Hw as (_ & B2 & _). rewrite Forall_forall in B2. apply B2. eapply nth_error_In. exact Eh. }
  assert (Hw2 : wide k (setn (setn c i (n_set_slot x (Z.of_nat (slot_of c key)))) i (n_set_next x0 head))) by (apply wide_setn; [exact Hw1|fields; [exact Hx0|exact Hhead]]).
  exact (wide_slots k _ (slot_of c key) i Hw2 Hi).
Qed.
Lemma find_unused_slots fuel : forall c chunk bound now sub pre grand o b c', find_unused_loop fuel c chunk bound now sub pre grand = Ret (o, b, c') -> c_slots c' = c_slots c.
Proof.
  induction fuel as [|fuel IH]; intros c chunk bound now sub pre grand o b c' H; cbn [find_unused_loop] in H; [discriminate|].
  destruct (sub <? 0). { destruct (create_node c chunk bound) as [[i c1]|] eqn:E; injection H as <- <- <-; [|reflexivity]. unfold create_node in E. destruct (Nat.ltb _ _); [discriminate|]. injection E as <- <-. reflexivity. }
  unbind H. unbind H. rename x0 into c1. assert (E1 : c_slots c1 = c_slots c).
  { destruct pre as [p|]; [|injection E0 as <-; reflexivity]. unbind E0. destruct (_ && _); injection E0 as <-; reflexivity. }
  destruct (Nat.eqb (n_len x) chunk); [|rewrite <- E1; eapply IH; eauto]. unbind H. rename x0 into c3. unbind H. injection H as <- <- <-. cbn [setn with_nodes c_slots]. rewrite <- E1.
  destruct (0 <=? _).
  - unbind E2. destruct pre as [p|]; [|injection E2 as <-; reflexivity]. unbind E2. destruct (_ <? USED_GRADIENT); [injection E2 as <-; reflexivity|]. unbind E2.
    destruct grand as [g|]; [|injection E2 as <-; reflexivity]. unbind E2. injection E2 as <-. reflexivity.
  - destruct pre as [p|]; [|injection E2 as <-; reflexivity]. unbind E2. injection E2 as <-. reflexivity.
Qed.
Lemma get_chunk_slots c len now o c' : get_chunk c len now = Ret (o, c') -> c_slots c' = c_slots c.
Proof.
  intros H. unfold get_chunk in H. unbind H. destruct x as [[o1 b] c1]. apply find_unused_slots in E. destruct o1 as [i|]; [|injection H as <- <-; exact E]. unbind H. unbind H. unbind H.
  injection H as <- <-. unfold mem_write in E2. destruct (Nat.ltb _ _); [discriminate|]. destruct (write _ _ _); [|discriminate]. injection E2 as <-. rewrite <- E. cbn [with_mem c_slots]. destruct b; reflexivity.
Qed.
Lemma sweep_loop_wide k now n : forall c got r, Z.of_nat n < 2147483648 -> wide k c -> sweep_loop c n now got = Ret r -> wide k (fst r).
Proof.
  induction n as [|n IH]; intros c got r Hn Hw H; cbn [sweep_loop] in H; [injection H as <-; exact Hw|].
  destruct (nth_error (c_nodes c) n) as [x|] eqn:En; [|injection H as <-; exact Hw].
  assert (Hx : nr k x) by (destruct Hw as (B & _); rewrite Forall_forall in B; apply B; eapply nth_error_In; eauto).
  destruct (_ && _); [|eapply IH; [lia|exact Hw|exact H]]. unbind H. unbind H. apply IH in H; [exact H|lia|]. apply wide_count.
  assert (Hw1 : wide k (setn c (Z.of_nat n) (n_set_ttl x 0))) by (apply wide_setn; [exact Hw|fields; [exact Hx|lia]]).
  apply (mem_write_wide _ _ _ _ _ Hw1) in E. eapply remove_from_slot_wide; [exact E| |exact E0]. unfold zr. lia.
Qed.
Lemma cache_sweep_wide k c now c' : Z.of_nat (length (c_nodes c)) < 2147483648 -> wide k c -> cache_sweep c now = Ret c' -> wide k c'.
Proof.
  intros Hn Hw H. unfold cache_sweep in H. unbind H. destruct x as [c1 got]. apply (sweep_loop_wide k) in E; [|exact Hn|exact Hw]. cbn [fst] in E.
  destruct got; [|injection H as <-; exact E]. destruct (length (c_nodes c1)); [injection H as <-; exact E|]. destruct (nth_error (c_nodes c1) n); [|discriminate]. injection H as <-. exact E.
Qed.
Section Ops.
Context (raw : list Z -> list cnode -> nat -> Z) (ignore : bool).
Lemma equal_loop_wide k now ttl content fuel : stamp now -> 0 <= ttl < 4294967296 -> forall c start c', wide k c -> equal_loop raw ignore fuel c content start now ttl = Ret c' ->
  wide k c' /\ length (c_slots c') = length (c_slots c).
Proof.
  intros Ht Hl. induction fuel as [|fuel IH]; intros c start c' Hw H; cbn [equal_loop] in H; [discriminate|]. unbind H. destruct x as [i|]; [|injection H as <-; auto].
  unbind H. pose proof (wide_deref _ _ _ _ Hw E0) as Hx. apply IH in H; [exact H|]. apply wide_setn; [exact Hw|fields; [exact Hx|exact Hl|exact Ht]].
Qed.
Lemma min_loop_range now content fuel : forall c start ttl t, 0 <= ttl < 4294967296 -> min_loop raw ignore fuel c content start now ttl = Ret t -> 0 <= t < 4294967296.
Proof.
  induction fuel as [|fuel IH]; intros c start ttl t Hl H; cbn [min_loop] in H; [discriminate|]. unbind H. destruct x as [i|]; [|injection H as <-; exact Hl].
  unbind H. apply IH in H; [exact H|]. destruct (Z.ltb_spec (u32 (n_ttl x - (now - n_time x))) ttl); [|exact Hl]. unfold u32. apply Z.mod_pos_bound. lia.
Qed.
Context (parallel : bool) (get : list Z -> option ctrl).
Lemma add_item_wide k infected c r now code c' : stamp now -> rec_ok r -> Z.of_nat (c_size c) < 2147483648 -> Z.of_nat (length (c_slots c)) < 2147483648 -> (0 < length (c_slots c))%nat ->
  wide k c -> add_item raw ignore parallel get infected c r now = Ret (code, c') -> wide (S k) c'.
Proof using Type*.
  intros Ht Hr Hz Hl Hl0 Hw H. unfold add_item in H. assert (Hup : wide (S k) c) by (eapply wide_up; [|exact Hw]; lia).
  destruct (item_of_ok r) as [(e & E & _)|(E & Hst)]; rewrite E in H; [injection H as <- <-; exact Hup|].
  set (item := triplet (r_name r) (r_type r) (r_class r) ++ 0 :: r_data r) in *. unbind H. destruct x as [i|]; [injection H as <- <-; exact Hup|].
  set (ttl := lifetime (choose_rule get infected (cstr item)) (r_ttl r)) in *. assert (Httl : 0 <= ttl < 4294967296) by (apply lifetime_range; apply Hr).
  destruct (ttl =? 0); [injection H as <- <-; exact Hup|]. unbind H. destruct x as [o c1]. pose proof (get_chunk_slots _ _ _ _ _ E1) as Es. apply (get_chunk_wide k) in E1; [|exact Ht|exact Hz|exact Hw].
  destruct E1 as (Hw1 & Hi). destruct o as [i|]; [|injection H as <- <-; exact Hw1]. unbind H. pose proof (wide_deref _ _ _ _ Hw1 E1) as Hx. unbind H. rename x0 into c2.
  assert (Es2 : c_slots c2 = c_slots c1) by (unfold mem_write in E2; destruct (Nat.ltb _ _); [discriminate|]; destruct (write _ _ _); [|discriminate]; injection E2 as <-; reflexivity).
  apply (mem_write_wide _ _ _ _ _ Hw1) in E2.
  assert (Hitl : Z.of_nat (1 + length item) <= 512) by (unfold item; rewrite app_length; cbn [length]; destruct Hst as (_ & Hst); lia).
  set (c3 := setn c2 i (n_set_used x (Z.of_nat (1 + length item)))) in *. assert (Hw3 : wide (S k) c3) by (apply wide_setn; [exact E2|fields; [exact Hx|lia]]).
  unbind H. destruct x0 as [ttl' c4]. assert (Hw4 : wide (S k) c4 /\ 0 <= ttl' < 4294967296 /\ length (c_slots c4) = length (c_slots c)).
  { assert (El3 : length (c_slots c3) = length (c_slots c)) by (unfold c3; cbn [setn with_nodes c_slots]; congruence). destruct parallel; [|injection E3 as <- <-; auto]. unfold min_ttl in E3. unbind E3. unbind E3. injection E3 as <- <-.
    pose proof (min_loop_range _ _ _ _ _ _ _ Httl E4) as Hm. apply (equal_loop_wide (S k) _ _ _ _ Ht Hm) in E5; [|exact Hw3]. destruct E5 as (E5 & E6). split; [exact E5|]. split; [exact Hm|congruence]. }
  destruct Hw4 as (Hw4 & Httl' & El4). unbind H. pose proof (wide_deref _ _ _ _ Hw4 E4) as Hx0. unbind H. injection H as <- <-. apply wide_count.
  assert (Hw5 : wide (S k) (setn c4 i (n_set_time (n_set_ttl x0 ttl') now))) by (apply wide_setn; [exact Hw4|fields; [exact Hx0|exact Httl'|exact Ht]]).
  apply (insert_to_slot_wide _ _ _ _ _ Hw5) in E5; [exact E5|now apply Hi|cbn [setn with_nodes c_slots]; lia|cbn [setn with_nodes c_slots]; lia].
Qed.
End Ops.
