(** Lemmas about the vocabulary of [Base]. *)
From Verif Require Import Base.
Require Import ZifyBool ZifyNat.

Lemma skipn_skipn' {A} (l : list A) n k : skipn n (skipn k l) = skipn (k + n) l.
Proof.
  revert l; induction k as [|k IH]; intros l; simpl; auto.
  destruct l; [now rewrite skipn_nil|apply IH].
Qed.

Lemma slice_some {A} (m : list A) i len l :
  slice m i len = Some l <-> ((i + len <= length m)%nat /\ l = firstn len (skipn i m)).
Proof.
  unfold slice. destruct (Nat.leb_spec (i + len) (length m)) as [H|H]; split.
  - intros E; inversion E; auto.
  - intros [_ ->]; reflexivity.
  - discriminate.
  - intros [? _]; lia.
Qed.

Lemma slice_length {A} (m : list A) i len l : slice m i len = Some l -> length l = len.
Proof.
  rewrite slice_some; intros [H ->]. rewrite firstn_length, skipn_length. lia.
Qed.

Lemma slice_app {A} (a b c : list A) : slice (a ++ b ++ c) (length a) (length b) = Some b.
Proof.
  apply slice_some. split.
  - rewrite !app_length; lia.
  - rewrite skipn_app, skipn_all, Nat.sub_diag. simpl.
    rewrite firstn_app, firstn_all, Nat.sub_diag. simpl. now rewrite app_nil_r.
Qed.

Lemma slice_split {A} (m : list A) i len l :
  slice m i len = Some l -> m = firstn i m ++ l ++ skipn (i + len) m.
Proof.
  rewrite slice_some; intros [H ->].
  rewrite <- (firstn_skipn i m) at 1. f_equal.
  rewrite <- (firstn_skipn len (skipn i m)) at 1. f_equal.
  rewrite skipn_skipn'. f_equal.
Qed.

Lemma write_some {A} (m : list A) i l m' :
  write m i l = Some m' <->
  ((i + length l <= length m)%nat /\ m' = firstn i m ++ l ++ skipn (i + length l) m).
Proof.
  unfold write. destruct (Nat.leb_spec (i + length l) (length m)) as [H|H]; split.
  - intros E; inversion E; auto.
  - intros [_ ->]; reflexivity.
  - discriminate.
  - intros [? _]; lia.
Qed.

Lemma write_length {A} (m : list A) i l m' : write m i l = Some m' -> length m' = length m.
Proof.
  rewrite write_some; intros [H ->].
  rewrite !app_length, firstn_length, skipn_length. lia.
Qed.

Lemma write_ok {A} (m : list A) i l :
  (i + length l <= length m)%nat -> exists m', write m i l = Some m'.
Proof. intros H. eexists. apply write_some. split; [exact H|reflexivity]. Qed.

Lemma write_app {A} (a b c l : list A) :
  length l = length b -> write (a ++ b ++ c) (length a) l = Some (a ++ l ++ c).
Proof.
  intros H. apply write_some. split.
  - rewrite !app_length; lia.
  - rewrite firstn_app, firstn_all, Nat.sub_diag. simpl. rewrite app_nil_r. f_equal. f_equal.
    rewrite skipn_app. rewrite (skipn_all2 a) by lia. simpl.
    replace (length a + length l - length a)%nat with (length b) by lia.
    rewrite skipn_app, skipn_all, Nat.sub_diag. reflexivity.
Qed.

Lemma nth_error_write_out {A} (m : list A) i l m' j :
  write m i l = Some m' -> (j < i \/ i + length l <= j)%nat ->
  nth_error m' j = nth_error m j.
Proof.
  rewrite write_some; intros [H ->] Hj.
  assert (Hf : length (firstn i m) = i) by (rewrite firstn_length; lia).
  destruct Hj as [Hj|Hj].
  - rewrite nth_error_app1 by lia.
    rewrite <- (firstn_skipn i m) at 2. rewrite nth_error_app1 by lia. reflexivity.
  - rewrite nth_error_app2 by lia. rewrite nth_error_app2 by lia. rewrite Hf.
    rewrite <- (firstn_skipn (i + length l) m) at 2.
    rewrite nth_error_app2; rewrite firstn_length; [|lia].
    f_equal. lia.
Qed.

Lemma nth_error_write_in {A} (m : list A) i l m' j :
  write m i l = Some m' -> (j < length l)%nat ->
  nth_error m' (i + j) = nth_error l j.
Proof.
  rewrite write_some; intros [H ->] Hj.
  assert (Hf : length (firstn i m) = i) by (rewrite firstn_length; lia).
  rewrite nth_error_app2 by lia. rewrite nth_error_app1 by lia. f_equal. lia.
Qed.

Lemma list_ext {A} (l l' : list A) :
  (forall j, nth_error l j = nth_error l' j) -> l = l'.
Proof.
  revert l'. induction l as [|a l IH]; intros [|b l'] H; auto.
  - specialize (H 0%nat). discriminate.
  - specialize (H 0%nat). discriminate.
  - pose proof (H 0%nat) as H0. simpl in H0. inversion H0; subst. f_equal.
    apply IH. intros j. exact (H (S j)).
Qed.

Lemma nth_error_firstn {A} (l : list A) n j :
  nth_error (firstn n l) j = if Nat.ltb j n then nth_error l j else None.
Proof.
  revert n j; induction l as [|a l IH]; intros [|n] [|j]; simpl; auto.
  - destruct (Nat.ltb (S j) (S n)); reflexivity.
  - rewrite IH. reflexivity.
Qed.

Lemma nth_error_skipn {A} (l : list A) n j :
  nth_error (skipn n l) j = nth_error l (n + j).
Proof.
  revert l; induction n as [|n IH]; intros l; simpl; auto.
  destruct l as [|a l]; simpl; auto. now destruct j.
Qed.

Lemma slice_ext {A} (m m' : list A) i len :
  length m = length m' ->
  (forall j, (i <= j < i + len)%nat -> nth_error m j = nth_error m' j) ->
  slice m i len = slice m' i len.
Proof.
  intros Hl Hn. unfold slice. rewrite <- Hl.
  destruct (Nat.leb_spec (i + len) (length m)) as [H|H]; [|reflexivity].
  f_equal. apply list_ext. intros j. rewrite !nth_error_firstn.
  destruct (Nat.ltb_spec j len); [|reflexivity].
  rewrite !nth_error_skipn. apply Hn. lia.
Qed.

Lemma slice_nth {A} (m : list A) i len l j :
  slice m i len = Some l -> (j < len)%nat -> nth_error l j = nth_error m (i + j).
Proof.
  rewrite slice_some; intros [H ->] Hj. rewrite nth_error_firstn.
  destruct (Nat.ltb_spec j len); [|lia]. apply nth_error_skipn.
Qed.

Lemma slice_write_same {A} (m : list A) i l m' :
  write m i l = Some m' -> slice m' i (length l) = Some l.
Proof.
  rewrite write_some; intros [H ->].
  assert (Hf : length (firstn i m) = i) by (rewrite firstn_length; lia).
  pose proof (slice_app (firstn i m) l (skipn (i + length l) m)) as E.
  now rewrite Hf in E.
Qed.

Lemma slice_write_out {A} (m : list A) i l m' j len :
  write m i l = Some m' -> (j + len <= i \/ i + length l <= j)%nat ->
  slice m' j len = slice m j len.
Proof.
  intros Hw Hj. apply slice_ext.
  - eapply write_length; eauto.
  - intros k Hk. eapply nth_error_write_out; eauto. lia.
Qed.

(** Big-endian fields *)
Ltac Zify.zify_post_hook ::= Z.div_mod_to_equations.

Lemma be16_length v : length (be16 v) = 2%nat. Proof. reflexivity. Qed.
Lemma be32_length v : length (be32 v) = 4%nat. Proof. reflexivity. Qed.

Lemma from16_be16 v : from16 (be16 v) = v mod 65536.
Proof. unfold be16, from16. lia. Qed.

Lemma from32_be32 v : from32 (be32 v) = v mod 4294967296.
Proof. unfold be32, from32. lia. Qed.

Lemma be16_bytes v : Forall is_byte (be16 v).
Proof. unfold be16, is_byte. repeat constructor; lia. Qed.
Lemma be32_bytes v : Forall is_byte (be32 v).
Proof. unfold be32, is_byte. repeat constructor; lia. Qed.

Lemma be16_from16 a b : is_byte a -> is_byte b -> be16 (from16 [a; b]) = [a; b].
Proof. unfold is_byte, be16, from16; intros Ha Hb. f_equal; [lia|f_equal; lia]. Qed.

(** Closed goals made of conjunctions, [Forall] over literal lists and linear arithmetic. *)
Ltac crush :=
  cbn;
  repeat match goal with
         | |- _ /\ _ => split
         | |- Forall _ [] => apply Forall_nil
         | |- Forall _ (_ :: _) => apply Forall_cons
         | |- is_byte _ => unfold is_byte
         | _ => progress cbn
         end; try exact I; try reflexivity; try lia; try discriminate.
