(** More facts about lists. *)
From Verif Require Import Base BaseFacts.

Lemma nth_error_ext {A} (l : list A) : forall m, (forall i, nth_error l i = nth_error m i) -> l = m.
Proof.
  induction l as [|x l IH]; intros [|y m] H; auto.
  - specialize (H 0%nat). discriminate.
  - specialize (H 0%nat). discriminate.
  - f_equal; [specialize (H 0%nat); cbn in H; congruence|]. apply IH. intros i. apply (H (S i)).
Qed.
Lemma skipn_nth {A} i : forall (l : list A) x, nth_error l i = Some x -> skipn i l = x :: skipn (S i) l.
Proof. induction i as [|i IH]; intros [|y l] x H; try discriminate; cbn in *; [congruence|]. rewrite (IH l x H). reflexivity. Qed.
Lemma filter_rev {A} (f : A -> bool) l : filter f (rev l) = rev (filter f l).
Proof. induction l as [|x l IH]; cbn [rev filter]; [reflexivity|]. rewrite filter_app, IH. cbn [filter]. destruct (f x); cbn [rev]; rewrite ?app_nil_r; reflexivity. Qed.
