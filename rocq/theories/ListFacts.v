(** General facts about lists without duplicates and permutations. *)
Require Import List Permutation Lia Arith.
Import ListNotations.

Lemma NoDup_app_remove_r {A} (l m : list A) : NoDup (l ++ m) -> NoDup l.
Proof.
  induction l as [|x l IH]; intros H; [constructor|]. cbn [app] in H. inversion H; subst. constructor; auto.
  intros HI. apply H2, in_app_iff. auto.
Qed.
Lemma NoDup_app_remove_l {A} (l m : list A) : NoDup (l ++ m) -> NoDup m.
Proof. induction l as [|x l IH]; intros H; [exact H|]. cbn [app] in H. inversion H; auto. Qed.
Lemma nodup_app_disj {A} (l m : list A) x : NoDup (l ++ m) -> In x l -> In x m -> False.
Proof.
  induction l as [|y l IH]; intros ND H1 H2; [destruct H1|]. cbn [app] in ND. inversion ND as [|? ? Hn ND']; subst.
  destruct H1 as [->|H1]; [|auto]. apply Hn, in_app_iff; auto.
Qed.
Lemma NoDup_app_intro {A} (l m : list A) : NoDup l -> NoDup m -> (forall x, In x l -> In x m -> False) -> NoDup (l ++ m).
Proof.
  induction l as [|x l IH]; intros H1 H2 H3; [exact H2|]. cbn [app]. inversion H1 as [|? ? Hn H1']; subst. constructor.
  - rewrite in_app_iff. intros [H|H]; [auto|]. apply (H3 x); cbn; auto.
  - apply IH; auto. intros y Hy. apply H3. cbn. auto.
Qed.
Lemma nodup_lt_length (l : list nat) n : NoDup l -> (forall x, In x l -> x < n) -> length l <= n.
Proof.
  intros ND H. rewrite <- (seq_length n 0). apply NoDup_incl_length; [exact ND|]. intros x Hx. apply in_seq. specialize (H x Hx). lia.
Qed.
