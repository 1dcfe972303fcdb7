From Verif Require Import Base BaseFacts Slist_Model Slist_Proofs Hosts_Model Hosts_Spec Hosts_Props Line_Model Line_Props Dl_Model Dl_Spec Dyn_Model Dyn_Spec.
Require Import ZifyBool ZifyNat.

Lemma file_lines_app b : forall r, file_lines (b ++ 10 :: r) = file_lines b ++ file_lines r.
Proof.
  unfold file_lines. induction b as [|c b IH]; intros r; cbn [app pieces]; [reflexivity|]. rewrite IH. destruct (pieces_nonempty [10] b) as (p & ps & ->). destruct (memz c [10]); reflexivity.
Qed.
Lemma content_app b r : content (b ++ 10 :: r) = content b ++ content r.
Proof. unfold content. rewrite file_lines_app, map_app, filter_app. reflexivity. Qed.
Lemma joined_cons o os : joined (o :: os) = match o with Some b => b | None => [] end ++ 10 :: joined os.
Proof. unfold joined. cbn [map concat]. rewrite <- app_assoc. reflexivity. Qed.
Lemma joined_content os : content (joined os) = lines_of (obtained os).
Proof. induction os as [|o os IH]; [reflexivity|]. rewrite joined_cons, content_app, IH. destruct o; [unfold obtained; cbn [flat_map app]; reflexivity|reflexivity]. Qed.
Lemma joined_last os : last (file_lines (joined os)) [] = [].
Proof.
  induction os as [|o os IH]; [reflexivity|]. rewrite joined_cons, file_lines_app. destruct (pieces_nonempty [10] (joined os)) as (p & ps & E). unfold file_lines in *. rewrite E in *.
  assert (forall (A : Type) (l : list A) x xs d, last (l ++ x :: xs) d = last (x :: xs) d) as ->; [|exact IH]. clear. intros A l x xs d. induction l as [|y l IH]; [reflexivity|]. cbn [app]. rewrite <- IH. destruct (l ++ x :: xs) eqn:E; [destruct l; discriminate|reflexivity].
Qed.
Lemma joined_readable os : Forall readable (obtained os) -> readable (joined os).
Proof.
  unfold readable. assert (Z0 : line_ok 320 []) by (split; [cbn; lia|]; split; [intros []|]; split; intros a b X; destruct a; discriminate X).
  induction os as [|[b|] os IH]; intros H; [repeat apply Forall_cons; try apply Forall_nil; exact Z0|..]; rewrite joined_cons, file_lines_app; apply Forall_app.
  - inversion H; subst. split; [assumption|apply IH; assumption].
  - split; [repeat apply Forall_cons; try apply Forall_nil; exact Z0|apply IH; exact H].
Qed.
Lemma dyn_lines_run parse n : forall bs e fuel h, (length bs <= n)%nat -> (length bs < fuel)%nat -> (e = true -> bs = []) -> readable bs -> end_ok bs -> dyn_lines parse fuel (mkf bs e) h = hosts_of parse h (content bs).
Proof.
  unfold readable. induction n as [|n IH]; intros bs e fuel h Hn Hf He HL HE; (destruct fuel as [|fuel]; [lia|]); cbn [dyn_lines]; unfold read_line1; cbn [f_bytes];
    pose proof (read_line_ok 320 ltac:(lia) (length bs) bs e (S (length bs)) (le_n _) ltac:(lia) He HL HE) as HR.
  - destruct bs; [|cbn [length] in Hn; lia]. destruct (content []) as [|v vs]; [destruct HR as (f' & ->); reflexivity|]. destruct HR as (f' & _ & _ & _ & X & _). cbn [length] in X. lia.
  - destruct (content bs) as [|v vs]; [destruct HR as (f' & ->); reflexivity|]. destruct HR as (f' & ER & G1 & G2 & G3 & G4 & G5).
    rewrite ER. cbn [bind fst snd hosts_of]. destruct f' as [bs' e']. cbn [f_bytes] in *. destruct (hosts_load parse h v) as [x| | |]; try reflexivity. cbn [bind]. rewrite IH; try assumption; try lia. rewrite G2. reflexivity.
Qed.
Lemma dyn_load_ok parse bs cur : readable bs -> end_ok bs -> dyn_load parse (Some bs) true true cur = let! h := hosts_of parse hosts_init (content bs) in Ret (0, Some h).
Proof. intros H1 H2. unfold dyn_load. cbn [negb]. rewrite (dyn_lines_run parse (length bs)); auto; discriminate. Qed.
