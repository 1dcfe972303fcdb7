From Verif Require Import Base BaseFacts Gen_Model Hosts_Model Slist_Model Slist_Proofs Slist_Props Cache_Proofs Line_Model.
Require Import ZifyBool ZifyNat.

(** * C38: reading a text file line by line *)
(** ** Specification *)
(** A line without its comment and without the blanks around it. *)
Fixpoint uncomment (l : list Z) : list Z := match l with [] => [] | c :: l' => if (c =? 35) || (c =? 59) then [] else c :: uncomment l' end.
Fixpoint drop_blanks (l : list Z) : list Z := match l with [] => [] | c :: l' => if is_space c then drop_blanks l' else l end.
Definition trim (l : list Z) : list Z := rev (drop_blanks (rev (drop_blanks l))).
Definition visible (l : list Z) : list Z := trim (uncomment l).
(** The lines of a file: it is cut at the line feeds (C37_pieces), what stands behind the last one is the last line. *)
Definition file_lines (bs : list Z) : list (list Z) := pieces [10] bs.
Definition nonempty (l : list Z) : bool := match l with [] => false | _ => true end.
Definition content (bs : list Z) : list (list Z) := filter nonempty (map visible (file_lines bs)).
(** A line that fits in the buffer, has no NUL, no '#' inside a ';' comment, and no carriage return before visible text. *)
Definition line_ok (size : nat) (l : list Z) : Prop :=
  (length l + 2 <= size)%nat /\ ~ In 0 l /\ (forall a b, l = a ++ 59 :: b -> In 35 a \/ ~ In 35 b) /\ (forall a b, l = a ++ 13 :: b -> Forall (fun c => is_space c = true) b).
(** The file does not end with a line of blanks only without a line feed. *)
Definition end_ok (bs : list Z) : Prop := last (file_lines bs) [] = [] \/ exists c, In c (last (file_lines bs) []) /\ is_space c = false.

(** ** Lemmas *)
Lemma head_drop s : elim_head s = drop_blanks s.
Proof. induction s as [|c s IH]; [reflexivity|]. cbn [elim_head drop_blanks]. rewrite IH. reflexivity. Qed.
Lemma drop_app a b : drop_blanks (a ++ b) = match drop_blanks a with [] => drop_blanks b | x => x ++ b end.
Proof. induction a as [|c a IH]; cbn [app drop_blanks]; [reflexivity|]. destruct (is_space c); [exact IH|reflexivity]. Qed.
Lemma rstrip_rev l : rstrip l = rev (drop_blanks (rev l)).
Proof.
  induction l as [|c l IH]; [reflexivity|]. cbn [rstrip rev]. rewrite IH, drop_app. destruct (drop_blanks (rev l)) as [|d r]; cbn [rev app drop_blanks].
  - destruct (is_space c); reflexivity.
  - rewrite rev_app_distr. cbn [rev app]. destruct (rev r ++ [d]) eqn:E; [destruct (rev r); discriminate|reflexivity].
Qed.
Lemma drop_head l c r : drop_blanks l = c :: r -> is_space c = false.
Proof. induction l as [|d l IH]; cbn [drop_blanks]; [discriminate|]. destruct (is_space d) eqn:E; [exact IH|]. intros [= <- <-]. exact E. Qed.
Lemma drop_idem l : drop_blanks (drop_blanks l) = drop_blanks l.
Proof. destruct (drop_blanks l) as [|c r] eqn:E; [reflexivity|]. cbn [drop_blanks]. rewrite (drop_head _ _ _ E). reflexivity. Qed.
Lemma drop_blank_nil l : drop_blanks l = [] <-> forallb is_space l = true.
Proof. induction l as [|c l IH]; cbn [drop_blanks forallb]; [tauto|]. destruct (is_space c); cbn [andb]; [exact IH|]. split; discriminate. Qed.
Lemma forallb_rev' l : forallb is_space (rev l) = forallb is_space l.
Proof. induction l as [|c l IH]; [reflexivity|]. cbn [rev forallb]. rewrite forallb_app, IH. cbn [forallb]. rewrite andb_true_r. apply andb_comm. Qed.
Lemma rstrip_nil l : rstrip l = [] <-> forallb is_space l = true.
Proof. rewrite rstrip_rev, <- forallb_rev', <- drop_blank_nil. split; intros H; [|rewrite H; reflexivity]. apply (f_equal (@rev Z)) in H. rewrite rev_involutive in H. exact H. Qed.
Lemma rstrip_cases l : rstrip l = [] \/ exists a c, rstrip l = a ++ [c] /\ is_space c = false.
Proof. rewrite rstrip_rev. destruct (drop_blanks (rev l)) as [|c r] eqn:E; [left; reflexivity|]. right. exists (rev r), c. split; [reflexivity|]. eapply drop_head, E. Qed.
Lemma rstrip_idem l : rstrip (rstrip l) = rstrip l.
Proof. rewrite !rstrip_rev, rev_involutive, drop_idem. reflexivity. Qed.
Lemma drop_rstrip l : drop_blanks (rstrip l) = trim l.
Proof.
  unfold trim. rewrite <- rstrip_rev. induction l as [|c l IH]; [reflexivity|]. cbn [rstrip drop_blanks]. destruct (is_space c) eqn:Ec.
  - destruct (rstrip l) as [|d r] eqn:E; [rewrite <- IH; reflexivity|]. cbn [drop_blanks]. rewrite Ec. exact IH.
  - cbn [rstrip]. destruct (rstrip l) as [|d r] eqn:E; [rewrite Ec; cbn [drop_blanks]; rewrite Ec; reflexivity|]. cbn [drop_blanks]. rewrite Ec. reflexivity.
Qed.
Lemma foot_rstrip l : elim_foot (rstrip l) = Ret (rstrip l).
Proof.
  destruct (rstrip_cases l) as [E|(a & c & E & Hc)]; [rewrite E; reflexivity|]. unfold elim_foot. rewrite <- (rstrip_idem l). assert (F : forallb is_space (rstrip l) = false) by (rewrite E, forallb_app; cbn [forallb]; rewrite Hc, andb_false_r; reflexivity).
  rewrite rstrip_idem, F, rstrip_idem. destruct (rstrip l); reflexivity.
Qed.
Lemma foot_nonblank l c : In c l -> is_space c = false -> elim_foot l = Ret (rstrip l).
Proof. intros Hi Hc. unfold elim_foot. destruct l as [|d l]; [destruct Hi|]. destruct (forallb is_space (d :: l)) eqn:F; [|reflexivity]. rewrite forallb_forall in F. rewrite (F c Hi) in Hc. discriminate. Qed.
Lemma rstrip_blank a b : Forall (fun c => is_space c = true) b -> rstrip (a ++ b) = rstrip a.
Proof.
  intros Hb. assert (E : rstrip b = []) by (apply rstrip_nil, forallb_forall; rewrite Forall_forall in Hb; exact Hb).
  induction a as [|c a IH]; [exact E|]. cbn [app rstrip]. rewrite IH. reflexivity.
Qed.
Lemma before_some m l a : before m l = Some a -> exists b, l = a ++ m :: b /\ ~ In m a.
Proof.
  revert a. induction l as [|c l IH]; intros a; cbn [before]; [discriminate|]. destruct (Z.eqb_spec c m) as [->|N]; [intros [= <-]; exists l; split; [reflexivity|intros []]|].
  destruct (before m l) as [a'|]; [|discriminate]. intros [= <-]. destruct (IH a' eq_refl) as (b & -> & Hn). exists b. split; [reflexivity|]. intros [X|X]; [congruence|contradiction].
Qed.
Lemma before_none m l : before m l = None -> ~ In m l.
Proof.
  induction l as [|c l IH]; cbn [before]; [intros _ []|]. destruct (Z.eqb_spec c m) as [->|N]; [discriminate|]. destruct (before m l); [discriminate|]. intros _ [X|X]; [congruence|]. apply IH; auto.
Qed.
Lemma before_in m a b : ~ In m a -> before m (a ++ m :: b) = Some a.
Proof. induction a as [|c a IH]; intros H; cbn [app before]; [rewrite Z.eqb_refl; reflexivity|]. destruct (Z.eqb_spec c m) as [->|N]; [exfalso; apply H; left; reflexivity|]. rewrite IH; [reflexivity|]. intros X. apply H. right. exact X. Qed.
Lemma before_notin m l : ~ In m l -> before m l = None.
Proof. intros H. destruct (before m l) as [a|] eqn:E; [|reflexivity]. apply before_some in E. destruct E as (b & -> & _). exfalso. apply H, in_app_iff. right. left. reflexivity. Qed.
Lemma before_app_lf m l : m <> 10 -> before m (l ++ [10]) = before m l.
Proof. intros N. induction l as [|c l IH]; cbn [app before]; [destruct (Z.eqb_spec 10 m); congruence|]. rewrite IH. reflexivity. Qed.
Lemma uncomment_hash a b : ~ In 35 a -> ~ In 59 a -> uncomment (a ++ 35 :: b) = a.
Proof. induction a as [|c a IH]; intros H1 H2; cbn [app uncomment]; [reflexivity|]. assert (E : (c =? 35) || (c =? 59) = false) by (cbn in H1, H2; lia). rewrite E, IH; [reflexivity|intros X; apply H1; right; exact X|intros X; apply H2; right; exact X]. Qed.
Lemma uncomment_semi a b : ~ In 35 a -> ~ In 59 a -> uncomment (a ++ 59 :: b) = a.
Proof. induction a as [|c a IH]; intros H1 H2; cbn [app uncomment]; [reflexivity|]. assert (E : (c =? 35) || (c =? 59) = false) by (cbn in H1, H2; lia). rewrite E, IH; [reflexivity|intros X; apply H1; right; exact X|intros X; apply H2; right; exact X]. Qed.
Lemma uncomment_none a : ~ In 35 a -> ~ In 59 a -> uncomment a = a.
Proof. induction a as [|c a IH]; intros H1 H2; cbn [uncomment]; [reflexivity|]. assert (E : (c =? 35) || (c =? 59) = false) by (cbn in H1, H2; lia). rewrite E, IH; [reflexivity|intros X; apply H1; right; exact X|intros X; apply H2; right; exact X]. Qed.
Lemma take_line_lf k l r : ~ In 10 l -> (length l < k)%nat -> take_line k (l ++ 10 :: r) = (l ++ [10], r, false).
Proof. revert l. induction k as [|k IH]; intros l Hl HL; [lia|]. destruct l as [|c l]; cbn [app take_line]; [reflexivity|]. destruct (Z.eqb_spec c 10) as [->|N]; [exfalso; apply Hl; left; reflexivity|]. rewrite IH; [reflexivity|intros X; apply Hl; right; exact X|cbn [length] in HL; lia]. Qed.
Lemma take_line_end k l : ~ In 10 l -> (length l < k)%nat -> take_line k l = (l, [], true).
Proof. revert l. induction k as [|k IH]; intros l Hl HL; [lia|]. destruct l as [|c l]; cbn [app take_line]; [reflexivity|]. destruct (Z.eqb_spec c 10) as [->|N]; [exfalso; apply Hl; left; reflexivity|]. rewrite IH; [reflexivity|intros X; apply Hl; right; exact X|cbn [length] in HL; lia]. Qed.
Lemma take_line_full k l r : ~ In 10 l -> length l = k -> take_line k (l ++ r) = (l, r, false).
Proof. revert l. induction k as [|k IH]; intros l Hl HL; destruct l as [|c l]; try discriminate; cbn [app take_line]; [reflexivity|]. destruct (Z.eqb_spec c 10) as [->|N]; [exfalso; apply Hl; left; reflexivity|]. rewrite IH; [reflexivity|intros X; apply Hl; right; exact X|cbn [length] in HL; lia]. Qed.
Lemma pieces_lf l r : ~ In 10 l -> pieces [10] (l ++ 10 :: r) = l :: pieces [10] r.
Proof.
  induction l as [|c l IH]; intros Hl; cbn [app pieces]; [reflexivity|]. assert (E : memz c [10] = false) by (apply not_true_iff_false; rewrite memz_in; intros [X|[]]; apply Hl; left; auto). rewrite E, IH; [reflexivity|]. intros X. apply Hl. right. exact X.
Qed.
Lemma pieces_nolf l : ~ In 10 l -> pieces [10] l = [l].
Proof.
  induction l as [|c l IH]; intros Hl; cbn [pieces]; [reflexivity|]. assert (E : memz c [10] = false) by (apply not_true_iff_false; rewrite memz_in; intros [X|[]]; apply Hl; left; auto). rewrite E, IH; [reflexivity|]. intros X. apply Hl. right. exact X.
Qed.
Lemma lf_split bs : (~ In 10 bs) \/ exists l r, bs = l ++ 10 :: r /\ ~ In 10 l.
Proof. destruct (before 10 bs) as [a|] eqn:E; [right; apply before_some in E; destruct E as (b & -> & H); exists a, b; auto|left; apply before_none, E]. Qed.

(** One line that is read as a whole. [tail]: its line feed, or nothing. *)
Lemma step_line l tail f1 fuel size f : line_ok size l -> (tail = [10] \/ tail = [] /\ f_eof f1 = true /\ (exists c, In c l /\ is_space c = false)) -> ~ In 10 l -> fgets size f = (Some (l ++ tail), f1) ->
  read_line (S fuel) size f = match visible l with [] => read_line fuel size f1 | v => Ret (RlDone v, f1) end.
Proof.
  intros (HL & H0 & HC & HR) HT H10 HG. cbn [read_line]. rewrite HG. assert (HE : reached_end f1 (l ++ tail) = true). { unfold reached_end. destruct HT as [->|(-> & -> & _)]; [rewrite rev_app_distr; reflexivity|]. destruct (rev (l ++ [])) as [|c r]; [reflexivity|]. destruct ((c =? 13) || (c =? 10)); reflexivity. }
  rewrite HE. assert (HB : forall m, m <> 10 -> before m (l ++ tail) = before m l) by (intros m Hm; destruct HT as [->|(-> & _)]; [apply before_app_lf, Hm|rewrite app_nil_r; reflexivity]).
  unfold clear_ann at 1 2. rewrite !HB by lia. unfold visible. destruct (before 35 l) as [a|] eqn:E35.
  - apply before_some in E35. destruct E35 as (b & -> & Ha). assert (Hs : ~ In 59 a) by (intros X; apply in_split in X; destruct X as (a1 & a2 & ->); destruct (HC a1 (a2 ++ 35 :: b)) as [X|X]; [rewrite <- app_assoc; reflexivity|apply Ha, in_app_iff; left; exact X|apply X, in_app_iff; right; left; reflexivity]).
    rewrite uncomment_hash by assumption. cbn [bind]. rewrite foot_rstrip. cbn [bind]. rewrite head_drop, drop_rstrip. reflexivity.
  - apply before_none in E35. destruct (before 59 l) as [a|] eqn:E59.
    + apply before_some in E59. destruct E59 as (b & -> & Ha). rewrite uncomment_semi; [|intros X; apply E35, in_app_iff; left; exact X|exact Ha]. cbn [bind]. rewrite foot_rstrip. cbn [bind]. rewrite head_drop, drop_rstrip. reflexivity.
    + apply before_none in E59. rewrite uncomment_none by assumption.
      assert (HX : elim_foot (elim_crlf (l ++ tail)) = Ret (rstrip l)).
      { unfold elim_crlf. assert (E1 : clear_ann (l ++ tail) 13 = match before 13 l with Some a => Some (rstrip a) | None => None end) by (unfold clear_ann; rewrite HB by lia; reflexivity). rewrite E1. destruct (before 13 l) as [a|] eqn:E13.
        - apply before_some in E13. destruct E13 as (b & -> & Ha). assert (Hr : ~ In 10 (rstrip a)). { intros X. apply H10, in_app_iff. left. rewrite rstrip_rev in X. apply in_rev in X. clear -X. apply in_rev. revert X. induction (rev a) as [|c r IH]; cbn [drop_blanks]; [intros []|]. destruct (is_space c); [intros X; right; apply IH, X|intros X; exact X]. }
          unfold clear_ann. rewrite before_notin by exact Hr. rewrite foot_rstrip. rewrite rstrip_blank; [reflexivity|]. constructor; [reflexivity|]. apply (HR a b eq_refl).
        - destruct HT as [->|(-> & _ & c & Hc & Hs)].
          + unfold clear_ann. rewrite before_in by exact H10. apply foot_rstrip.
          + rewrite app_nil_r. unfold clear_ann. rewrite before_notin by exact H10. apply (foot_nonblank l c Hc Hs). }
      rewrite HX. cbn [bind]. rewrite head_drop, drop_rstrip. reflexivity.
Qed.
Definition fgood (f : file) : Prop := f_eof f = true -> f_bytes f = [].
Lemma fgets_lf size l r e : ~ In 10 l -> ~ In 0 l -> (length l + 2 <= size)%nat -> fgets size (mkf (l ++ 10 :: r) e) = (Some (l ++ [10]), mkf r e).
Proof. intros H10 H0 HL. unfold fgets. cbn [f_bytes f_eof]. rewrite take_line_lf by (auto; lia). rewrite orb_false_r, cstr_no_nul; [destruct l; reflexivity|]. intros X. apply in_app_iff in X. destruct X as [X|[X|[]]]; [contradiction|lia]. Qed.
Lemma fgets_last size l e : l <> [] -> ~ In 10 l -> ~ In 0 l -> (length l + 2 <= size)%nat -> fgets size (mkf l e) = (Some l, mkf [] true).
Proof. intros Hn H10 H0 HL. unfold fgets. cbn [f_bytes f_eof]. rewrite take_line_end by (auto; lia). rewrite orb_true_r, cstr_no_nul by exact H0. destruct l; [contradiction|reflexivity]. Qed.
Lemma fgets_nil size e : (2 <= size)%nat -> fgets size (mkf [] e) = (None, mkf [] true).
Proof. intros H. unfold fgets. cbn [f_bytes]. destruct size as [|[|n]]; [lia|lia|reflexivity]. Qed.
Lemma content_lf l r : ~ In 10 l -> content (l ++ 10 :: r) = match visible l with [] => content r | v => v :: content r end.
Proof. intros H. unfold content, file_lines. rewrite pieces_lf by exact H. cbn [map filter]. destruct (visible l); reflexivity. Qed.
Lemma content_last l : ~ In 10 l -> content l = match visible l with [] => [] | v => [v] end.
Proof. intros H. unfold content, file_lines. rewrite pieces_nolf by exact H. cbn [map filter]. destruct (visible l); reflexivity. Qed.
Lemma last_lf l r : ~ In 10 l -> last (file_lines (l ++ 10 :: r)) [] = last (file_lines r) [].
Proof. intros H. unfold file_lines. rewrite pieces_lf by exact H. destruct (pieces_nonempty [10] r) as (p & ps & ->). reflexivity. Qed.
Lemma read_line_ok size : (2 <= size)%nat -> forall n bs e fuel, (length bs <= n)%nat -> (length bs < fuel)%nat -> (e = true -> bs = []) -> Forall (line_ok size) (file_lines bs) -> end_ok bs ->
  match content bs with
  | [] => exists f', read_line fuel size (mkf bs e) = Ret (RlEnd, f')
  | v :: vs => exists f', read_line fuel size (mkf bs e) = Ret (RlDone v, f') /\ fgood f' /\ content (f_bytes f') = vs /\ (length (f_bytes f') < length bs)%nat /\ Forall (line_ok size) (file_lines (f_bytes f')) /\ end_ok (f_bytes f')
  end.
Proof.
  intros Hs. induction n as [|n IH]; intros bs e fuel Hn Hf He HF HEnd; (destruct fuel as [|fuel]; [lia|]).
  - destruct bs; [|cbn [length] in Hn; lia]. cbn [content file_lines pieces map filter]. cbn. rewrite fgets_nil by exact Hs. eauto.
  - destruct (lf_split bs) as [H10|(l & r & -> & H10)].
    + rewrite content_last by exact H10. unfold end_ok, file_lines in HEnd. rewrite pieces_nolf in HEnd by exact H10. cbn [last] in HEnd. unfold file_lines in HF. rewrite pieces_nolf in HF by exact H10. inversion HF as [|? ? Hl _]; subst. destruct HEnd as [->|Hb].
      * cbn. rewrite fgets_nil by exact Hs. eauto.
      * assert (Hne : bs <> []) by (intros ->; destruct Hb as (c & [] & _)). assert (e = false) as -> by (destruct e; [specialize (He eq_refl); contradiction|reflexivity]).
        rewrite (step_line bs [] (mkf [] true) fuel size _ Hl ltac:(right; auto) H10) by (rewrite app_nil_r; apply fgets_last; try apply Hl; auto).
        destruct (visible bs) as [|c v].
        -- destruct fuel as [|fuel]; [destruct bs; [contradiction|cbn [length] in Hf; lia]|]. cbn [read_line]. rewrite fgets_nil by exact Hs. eauto.
        -- exists (mkf [] true). split; [reflexivity|]. split; [intros _; reflexivity|]. split; [reflexivity|]. split; [destruct bs; [contradiction|cbn [f_bytes length]; lia]|]. split; [|left; reflexivity].
           constructor; [|constructor]. split; [cbn [length]; lia|]. split; [intros []|]. split; [intros [] ? X; discriminate X|intros [] ? X; discriminate X].
    + assert (e = false) as -> by (destruct e; [specialize (He eq_refl); destruct l; discriminate He|reflexivity]). rewrite content_lf by exact H10. unfold file_lines in HF. rewrite pieces_lf in HF by exact H10. inversion HF as [|? ? Hl HF']; subst. unfold end_ok in HEnd. rewrite last_lf in HEnd by exact H10. rewrite app_length in Hn, Hf. cbn [length] in Hn, Hf.
      rewrite (step_line l [10] (mkf r false) fuel size _ Hl ltac:(left; reflexivity) H10) by (apply fgets_lf; try apply Hl; auto).
      destruct (visible l) as [|c v].
      * specialize (IH r false fuel ltac:(lia) ltac:(lia) ltac:(discriminate) HF' HEnd). destruct (content r) as [|w ws]; [exact IH|]. destruct IH as (f' & E & G1 & G2 & G3 & G4). exists f'. split; [exact E|]. split; [exact G1|]. split; [exact G2|]. split; [rewrite app_length; cbn [length]; lia|exact G4].
      * exists (mkf r false). split; [reflexivity|]. split; [discriminate|]. split; [reflexivity|]. split; [rewrite app_length; cbn [f_bytes length]; lia|]. split; assumption.
Qed.
(** Full statement: for every file and buffer size, the lines read are the visible parts of the lines of the file, without the empty ones.  Proved for
    files whose lines fit in the buffer and meet [line_ok] and [end_ok]; see the _refuted theorems for the rest. *)
Theorem C38_lines_partial size bs : (2 <= size)%nat -> Forall (line_ok size) (file_lines bs) -> end_ok bs ->
  forall fuel, (length bs < fuel)%nat -> read_all fuel size (mkf bs false) = Ret (map RlDone (content bs)).
Proof.
  intros Hs. enough (H : forall n bs e, (length bs <= n)%nat -> (e = true -> bs = []) -> Forall (line_ok size) (file_lines bs) -> end_ok bs -> forall fuel, (length bs < fuel)%nat -> read_all fuel size (mkf bs e) = Ret (map RlDone (content bs))) by (intros HF HE; apply (H (length bs) bs false); auto; discriminate).
  clear bs. induction n as [|n IH]; intros bs e Hn He HF HE fuel Hf; (destruct fuel as [|fuel]; [lia|]); cbn [read_all]; unfold read_line1; cbn [f_bytes]; pose proof (read_line_ok size Hs (length bs) bs e (S (length bs)) (le_n _) ltac:(lia) He HF HE) as HR.
  - destruct bs; [|cbn [length] in Hn; lia]. destruct (content []) as [|v vs]; [destruct HR as (f' & ->); reflexivity|]. destruct HR as (f' & _ & _ & _ & X & _). cbn [length] in X. lia.
  - destruct (content bs) as [|v vs]; [destruct HR as (f' & ->); reflexivity|]. destruct HR as (f' & -> & G1 & G2 & G3 & G4 & G5). cbn [bind fst snd]. destruct f' as [bs' e']. cbn [f_bytes] in *. rewrite (IH bs' e'); try assumption; try lia. rewrite G2. reflexivity.
Qed.
Print Assumptions C38_lines_partial.
(** "a b # c\r\n\n ; d\n#e;f\n x\ty\t" *)
Example C38_nonvacuous : let bs := [97;32;98;32;35;32;99;13;10;10;32;59;32;100;10;35;101;59;102;10;32;120;9;121;9] in
  read_all 30 20 (mkf bs false) = Ret [RlDone [97;32;98]; RlDone [120;9;121]] /\ content bs = [[97;32;98]; [120;9;121]] /\ end_ok bs.
Proof. split; [vm_compute; reflexivity|]. split; [vm_compute; reflexivity|]. right. exists 120. split; [vm_compute; tauto|reflexivity]. Qed.

(** ** Every file, every buffer: what a returned line looks like *)
Lemma take_line_facts k : forall bs a r e, take_line k bs = (a, r, e) -> bs = a ++ r /\ (length a <= k)%nat /\ (e = true -> r = []) /\ (~ In 10 a \/ exists a', a = a' ++ [10] /\ ~ In 10 a' /\ e = false).
Proof.
  induction k as [|k IH]; intros bs a r e; cbn [take_line]; [intros [= <- <- <-]; split; [reflexivity|split; [cbn [length]; lia|split; [discriminate|left; intros []]]]|].
  destruct bs as [|c bs]; [intros [= <- <- <-]; split; [reflexivity|split; [cbn [length]; lia|split; [reflexivity|left; intros []]]]|]. destruct (Z.eqb_spec c 10) as [->|N].
  - intros [= <- <- <-]. split; [reflexivity|split; [cbn [length]; lia|split; [discriminate|]]]. right. exists []. split; [reflexivity|split; [intros []|reflexivity]].
  - destruct (take_line k bs) as ((a1, r1), e1) eqn:E. intros [= <- <- <-]. destruct (IH _ _ _ _ E) as (-> & G2 & G3 & G4). split; [reflexivity|split; [cbn [length]; lia|split; [exact G3|]]]. destruct G4 as [G|(a' & -> & G & ->)]; [left; intros [X|X]; [congruence|contradiction]|].
    right. exists (c :: a'). split; [reflexivity|split; [intros [X|X]; [congruence|contradiction]|reflexivity]].
Qed.
Lemma cstr_prefix l : exists r, l = cstr l ++ r.
Proof. induction l as [|c l (r & IH)]; cbn [cstr]; [exists []; reflexivity|]. destruct (c =? 0); [exists (c :: l); reflexivity|]. exists r. cbn [app]. rewrite <- IH. reflexivity. Qed.
Lemma prefix_lf (s r : list Z) : (~ In 10 (s ++ r) \/ exists a', s ++ r = a' ++ [10] /\ ~ In 10 a') -> ~ In 10 s \/ exists a', s = a' ++ [10] /\ ~ In 10 a'.
Proof.
  intros [H|(a' & E & H)]; [left; intros X; apply H, in_app_iff; left; exact X|]. destruct r as [|c r] using rev_ind; [right; exists a'; rewrite app_nil_r in E; auto|]. rewrite app_assoc in E. apply app_inj_tail in E. destruct E as (<- & _). left. intros X. apply H, in_app_iff. left. exact X.
Qed.
Lemma fgets_facts size f s f1 : fgets size f = (Some s, f1) -> (2 <= size)%nat -> exists a, f_bytes f = a ++ f_bytes f1 /\ a <> [] /\ s = cstr a /\ (length a < size)%nat /\ (~ In 10 s \/ exists s', s = s' ++ [10] /\ ~ In 10 s') /\ (f_eof f = false -> f_eof f1 = true -> f_bytes f1 = [] /\ ~ In 10 a).
Proof.
  unfold fgets. destruct (take_line (size - 1) (f_bytes f)) as ((a, r), e) eqn:E. intros HG Hs. destruct (take_line_facts _ _ _ _ _ E) as (Eb & G2 & G3 & G4). assert (Ha : a <> []). { intros ->. destruct e; [discriminate|]. destruct (size - 1)%nat as [|k] eqn:Ek; [lia|]. cbn [take_line] in E. destruct (f_bytes f) as [|c bs]; [discriminate|]. destruct (c =? 10); [discriminate|]. destruct (take_line k bs) as ((x, y), z). discriminate. }
  assert (HG' : (Some (cstr a), mkf r (f_eof f || e)) = (Some s, f1)) by (destruct a; [contradiction|exact HG]). injection HG' as <- <-. exists a. cbn [f_bytes f_eof]. split; [exact Eb|]. split; [exact Ha|]. split; [reflexivity|]. split; [lia|]. split.
  - destruct (cstr_prefix a) as (q & Eq). apply (prefix_lf _ q). rewrite <- Eq. destruct G4 as [G|(a' & G & G' & _)]; [left; exact G|right; eauto].
  - intros ->. cbn [orb]. intros ->. split; [apply G3; reflexivity|]. destruct G4 as [G|(a' & _ & _ & X)]; [exact G|discriminate].
Qed.
Lemma rstrip_prefix l : exists r, l = rstrip l ++ r.
Proof. induction l as [|c l (r & IH)]; [exists []; reflexivity|]. cbn [rstrip]. destruct (rstrip l) as [|d q] eqn:E; [destruct (is_space c); [exists (c :: l); reflexivity|exists l; reflexivity]|]. exists r. cbn [app] in *. rewrite <- IH. reflexivity. Qed.
Lemma drop_suffix l : exists r, l = r ++ drop_blanks l.
Proof. induction l as [|c l (r & IH)]; [exists []; reflexivity|]. cbn [drop_blanks]. destruct (is_space c); [exists (c :: r); cbn [app]; rewrite <- IH; reflexivity|exists []; reflexivity]. Qed.
Definition part_of (s a : list Z) : Prop := exists p q, a = p ++ s ++ q.
Lemma part_rstrip l : part_of (rstrip l) l.
Proof. destruct (rstrip_prefix l) as (r & E). exists [], r. exact E. Qed.
Lemma part_drop l : part_of (drop_blanks l) l.
Proof. destruct (drop_suffix l) as (r & E). exists r, []. rewrite app_nil_r. exact E. Qed.
Lemma part_trans a b c : part_of a b -> part_of b c -> part_of a c.
Proof. intros (p & q & ->) (p' & q' & ->). exists (p' ++ p), (q ++ q'). rewrite !app_assoc. reflexivity. Qed.
Lemma part_in a b c : part_of a b -> In c a -> In c b.
Proof. intros (p & q & ->) H. apply in_app_iff. right. apply in_app_iff. left. exact H. Qed.
Lemma part_before m l a : before m l = Some a -> part_of a l.
Proof. intros H. apply before_some in H. destruct H as (b & -> & _). exists [], (m :: b). reflexivity. Qed.
Lemma foot_ret l x : elim_foot l = Ret x -> x = rstrip l.
Proof. unfold elim_foot. destruct l as [|c l]; [intros [= <-]; reflexivity|]. destruct (forallb is_space (c :: l)); [discriminate|]. intros [= <-]. reflexivity. Qed.
Definition clean (l : list Z) : Prop := (exists c r, l = c :: r /\ is_space c = false) /\ (exists r c, l = r ++ [c] /\ is_space c = false) /\ ~ In 35 l /\ ~ In 10 l /\ ~ In 0 l.
Lemma trim_clean l : drop_blanks (rstrip l) <> [] -> ~ In 35 l -> ~ In 10 l -> ~ In 0 l -> clean (drop_blanks (rstrip l)).
Proof.
  intros Hn H35 H10 H0. assert (HP : part_of (drop_blanks (rstrip l)) l) by (eapply part_trans; [apply part_drop|apply part_rstrip]). split; [|split].
  - destruct (drop_blanks (rstrip l)) as [|c r] eqn:E; [contradiction|]. exists c, r. split; [reflexivity|]. eapply drop_head, E.
  - destruct (rstrip_cases l) as [E|(a & c & E & Hc)]; [rewrite E in Hn; contradiction|]. destruct (drop_suffix (rstrip l)) as (r & Er). rewrite E in Er at 1. set (y := drop_blanks (rstrip l)) in *. destruct y as [|d y] using rev_ind; [contradiction|]. rewrite app_assoc in Er. apply app_inj_tail in Er. destruct Er as (_ & <-). exists y, c. auto.
  - split; [|split]; intros X; eapply part_in in X; try exact HP; contradiction.
Qed.
Lemma read_line_shape size : (2 <= size)%nat -> forall fuel f r f', read_line fuel size f = Ret (r, f') -> (exists u, f_bytes f = u ++ f_bytes f') /\
  match r with RlEnd => True | RlDone s => clean s /\ (length s < size)%nat | RlTrunc s => ~ In 10 s /\ ~ In 35 s /\ ~ In 59 s /\ (~ In 0 (f_bytes f) -> length s = (size - 1)%nat) end.
Proof.
  intros Hs. assert (HBH : forall fuel f o f', black_hole fuel f = Ret (o, f') -> (exists u, f_bytes f = u ++ f_bytes f') /\ (forall g, o = Some g -> g = f')).
  { induction fuel as [|fuel IH]; intros f o f'; cbn [black_hole]; [discriminate|]. destruct (fgets 128 f) as [[s|] f1] eqn:E.
    - destruct (fgets_facts _ _ _ _ E ltac:(lia)) as (a & Ea & _). destruct (reached_end f1 s); [intros [= <- <-]; split; [exists a; exact Ea|intros g [= <-]; reflexivity]|]. intros H. destruct (IH _ _ _ H) as ((u & Eu) & G). split; [exists (a ++ u); rewrite Ea, Eu; apply app_assoc|exact G].
    - intros [= <- <-]. split; [|discriminate]. unfold fgets in E. destruct (take_line (128 - 1) (f_bytes f)) as ((a, r), e) eqn:Et. destruct (take_line_facts _ _ _ _ _ Et) as (Eb & _ & Ge & _). destruct a as [|c a]; [|discriminate]. destruct e; [|discriminate]. injection E as <-. exists []. rewrite Eb, (Ge eq_refl). reflexivity. }
  induction fuel as [|fuel IH]; intros f r f'; cbn [read_line]; [discriminate|]. destruct (fgets size f) as [[s|] f1] eqn:EG.
  2:{ intros [= <- <-]. split; [|exact I]. unfold fgets in EG. destruct (take_line (size - 1) (f_bytes f)) as ((a, r), e) eqn:Et. destruct (take_line_facts _ _ _ _ _ Et) as (Eb & _ & Ge & _). destruct a as [|c a]; [|discriminate]. destruct e; [|discriminate]. injection EG as <-. exists []. rewrite Eb, (Ge eq_refl). reflexivity. }
  destruct (fgets_facts _ _ _ _ EG Hs) as (a & Ea & Hna & Es & HLa & H10 & _). assert (H0 : ~ In 0 s) by (intros X; rewrite Es in X; apply (cstr_in _ _ X); reflexivity). assert (HLs : (length s <= length a)%nat) by (destruct (cstr_prefix a) as (q & Eq); rewrite Es; rewrite Eq at 2; rewrite app_length; lia).
  assert (HREC : forall f2, (exists u, f_bytes f1 = u ++ f_bytes f2) -> read_line fuel size f2 = Ret (r, f') -> (exists u, f_bytes f = u ++ f_bytes f') /\ match r with RlEnd => True | RlDone s => clean s /\ (length s < size)%nat | RlTrunc s => ~ In 10 s /\ ~ In 35 s /\ ~ In 59 s /\ (~ In 0 (f_bytes f) -> length s = (size - 1)%nat) end).
  { intros f2 (u & Eu) H. destruct (IH _ _ _ H) as ((u' & Eu') & G). split; [exists (a ++ u ++ u'); rewrite Ea, Eu, Eu', !app_assoc; reflexivity|]. destruct r; auto. destruct G as (G1 & G2 & G3 & G4). repeat split; auto. intros X. apply G4. intros Y. apply X. rewrite Ea, Eu. apply in_app_iff. right. apply in_app_iff. right. exact Y. }
  assert (HFIN : forall l f2, part_of l s -> ~ In 35 l -> ~ In 10 l -> (exists u, f_bytes f1 = u ++ f_bytes f2) -> (let! b1 := elim_foot l in match elim_head b1 with [] => read_line fuel size f2 | b2 => Ret (RlDone b2, f2) end) = Ret (r, f') -> (exists u, f_bytes f = u ++ f_bytes f') /\ match r with RlEnd => True | RlDone s => clean s /\ (length s < size)%nat | RlTrunc s => ~ In 10 s /\ ~ In 35 s /\ ~ In 59 s /\ (~ In 0 (f_bytes f) -> length s = (size - 1)%nat) end).
  { intros l f2 HP G35 G10 Hu H. destruct (elim_foot l) as [b1| | |] eqn:Ef; try discriminate. apply foot_ret in Ef. subst b1. cbn [bind] in H. rewrite head_drop in H. destruct (drop_blanks (rstrip l)) as [|c b] eqn:Eb; [apply HREC in H; assumption|]. injection H as <- <-. destruct Hu as (u & Eu). split; [exists (a ++ u); rewrite Ea, Eu; apply app_assoc|]. rewrite <- Eb. split.
    - apply trim_clean; [congruence|exact G35|exact G10|]. intros X. apply H0. eapply part_in; [exact HP|exact X].
    - assert (HP2 : part_of (drop_blanks (rstrip l)) s) by (eapply part_trans; [|exact HP]; eapply part_trans; [apply part_drop|apply part_rstrip]). destruct HP2 as (p & q & E2). rewrite E2, !app_length in HLs. lia. }
  assert (HBF : forall m l, m <> 10 -> before m s = Some l -> ~ In 10 l). { intros m l Hm Hb X. apply before_some in Hb. destruct Hb as (b & Eb & _). destruct H10 as [H10|(s' & E' & H10)]; [apply H10; rewrite Eb; apply in_app_iff; left; exact X|]. destruct b as [|c b] using rev_ind; [rewrite E' in Eb; apply app_inj_tail in Eb; destruct Eb; congruence|]. rewrite app_comm_cons, app_assoc, E' in Eb. apply app_inj_tail in Eb. destruct Eb as (-> & _). apply H10, in_app_iff. left. exact X. }
  assert (HBHo : forall ended, forall (k : option file * file -> outcome (rl * file)), (let! o := if (ended : bool) then Ret (Some f1, f1) else black_hole (S (length (f_bytes f1))) f1 in k o) = Ret (r, f') -> exists o f2, k (o, f2) = Ret (r, f') /\ (exists u, f_bytes f1 = u ++ f_bytes f2) /\ (forall g, o = Some g -> g = f2)).
  { intros ended k. destruct ended; cbn [bind]; [intros H; exists (Some f1), f1; split; [exact H|]; split; [exists []; reflexivity|intros g [= <-]; reflexivity]|]. destruct (black_hole (S (length (f_bytes f1))) f1) as [(o, f2)| | |] eqn:Eb; try discriminate. cbn [bind]. intros H. exists o, f2. split; [exact H|]. exact (HBH _ _ _ _ Eb). }
  unfold clear_ann. destruct (before 35 s) as [l|] eqn:E35; [|destruct (before 59 s) as [l|] eqn:E59].
  - intros H. apply HBHo in H. destruct H as (o & f2 & H & Hu & Ho). destruct o as [g|]; [rewrite (Ho g eq_refl) in *|injection H as <- <-; destruct Hu as (u & Eu); split; [exists (a ++ u); rewrite Ea, Eu; apply app_assoc|exact I]].
    pose proof (part_rstrip l) as HPr. apply (HFIN (rstrip l) f2) in H; [exact H| | | |exact Hu].
    + eapply part_trans; [exact HPr|eapply part_before, E35].
    + intros X. apply (part_in _ _ _ HPr) in X. destruct (before_some _ _ _ E35) as (b & _ & Hn). contradiction.
    + intros X. apply (part_in _ _ _ HPr) in X. apply (HBF 35 l); [lia|exact E35|exact X].
  - intros H. apply HBHo in H. destruct H as (o & f2 & H & Hu & Ho). destruct o as [g|]; [rewrite (Ho g eq_refl) in *|injection H as <- <-; destruct Hu as (u & Eu); split; [exists (a ++ u); rewrite Ea, Eu; apply app_assoc|exact I]].
    pose proof (part_rstrip l) as HPr. apply (HFIN (rstrip l) f2) in H; [exact H| | | |exact Hu].
    + eapply part_trans; [exact HPr|eapply part_before, E59].
    + intros X. apply (part_in _ _ _ HPr) in X. apply before_none in E35. apply E35. eapply part_in; [eapply part_before, E59|exact X].
    + intros X. apply (part_in _ _ _ HPr) in X. apply (HBF 59 l); [lia|exact E59|exact X].
  - apply before_none in E35. apply before_none in E59. destruct (reached_end f1 s) eqn:Er.
    + intros H. assert (HP : part_of (elim_crlf s) s /\ ~ In 10 (elim_crlf s)). { unfold elim_crlf. assert (HP1 : part_of (match clear_ann s 13 with Some a => a | None => s end) s) by (unfold clear_ann; destruct (before 13 s) as [l|] eqn:E13; [eapply part_trans; [apply part_rstrip|eapply part_before, E13]|exists [], []; rewrite app_nil_r; reflexivity]). set (s1 := match clear_ann s 13 with Some a => a | None => s end) in *. unfold clear_ann. destruct (before 10 s1) as [l|] eqn:Eb.
        - split; [eapply part_trans; [apply part_rstrip|eapply part_trans; [eapply part_before, Eb|exact HP1]]|]. intros X. apply (part_in _ _ _ (part_rstrip l)) in X. destruct (before_some _ _ _ Eb) as (b & _ & Hn). contradiction.
        - split; [exact HP1|]. apply before_none, Eb. }
      destruct HP as (HP & Hn10). apply (HFIN (elim_crlf s) f1) in H; [exact H|exact HP|intros X; apply E35; eapply part_in; [exact HP|exact X]|exact Hn10|exists []; reflexivity].
    + intros [= <- <-]. split; [exists a; exact Ea|]. assert (Hl10 : ~ In 10 s) by (destruct H10 as [H10|(s' & E' & _)]; [exact H10|]; rewrite E' in Er; unfold reached_end in Er; rewrite rev_app_distr in Er; discriminate Er). repeat split; [exact Hl10|exact E35|exact E59|].
      intros Hz. assert (Hza : ~ In 0 a) by (intros X; apply Hz; rewrite Ea; apply in_app_iff; left; exact X). rewrite (cstr_no_nul a Hza) in Es. subst s.
      unfold fgets in EG. destruct (take_line (size - 1) (f_bytes f)) as ((a1, r1), e1) eqn:Et. assert (EG' : (Some (cstr a1), mkf r1 (f_eof f || e1)) = (Some a, f1)) by (destruct a1; [destruct e1; [discriminate|exact EG]|exact EG]). injection EG' as E1 <-. assert (Hz1 : ~ In 0 a1) by (destruct (take_line_facts _ _ _ _ _ Et) as (Eb & _); intros X; apply Hz; rewrite Eb; apply in_app_iff; left; exact X). rewrite (cstr_no_nul a1 Hz1) in E1. subst a1.
      assert (He1 : e1 = false) by (unfold reached_end in Er; cbn [f_eof] in Er; destruct (rev a) as [|c q]; [|destruct ((c =? 13) || (c =? 10)); [discriminate|]]; destruct (f_eof f), e1; try discriminate; reflexivity). subst e1.
      clear -Et Hl10. revert Et Hl10. generalize (f_bytes f) as bs. generalize (size - 1)%nat as k. intros k. revert a r1. induction k as [|k IHk]; intros a r1 bs; cbn [take_line]; [intros [= <- _]; reflexivity|]. destruct bs as [|c bs]; [discriminate|]. destruct (Z.eqb_spec c 10) as [->|N]; [intros [= <- _] X; exfalso; apply X; left; reflexivity|]. destruct (take_line k bs) as ((x, y), z) eqn:E. intros [= <- <- ->] X. cbn [length]. f_equal. apply (IHk x y bs); [exact E|]. intros Y. apply X. right. exact Y.
Qed.
(** Whatever the file: what is read is never read again, a complete line is never empty, has no blank at either end, no '#', no line feed, no NUL and fits in
    the buffer; an incomplete one has no comment and fills the buffer. *)
Theorem C38_shape size f r f' : (2 <= size)%nat -> read_line1 size f = Ret (r, f') -> (exists u, f_bytes f = u ++ f_bytes f') /\
  match r with
  | RlEnd => True
  | RlDone s => (exists c s', s = c :: s' /\ is_space c = false) /\ (exists s' c, s = s' ++ [c] /\ is_space c = false) /\ ~ In 35 s /\ ~ In 10 s /\ ~ In 0 s /\ (length s < size)%nat
  | RlTrunc s => ~ In 10 s /\ ~ In 35 s /\ ~ In 59 s /\ (~ In 0 (f_bytes f) -> length s = (size - 1)%nat)
  end.
Proof.
  intros Hs H. destruct (read_line_shape size Hs _ _ _ _ H) as (G1 & G2). split; [exact G1|]. destruct r as [|s|s]; [exact I| |exact G2]. destruct G2 as ((A & B & C & D & E) & L). auto 10.
Qed.
Print Assumptions C38_shape.
(** Whatever the file: every call returns, except that blanks at the very end of the file without a line feed make the function look at the byte in front
    of the buffer (before which a NUL byte may hide other text). *)
Theorem C38_returns size f : (2 <= size)%nat -> f_eof f = false -> (exists r f', read_line1 size f = Ret (r, f')) \/
  (read_line1 size f = UBR /\ exists a b c, f_bytes f = a ++ b ++ c /\ b <> [] /\ Forall (fun x => is_space x = true) b /\ ~ In 10 (b ++ c) /\ (c = [] \/ exists c', c = 0 :: c')).
Proof.
  intros Hs. unfold read_line1. assert (HBH : forall fuel f, (length (f_bytes f) < fuel)%nat -> exists o f', black_hole fuel f = Ret (o, f')).
  { induction fuel as [|fuel IH]; intros f0 Hl; [lia|]. cbn [black_hole]. destruct (fgets 128 f0) as [[s|] f1] eqn:E; [|eauto]. destruct (fgets_facts _ _ _ _ E ltac:(lia)) as (a & Ea & Hn & _). rewrite Ea, app_length in Hl. destruct (reached_end f1 s); [eauto|]. apply IH. destruct a; [contradiction|cbn [length] in Hl; lia]. }
  enough (H : forall fuel f, (length (f_bytes f) < fuel)%nat -> (f_eof f = true -> f_bytes f = []) -> (exists r f', read_line fuel size f = Ret (r, f')) \/ (read_line fuel size f = UBR /\ exists a b c, f_bytes f = a ++ b ++ c /\ b <> [] /\ Forall (fun x => is_space x = true) b /\ ~ In 10 (b ++ c) /\ (c = [] \/ exists c', c = 0 :: c'))) by (intros He; apply H; [lia|congruence]).
  induction fuel as [|fuel IH]; intros f0 Hl He; [lia|]. cbn [read_line]. destruct (fgets size f0) as [[s|] f1] eqn:EG; [|eauto]. destruct (fgets_facts _ _ _ _ EG Hs) as (a & Ea & Hna & Es & HLa & H10 & HEof).
  assert (He0 : f_eof f0 = false) by (destruct (f_eof f0); [specialize (He eq_refl); rewrite He in Ea; destruct a; [contradiction|discriminate]|reflexivity]). specialize (HEof He0).
  assert (HREC : forall f2, (exists u, f_bytes f1 = u ++ f_bytes f2) -> (f_eof f2 = true -> f_bytes f2 = []) -> (exists r f', read_line fuel size f2 = Ret (r, f')) \/ (read_line fuel size f2 = UBR /\ exists a b c, f_bytes f0 = a ++ b ++ c /\ b <> [] /\ Forall (fun x => is_space x = true) b /\ ~ In 10 (b ++ c) /\ (c = [] \/ exists c', c = 0 :: c'))).
  { intros f2 (u & Eu) He2. rewrite Ea, app_length, Eu, app_length in Hl. destruct (IH f2) as [G|(G & x & y & z & E1 & E2)]; [destruct a; [contradiction|cbn [length] in Hl; lia]|exact He2|left; exact G|]. right. split; [exact G|]. exists (a ++ u ++ x), y, z. split; [rewrite Ea, Eu, E1, !app_assoc; reflexivity|exact E2]. }
  assert (HEOF : forall f2 f3 size2 s2, (2 <= size2)%nat -> (f_eof f2 = true -> f_bytes f2 = []) -> fgets size2 f2 = (Some s2, f3) -> (f_eof f3 = true -> f_bytes f3 = [])).
  { intros f2 f3 size2 s2 Hs2 Hg Hf. destruct (fgets_facts _ _ _ _ Hf Hs2) as (a2 & Ea2 & Hna2 & _ & _ & _ & G). assert (f_eof f2 = false) by (destruct (f_eof f2); [specialize (Hg eq_refl); rewrite Hg in Ea2; destruct a2; [contradiction|discriminate]|reflexivity]). intros X. apply G; assumption. }
  assert (HBE : forall fuel f2 o f3, (f_eof f2 = true -> f_bytes f2 = []) -> black_hole fuel f2 = Ret (o, f3) -> (exists u, f_bytes f2 = u ++ f_bytes f3) /\ (forall g, o = Some g -> g = f3) /\ (f_eof f3 = true -> f_bytes f3 = [])).
  { clear -HEOF. induction fuel as [|fuel IH]; intros f2 o f3 Hg; cbn [black_hole]; [discriminate|]. destruct (fgets 128 f2) as [[s|] f4] eqn:E.
    - destruct (fgets_facts _ _ _ _ E ltac:(lia)) as (a & Ea & _). pose proof (HEOF _ _ 128%nat s ltac:(lia) Hg E) as Hg4. destruct (reached_end f4 s); [intros [= <- <-]; split; [exists a; exact Ea|split; [intros g [= <-]; reflexivity|exact Hg4]]|]. intros H. destruct (IH _ _ _ Hg4 H) as ((u & Eu) & G1 & G2). split; [exists (a ++ u); rewrite Ea, Eu; apply app_assoc|split; assumption].
    - unfold fgets in E. destruct (take_line (128 - 1) (f_bytes f2)) as ((a, r), e) eqn:Et. destruct (take_line_facts _ _ _ _ _ Et) as (Eb & _ & Ge & _). destruct a as [|c a]; [|discriminate]. destruct e; [|discriminate]. injection E as <-. intros [= <- <-]. split; [exists []; rewrite Eb, (Ge eq_refl); reflexivity|]. split; [discriminate|reflexivity]. }
  assert (Hf1 : f_eof f1 = true -> f_bytes f1 = []) by (intros X; apply HEof, X).
  unfold clear_ann. assert (HC : forall l, (exists r f', (let! o := if reached_end f1 s then Ret (Some f1, f1) else black_hole (S (length (f_bytes f1))) f1 in match o with (None, f2) => Ret (RlEnd, f2) | (Some f2, _) => let! b1 := elim_foot (rstrip l) in match elim_head b1 with [] => read_line fuel size f2 | b2 => Ret (RlDone b2, f2) end end) = Ret (r, f')) \/ ((let! o := if reached_end f1 s then Ret (Some f1, f1) else black_hole (S (length (f_bytes f1))) f1 in match o with (None, f2) => Ret (RlEnd, f2) | (Some f2, _) => let! b1 := elim_foot (rstrip l) in match elim_head b1 with [] => read_line fuel size f2 | b2 => Ret (RlDone b2, f2) end end) = UBR /\ exists a b c, f_bytes f0 = a ++ b ++ c /\ b <> [] /\ Forall (fun x => is_space x = true) b /\ ~ In 10 (b ++ c) /\ (c = [] \/ exists c', c = 0 :: c'))).
  { intros l. assert (HO : exists o f2, (if reached_end f1 s then Ret (Some f1, f1) else black_hole (S (length (f_bytes f1))) f1) = Ret (o, f2) /\ (exists u, f_bytes f1 = u ++ f_bytes f2) /\ (forall g, o = Some g -> g = f2) /\ (f_eof f2 = true -> f_bytes f2 = [])).
    { destruct (reached_end f1 s); [exists (Some f1), f1; split; [reflexivity|]; split; [exists []; reflexivity|]; split; [intros g [= <-]; reflexivity|exact Hf1]|]. destruct (HBH (S (length (f_bytes f1))) f1 ltac:(lia)) as (o & f2 & E). exists o, f2. split; [exact E|]. eapply HBE; [exact Hf1|exact E]. }
    destruct HO as (o & f2 & -> & Hu & Ho & He2). cbn [bind]. destruct o as [g|]; [rewrite (Ho g eq_refl)|left; eauto]. rewrite foot_rstrip. cbn [bind]. destruct (elim_head (rstrip l)) as [|c b]; [apply HREC; assumption|left; eauto]. }
  destruct (before 35 s) as [l|]; [apply HC|]. destruct (before 59 s) as [l|]; [apply HC|]. clear HC. destruct (reached_end f1 s) eqn:Er; [|left; eauto].
  destruct (elim_foot (elim_crlf s)) as [b1| | |] eqn:Ef; cbn [bind].
  - destruct (elim_head b1) as [|c b]; [apply HREC; [exists []; reflexivity|exact Hf1]|left; eauto].
  - right. split; [reflexivity|]. unfold elim_crlf, clear_ann in Ef. destruct (before 13 s) as [l|] eqn:E13.
    + destruct (before 10 (rstrip l)) as [l2|]; rewrite foot_rstrip in Ef; discriminate.
    + destruct (before 10 s) as [l2|] eqn:E10; [rewrite foot_rstrip in Ef; discriminate|]. apply before_none in E10, E13. unfold elim_foot in Ef. destruct (forallb is_space s) eqn:Fs; [|destruct s; discriminate].
      assert (He1 : f_eof f1 = true). { unfold reached_end in Er. destruct (rev s) as [|c q] eqn:Erv; [exact Er|]. assert (Hin : In c s) by (apply in_rev; rewrite Erv; left; reflexivity). destruct (Z.eqb_spec c 13) as [->|N1]; [contradiction|]. destruct (Z.eqb_spec c 10) as [->|N2]; [contradiction|exact Er]. }
      destruct (HEof He1) as (Eb & Hn10). rewrite Eb, app_nil_r in Ea. destruct (cstr_prefix a) as (q & Eq). exists [], s, q. cbn [app]. rewrite <- Es in Eq. split; [congruence|]. split; [destruct s; [discriminate|discriminate]|]. split; [apply Forall_forall; rewrite forallb_forall in Fs; exact Fs|]. split; [rewrite <- Eq; exact Hn10|].
      clear -Eq Es. subst s. revert q Eq. induction a as [|c a IH]; intros q; cbn [cstr]; [destruct q; [auto|discriminate]|]. destruct (Z.eqb_spec c 0) as [->|N]; [cbn [app]; intros <-; right; eauto|]. cbn [app]. intros [= E]. apply IH, E.
  - unfold elim_foot in Ef. destruct (elim_crlf s); [discriminate|]. destruct (forallb is_space (z :: l)); discriminate.
  - unfold elim_foot in Ef. destruct (elim_crlf s); [discriminate|]. destruct (forallb is_space (z :: l)); discriminate.
Qed.
Print Assumptions C38_returns.

(** ** Lines longer than the buffer *)
(** A caller that takes the parts of a line together (ParseString, readconfig.c:322-330). *)
Fixpoint read_whole (fuel : nat) (size : nat) (f : file) : outcome (list Z * file) :=
  match fuel with
  | O => Fuel
  | S fuel' =>
    let! r := read_line1 size f in
    match fst r with
    | RlEnd => Ret ([], snd r)
    | RlDone s => Ret (s, snd r)
    | RlTrunc s => let! q := read_whole fuel' size (snd r) in Ret (s ++ fst q, snd q)
    end
  end.
Definition plain (l : list Z) : Prop := forall c, In c l -> c <> 0 /\ c <> 10 /\ c <> 13 /\ c <> 35 /\ c <> 59.
Lemma plain_app a b : plain (a ++ b) -> plain a /\ plain b.
Proof. intros H. split; intros c Hc; apply H, in_app_iff; auto. Qed.
Lemma plain_not l m : plain l -> m = 0 \/ m = 10 \/ m = 13 \/ m = 35 \/ m = 59 -> ~ In m l.
Proof. intros H Hm X. apply H in X. lia. Qed.
Lemma read_trunc size a rest : (2 <= size)%nat -> plain a -> length a = (size - 1)%nat -> read_line1 size (mkf (a ++ rest) false) = Ret (RlTrunc a, mkf rest false).
Proof.
  intros Hs Hp HL. unfold read_line1. cbn [read_line]. unfold fgets. cbn [f_bytes f_eof]. rewrite take_line_full; [|apply plain_not; [exact Hp|lia]|exact HL]. destruct a as [|c a0] eqn:Ea; [cbn [length] in HL; lia|]. rewrite <- Ea in *. cbn [orb]. rewrite cstr_no_nul by (apply plain_not; [exact Hp|lia]).
  assert (Er : reached_end (mkf rest false) a = false). { unfold reached_end. cbn [f_eof]. destruct (rev a) as [|d q] eqn:Er; [reflexivity|]. assert (Hd : In d a) by (apply in_rev; rewrite Er; left; reflexivity). apply Hp in Hd. destruct (Z.eqb_spec d 13); [lia|]. destruct (Z.eqb_spec d 10); [lia|reflexivity]. }
  rewrite Er. unfold clear_ann. rewrite !before_notin by (apply plain_not; [exact Hp|lia]). reflexivity.
Qed.
Lemma read_short size c l rest : (length l + 3 <= size)%nat -> plain (c :: l) -> is_space c = false -> read_line1 size (mkf ((c :: l) ++ 10 :: rest) false) = Ret (RlDone (rev (drop_blanks (rev (c :: l)))), mkf rest false).
Proof.
  intros Hs Hp Hc. unfold read_line1. assert (H10 : ~ In 10 (c :: l)) by (apply plain_not; [exact Hp|lia]). assert (H0 : ~ In 0 (c :: l)) by (apply plain_not; [exact Hp|lia]).
  rewrite (step_line (c :: l) [10] (mkf rest false)); [| |left; reflexivity|exact H10|apply fgets_lf; [exact H10|exact H0|cbn [length]; lia]].
  - unfold visible. rewrite uncomment_none by (apply plain_not; [exact Hp|lia]). unfold trim. cbn [drop_blanks]. rewrite Hc. destruct (rev (drop_blanks (rev (c :: l)))) as [|d q] eqn:E; [|reflexivity]. exfalso. rewrite <- rstrip_rev in E. apply rstrip_nil in E. cbn [forallb] in E. rewrite Hc in E. discriminate.
  - split; [cbn [length]; lia|]. split; [exact H0|]. split; intros a b E; exfalso; [apply (plain_not (c :: l) 59 Hp); [lia|]|apply (plain_not (c :: l) 13 Hp); [lia|]]; rewrite E; apply in_app_iff; right; left; reflexivity.
Qed.
(** Full statement: a line of any length is read whole.  Proved if the last part is not empty and begins with a visible character (else: C38_long_refuted,
    and blanks are lost). *)
Theorem C38_long_partial size q : forall l rest n c, (2 <= size)%nat -> plain l -> n = (q * (size - 1))%nat -> (length l < n + (size - 1))%nat -> nth_error l n = Some c -> is_space c = false ->
  read_whole (S q) size (mkf (l ++ 10 :: rest) false) = Ret (rev (drop_blanks (rev l)), mkf rest false).
Proof.
  induction q as [|q IH]; intros l rest n c Hs Hp En HL Hc Hsp.
  - subst n. destruct l as [|d l]; [discriminate|]. injection Hc as ->. cbn [length] in HL. cbn [read_whole]. rewrite read_short; [reflexivity|cbn [Nat.mul Nat.add] in HL; lia|exact Hp|exact Hsp].
  - assert (Hn : (n < length l)%nat) by (apply nth_error_Some; congruence). assert (En' : n = (size - 1 + q * (size - 1))%nat) by (rewrite En; reflexivity). clear En. remember (q * (size - 1))%nat as m eqn:Em. set (a := firstn (size - 1) l). set (b := skipn (size - 1) l). assert (El : l = a ++ b) by (symmetry; apply firstn_skipn). assert (La : length a = (size - 1)%nat) by (unfold a; rewrite firstn_length; lia).
    rewrite El in Hp. apply plain_app in Hp. destruct Hp as (Hpa & Hpb). set (fl := S q). rewrite El, <- app_assoc. cbn [read_whole]. rewrite read_trunc by assumption. cbn [bind fst snd]. unfold fl.
    rewrite (IH b rest (n - (size - 1))%nat c Hs Hpb); [cbn [bind fst snd]|lia|rewrite El, app_length in HL; lia|rewrite El, nth_error_app2 in Hc by lia; rewrite <- Hc; f_equal; lia|exact Hsp].
    do 2 f_equal. rewrite rev_app_distr, drop_app. assert (Hb : drop_blanks (rev b) <> []). { intros X. apply drop_blank_nil in X. rewrite forallb_forall in X. assert (Hin : In c (rev b)) by (rewrite <- in_rev; rewrite El, nth_error_app2 in Hc by lia; eapply nth_error_In, Hc). rewrite (X c Hin) in Hsp. discriminate. }
    destruct (drop_blanks (rev b)) as [|d r]; [contradiction|]. rewrite rev_app_distr, rev_involutive. reflexivity.
Qed.
Print Assumptions C38_long_partial.
(** "abcdefg hi\n" with room for 4 bytes: 9 = 3 * 3, the last part starts with "i". *)
Example C38_long_nonvacuous : nth_error [97;98;99;100;101;102;103;32;104;105] (3 * (4 - 1)) = Some 105 /\ read_whole 4 4 (mkf [97;98;99;100;101;102;103;32;104;105;10;120] false) = Ret ([97;98;99;100;101;102;103;32;104;105], mkf [120] false).
Proof. split; vm_compute; reflexivity. Qed.
(** Skipping the rest of a line that was too long (ReadLine_GoToNextLine) stops behind its end, under the same condition. *)
Theorem C38_skip_partial q : forall l rest n c, plain l -> n = (q * 127)%nat -> (length l < n + 127)%nat -> nth_error l n = Some c -> is_space c = false ->
  exists s, next_line (S q) (mkf (l ++ 10 :: rest) false) = Ret (RlDone s, mkf rest false).
Proof.
  induction q as [|q IH]; intros l rest n c Hp En HL Hc Hsp.
  - subst n. destruct l as [|d l]; [discriminate|]. injection Hc as ->. cbn [length] in HL. cbn [next_line]. rewrite read_short; [cbn [bind fst]; eauto|lia|exact Hp|exact Hsp].
  - assert (Hn : (n < length l)%nat) by (apply nth_error_Some; congruence). set (a := firstn 127 l). set (b := skipn 127 l). assert (El : l = a ++ b) by (symmetry; apply firstn_skipn). assert (La : length a = 127%nat) by (unfold a; rewrite firstn_length; lia).
    rewrite El in Hp. apply plain_app in Hp. destruct Hp as (Hpa & Hpb). set (fl := S q). rewrite El, <- app_assoc. cbn [next_line]. rewrite read_trunc by (auto; lia). cbn [bind fst snd]. unfold fl.
    apply (IH b rest (n - 127)%nat c Hpb); [lia|rewrite El, app_length in HL; lia|rewrite El, nth_error_app2 in Hc by lia; rewrite <- Hc; f_equal; lia|exact Hsp].
Qed.
Print Assumptions C38_skip_partial.
Example C38_skip_nonvacuous : next_line 2 (mkf (repeat 97 130 ++ 10 :: [98; 10]) false) = Ret (RlDone [97;97;97], mkf [98; 10] false).
Proof. vm_compute. reflexivity. Qed.

(** ** Where the full statement fails *)
(** "; see issue #5": the comment is returned. *)
Theorem C38_comment_refuted : exists bs, content bs = [] /\ read_all 20 40 (mkf bs false) = Ret [RlDone [59;32;115;101;101;32;105;115;115;117;101]].
Proof. exists [59;32;115;101;101;32;105;115;115;117;101;32;35;53;10]. split; vm_compute; reflexivity. Qed.
Print Assumptions C38_comment_refuted.
(** A line that just fills the buffer is taken together with the next one: "abcd\nef\n" reads like "abcdef\n". *)
Theorem C38_long_refuted : exists bs bs', content bs = [[97;98;99;100]; [101;102]] /\ content bs' = [[97;98;99;100;101;102]] /\ read_all 20 5 (mkf bs false) = Ret [RlTrunc [97;98;99;100]; RlDone [101;102]] /\ read_all 20 5 (mkf bs' false) = read_all 20 5 (mkf bs false).
Proof. exists [97;98;99;100;10;101;102;10], [97;98;99;100;101;102;10]. repeat split; vm_compute; reflexivity. Qed.
Print Assumptions C38_long_refuted.
(** A value followed by a comment that is longer than the buffer, in the last line of the file, without a line feed, when the comment ends exactly where the
    buffer (or the 127 bytes of a later read) does: the value is lost. *)
Theorem C38_lost_refuted : exists bs, content bs = [[97]] /\ read_all 20 5 (mkf bs false) = Ret [].
Proof. exists [97;35;98;99]. split; vm_compute; reflexivity. Qed.
Print Assumptions C38_lost_refuted.
(** Blanks at the end of the file without a line feed: a read in front of the buffer. *)
Theorem C38_safety_refuted : exists bs, content bs = [[97]] /\ read_all 20 20 (mkf bs false) = UBR.
Proof. exists [97;10;32;32]. split; vm_compute; reflexivity. Qed.
Print Assumptions C38_safety_refuted.
