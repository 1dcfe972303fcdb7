From Verif Require Import Base BaseFacts Gen_Model Hosts_Model Cache_Proofs Line_Model Line_Props Addr_Model Addr_Spec Bst_Model Parser_Model Ip_Model Ip_Spec Ip_Proofs Ip2_Proofs Ip3_Proofs Ip_Props Ipload_Model Ipload_Spec.
Require Import ZifyBool ZifyNat.

(** ** Splitting a line *)
Lemma blank_ok c : blank c = true <-> blank_char c.
Proof. unfold blank, blank_char. lia. Qed.
Lemma blank_no c : ~ blank_char c -> blank c = false.
Proof. intros H. destruct (blank c) eqn:E; [|reflexivity]. apply blank_ok in E. contradiction. Qed.
Lemma scan_done rest : forall pos prev i j, exists m, scan_tuple pos prev rest (Some i) (Some j) = (m, Some i, Some j) /\ (rest = [] -> m = []) /\ (forall c r, rest = c :: r -> blank_char c -> exists m', m = 0 :: m').
Proof.
  induction rest as [|c rest IH]; intros pos prev i j; cbn [scan_tuple]; [exists []; split; [reflexivity|]; split; [reflexivity|discriminate]|].
  destruct (blank c) eqn:E.
  - destruct (IH (S pos) 0 i j) as (m & -> & _). exists (0 :: m). split; [reflexivity|]. split; [discriminate|]. intros ? ? _ _. eauto.
  - destruct (IH (S pos) c i j) as (m & -> & _). exists (c :: m). split; [reflexivity|]. split; [discriminate|]. intros ? ? [= <- <-] H. apply blank_ok in H. congruence.
Qed.
Lemma last_shift (w : list Z) : forall c d, last (c :: w) d = last w c.
Proof. induction w as [|x w IH]; intros c d; [reflexivity|]. change (last (c :: x :: w) d) with (last (x :: w) d). rewrite IH. symmetry. apply IH. Qed.
Lemma scan_second w : forall pos prev i j rest, Forall (fun c => ~ blank_char c) w -> exists m, scan_tuple (pos + length w) (last w prev) rest (Some i) (Some j) = (m, Some i, Some j) /\ scan_tuple pos prev (w ++ rest) (Some i) (Some j) = (w ++ m, Some i, Some j).
Proof.
  induction w as [|c w IH]; intros pos prev i j rest HW.
  - destruct (scan_done rest (pos + 0)%nat prev i j) as (m & E & _). exists m. cbn [length last app]. rewrite E. rewrite Nat.add_0_r in E. auto.
  - inversion HW as [|? ? H1 H2]; subst. destruct (IH (S pos) c i j rest H2) as (m & E1 & E2). exists m. cbn [scan_tuple app length]. rewrite (blank_no c H1), E2. split; [|reflexivity]. replace (pos + S (length w))%nat with (S pos + length w)%nat by lia. rewrite last_shift. exact E1.
Qed.
Lemma scan_first w : forall pos prev i rest, Forall (fun c => ~ blank_char c) w -> ~ In 0 w -> prev <> 0 ->
  scan_tuple pos prev (w ++ rest) (Some i) None = let '(m, a, b) := scan_tuple (pos + length w) (last w prev) rest (Some i) None in (w ++ m, a, b).
Proof.
  induction w as [|c w IH]; intros pos prev i rest HW H0 Hp.
  - cbn [length last app]. rewrite Nat.add_0_r. destruct (scan_tuple pos prev rest (Some i) None) as ((m, a), b). reflexivity.
  - inversion HW as [|? ? H1 H2]; subst. cbn [scan_tuple app length]. rewrite (blank_no c H1). destruct (Z.eqb_spec prev 0); [contradiction|]. rewrite IH; [|exact H2|intros X; apply H0; right; exact X|intros ->; apply H0; left; reflexivity].
    replace (pos + S (length w))%nat with (S pos + length w)%nat by lia. rewrite last_shift.
    destruct (scan_tuple (S pos + length w) (last w c) rest (Some i) None) as ((m, a), b). reflexivity.
Qed.
Lemma scan_gap g : forall pos prev i rest, Forall blank_char g ->
  scan_tuple pos prev (g ++ rest) (Some i) None = let '(m, a, b) := scan_tuple (pos + length g) (match g with [] => prev | _ => 0 end) rest (Some i) None in (repeat 0 (length g) ++ m, a, b).
Proof.
  induction g as [|c g IH]; intros pos prev i rest HG.
  - cbn [length app repeat]. rewrite Nat.add_0_r. destruct (scan_tuple pos prev rest (Some i) None) as ((m, a), b). reflexivity.
  - inversion HG as [|? ? H1 H2]; subst. apply blank_ok in H1. cbn [scan_tuple app length repeat]. rewrite H1, IH by exact H2. replace (pos + S (length g))%nat with (S pos + length g)%nat by lia.
    replace (match g with [] => 0 | _ => 0 end) with 0 by (destruct g; reflexivity). destruct (scan_tuple (S pos + length g) 0 rest (Some i) None) as ((m, a), b). reflexivity.
Qed.
Lemma tuple_two line a b : ~ In 0 line -> two_words line a b -> tuple_of line = (Some a, Some b).
Proof.
  intros H0 (g & rest & -> & (Hn & Ha) & (Hg & HG) & (Hb & HB) & HR). rewrite !in_app_iff in H0.
  destruct a as [|x a]; [contradiction|]. destruct b as [|y b]; [contradiction|]. destruct g as [|z g]; [contradiction|]. inversion Ha as [|? ? Ha1 Ha2]; subst. inversion HB as [|? ? Hb1 Hb2]; subst.
  unfold tuple_of. change ((x :: a) ++ (z :: g) ++ (y :: b) ++ rest) with (x :: a ++ (z :: g) ++ (y :: b) ++ rest).
  change (scan_tuple 0 0 (x :: a ++ (z :: g) ++ (y :: b) ++ rest) None None) with
    (if blank x then let '(m, p, q) := scan_tuple 1 0 (a ++ (z :: g) ++ (y :: b) ++ rest) None None in (0 :: m, p, q) else let '(m, p, q) := scan_tuple 1 x (a ++ (z :: g) ++ (y :: b) ++ rest) (Some 0%nat) None in (x :: m, p, q)).
  rewrite (blank_no x Ha1). rewrite scan_first; [|exact Ha2|intros X; apply H0; left; right; exact X|intros ->; apply H0; left; left; reflexivity].
  rewrite scan_gap by exact HG. set (pos := (1 + length a + length (z :: g))%nat). cbn [app]. cbn [scan_tuple]. rewrite (blank_no y Hb1). change (0 =? 0) with true. cbv iota beta.
  destruct (scan_second b (S pos) y 0%nat pos rest Hb2) as (m & E1 & ->). cbn [option_map skipn].
  assert (Hm : exists m', (m = [] \/ m = 0 :: m')).
  { destruct (scan_done rest (S pos + length b)%nat (last b y) 0%nat pos) as (m2 & E2 & G1 & G2). rewrite E1 in E2. injection E2 as ->. destruct HR as [->|(c & r & -> & Hc)]; [exists []; left; auto|]. destruct (G2 c r eq_refl Hc) as (m' & ->). exists m'. right. reflexivity. }
  assert (N1 : ~ In 0 (x :: a)) by (intros X; apply H0; left; exact X). assert (N2 : ~ In 0 (y :: b)) by (intros X; apply H0; right; right; left; exact X).
  f_equal; f_equal.
  - cbn [length repeat app]. change (x :: a ++ 0 :: repeat 0 (length g) ++ y :: b ++ m) with ((x :: a) ++ 0 :: repeat 0 (length g) ++ y :: b ++ m). apply cstr_nul, N1.
  - replace (skipn pos (x :: a ++ repeat 0 (length (z :: g)) ++ y :: b ++ m)) with ((y :: b) ++ m).
    + destruct Hm as (m' & [->| ->]); [rewrite app_nil_r; apply cstr_no_nul, N2|apply cstr_nul, N2].
    + unfold pos. replace (x :: a ++ repeat 0 (length (z :: g)) ++ y :: b ++ m) with (((x :: a) ++ repeat 0 (length (z :: g))) ++ (y :: b) ++ m) by (rewrite <- app_assoc; reflexivity).
      rewrite skipn_app, skipn_all2 by (rewrite app_length, repeat_length; cbn [length]; lia). replace (_ - _)%nat with 0%nat by (rewrite app_length, repeat_length; cbn [length]; lia). reflexivity.
Qed.
Lemma tuple_one w : ~ In 0 w -> word w -> tuple_of w = (Some w, None).
Proof.
  intros H0 (Hn & Hw). destruct w as [|x w]; [contradiction|]. inversion Hw as [|? ? H1 H2]; subst. unfold tuple_of. cbn [scan_tuple]. rewrite (blank_no x H1).
  rewrite <- (app_nil_r w) at 1. rewrite scan_first; [|exact H2|intros X; apply H0; right; exact X|intros ->; apply H0; left; reflexivity]. cbn [scan_tuple option_map skipn]. rewrite app_nil_r. rewrite cstr_no_nul by exact H0. reflexivity.
Qed.
(** Every line that ReadLine gives is one or the other. *)
Lemma line_entry_total line : (exists c s, line = c :: s /\ is_space c = false) -> (exists s c, line = s ++ [c] /\ is_space c = false) -> exists e, line_entry line e.
Proof.
  intros (c & s & E & Hc) (s' & d & E' & Hd). assert (NB : forall x, is_space x = false -> ~ blank_char x) by (intros x Hx [->| ->]; discriminate Hx).
  assert (SP : forall l, Forall (fun c => ~ blank_char c) l \/ exists a b x, l = a ++ x :: b /\ Forall (fun c => ~ blank_char c) a /\ blank_char x).
  { clear. induction l as [|x l IH]; [left; constructor|]. destruct (blank x) eqn:B; [right; exists [], l, x; split; [reflexivity|]; split; [constructor|apply blank_ok, B]|]. assert (~ blank_char x) by (intros X; apply blank_ok in X; congruence).
    destruct IH as [IH|(a & b & y & -> & G1 & G2)]; [left; constructor; assumption|right]. exists (x :: a), b, y. split; [reflexivity|]. split; [constructor; assumption|exact G2]. }
  assert (SG : forall l, Forall blank_char l \/ exists a b x, l = a ++ x :: b /\ Forall blank_char a /\ ~ blank_char x).
  { clear. induction l as [|x l IH]; [left; constructor|]. destruct (blank x) eqn:B; [|right; exists [], l, x; split; [reflexivity|]; split; [constructor|intros X; apply blank_ok in X; congruence]]. apply blank_ok in B.
    destruct IH as [IH|(a & b & y & -> & G1 & G2)]; [left; constructor; assumption|right]. exists (x :: a), b, y. split; [reflexivity|]. split; [constructor; assumption|exact G2]. }
  destruct (SP line) as [HW|(a & r & x & E1 & HA & HX)]; [exists []; apply le_one; split; [rewrite E; discriminate|exact HW]|].
  assert (Ha : a <> []) by (intros ->; cbn [app] in E1; rewrite E in E1; injection E1 as -> _; exact (NB _ Hc HX)).
  destruct (SG r) as [HG|(g & r2 & y & E2 & HG & HY)].
  - exfalso. assert (X : blank_char d). { assert (In d (x :: r)) as [<-|X]; [|exact HX|rewrite Forall_forall in HG; apply HG, X]. destruct (exists_last (l := x :: r)) as (u & v & E3); [discriminate|]. rewrite E' in E1. rewrite E3, app_assoc in E1. apply app_inj_tail in E1. destruct E1 as (_ & ->). rewrite E3. apply in_app_iff. right. left. reflexivity. }
    exact (NB _ Hd X).
  - destruct (SP (y :: r2)) as [HW|(b & r3 & z & E3 & HB & HZ)].
    + exists [(a, Some (y :: r2))]. apply le_two. exists (x :: g), []. split; [rewrite E1, E2, app_nil_r; reflexivity|]. split; [split; assumption|]. split; [split; [discriminate|constructor; assumption]|]. split; [split; [discriminate|exact HW]|left; reflexivity].
    + exists [(a, Some b)]. apply le_two. exists (x :: g), (z :: r3). split; [rewrite E1, E2, E3; reflexivity|]. split; [split; assumption|]. split; [split; [discriminate|constructor; assumption]|]. split; [|right; eauto]. split; [|exact HB]. intros ->. injection E3 as -> ->. contradiction.
Qed.

(** ** Loading is adding the entries one after the other *)
Section Run.
Context (stale : nat -> Z).
Fixpoint run_all (c : ipchunk) (es : list entry) : outcome ipchunk :=
  match es with [] => Ret c | (ip, sub) :: es' => let! r := add_rule stale c ip sub in run_all (snd r) es' end.
Lemma run_app es es' : forall c, run_all c (es ++ es') = let! c1 := run_all c es in run_all c1 es'.
Proof.
  induction es as [|(ip, sub) es IH]; intros c; [reflexivity|]. cbn [run_all app]. destruct (add_rule stale c ip sub) as [r| | |]; [|reflexivity..]. cbn [bind]. apply IH.
Qed.
Lemma blocks_run l : forall c, load_blocks stale l c = run_all c (map (fun t => (t, None)) l).
Proof. induction l as [|t l IH]; intros c; [reflexivity|]. cbn [load_blocks map run_all add_rule]. destruct (add_block stale c t) as [x| | |]; [cbn [bind]; apply IH|reflexivity..]. Qed.
Lemma pairs_run l es : pair_entries l es -> forall c, load_pairs stale l c = run_all c es.
Proof. induction 1 as [|a|a b l es H IH]; intros c; [reflexivity..|]. cbn [load_pairs run_all add_rule]. destruct (add_subst stale c a b) as [x| | |]; [cbn [bind]; apply IH|reflexivity..]. Qed.
Lemma lines_run n : forall bs e fuel es c, (length bs <= n)%nat -> (length bs < fuel)%nat -> (e = true -> bs = []) -> Forall (line_ok 512) (file_lines bs) -> end_ok bs -> all_entries line_entry (content bs) es ->
  load_lines stale fuel (mkf bs e) c = run_all c es.
Proof.
  induction n as [|n IH]; intros bs e fuel es c Hn Hf He HL HE HA; (destruct fuel as [|fuel]; [lia|]); cbn [load_lines]; unfold read_line1; cbn [f_bytes];
    pose proof (read_line_ok 512 ltac:(lia) (length bs) bs e (S (length bs)) (le_n _) ltac:(lia) He HL HE) as HR.
  - destruct bs; [|cbn [length] in Hn; lia]. destruct (content []) as [|v vs]; [destruct HR as (f' & ->); inversion HA; subst; reflexivity|]. destruct HR as (f' & _ & _ & _ & X & _). cbn [length] in X. lia.
  - destruct (content bs) as [|v vs]; [destruct HR as (f' & ->); inversion HA; subst; reflexivity|]. destruct HR as (f' & ER & G1 & G2 & G3 & G4 & G5).
    assert (N0 : ~ In 0 v). { destruct (C38_shape 512 (mkf bs e) (RlDone v) f') as (_ & _ & _ & _ & _ & X & _); [lia|exact ER|exact X]. }
    rewrite ER. cbn [bind fst snd]. inversion HA as [|? ? el es' H1 H2]; subst. destruct f' as [bs' e']. cbn [f_bytes] in *.
    assert (HN : forall c, load_lines stale fuel (mkf bs' e') c = run_all c es') by (intros c'; apply IH; try assumption; lia).
    destruct H1 as [line a b T|w W].
    + rewrite (tuple_two _ _ _ N0 T). cbn [app run_all add_rule]. destruct (add_subst stale c a b) as [x| | |]; [cbn [bind]; apply HN|reflexivity..].
    + rewrite (tuple_one _ N0 W). apply HN.
Qed.
Lemma files_run open l es : all_entries (file_entry open) l es -> forall c, load_files stale open l c = run_all c es.
Proof.
  induction 1 as [|p l e es H1 H2 IH]; intros c; [reflexivity|]. cbn [load_files]. destruct H1 as [p H|p bs e H HL HE HA]; rewrite H; [apply IH|]. unfold load_file. rewrite (lines_run (length bs) bs false _ e c); auto; [|discriminate]. rewrite run_app. destruct (run_all c e); [cbn [bind]; apply IH|reflexivity..].
Qed.
Lemma load_run open blocks subs files es neg cur : (blocks, subs, files, neg) <> (None, None, None, false) -> asked open blocks subs files es ->
  ip_load stale open true true blocks subs files neg cur = let! c := run_all ipchunk_init es in Ret (0, Some (c, neg)).
Proof.
  intros HN (e2 & e3 & -> & H2 & H3). transitivity (let! c1 := load_blocks stale (strings blocks) ipchunk_init in let! c2 := load_pairs stale (strings subs) c1 in let! c3 := load_files stale open (strings files) c2 in Ret (0, Some (c3, neg))).
  - destruct blocks, subs, files, neg; try reflexivity. contradiction.
  - rewrite run_app, blocks_run. change (strings blocks) with (given blocks). destruct (run_all ipchunk_init _) as [c1| | |]; [cbn [bind]|reflexivity..]. rewrite run_app, (pairs_run _ e2 H2). destruct (run_all c1 e2) as [c2| | |]; [cbn [bind]|reflexivity..]. rewrite (files_run open _ e3 H3). reflexivity.
Qed.

(** ** What is not an address *)
Lemma cut_in t : forall x, In x (fst (cut_slash t)) -> In x t.
Proof. induction t as [|c t IH]; intros x; [exact (fun f => f)|]. cbn [cut_slash]. destruct (c =? 47); [intros []|]. destruct (cut_slash t) as (a, b). cbn [fst] in *. intros [<-|X]; [left; reflexivity|right; apply IH, X]. Qed.
Lemma no_mark t : ~ In 46 t -> ~ In 58 t -> first_mark t = None.
Proof. induction t as [|c t IH]; intros H1 H2; [reflexivity|]. cbn [first_mark]. destruct (Z.eqb_spec c 46) as [->|]; [exfalso; apply H1; left; reflexivity|]. destruct (Z.eqb_spec c 58) as [->|]; [exfalso; apply H2; left; reflexivity|]. apply IH; intros X; [apply H1|apply H2]; right; exact X. Qed.
Lemma no_chr t : ~ In 58 t -> str_chr 58 t = None.
Proof. induction t as [|c t IH]; intros H; [reflexivity|]. cbn [str_chr]. destruct (Z.eqb_spec c 58) as [->|]; [exfalso; apply H; left; reflexivity|]. apply IH. intros X. apply H. right. exact X. Qed.
Lemma skip_add ip ty d c : no_address ip -> ipchunk_add stale c ip ty d = Ret (-1, c).
Proof.
  intros (H1 & H2). unfold ipchunk_add. pose proof (cut_in ip) as HC. destruct (cut_slash ip) as (a, p). cbn [fst] in HC. unfold set_parse, ip_parse. rewrite no_mark by (intros X; apply HC in X; contradiction). reflexivity.
Qed.
Lemma skip_rule ip sub c : no_address ip -> add_rule stale c ip sub = Ret (-1, c).
Proof. intros H. unfold add_rule. destruct sub as [t|]; [|apply skip_add, H]. unfold add_subst. rewrite no_chr by apply H. apply skip_add, H. Qed.
Lemma means_run rs es : means rs es -> exists es', written rs es' /\ forall c rs0, table c rs0 -> run_all c es = add_all stale c es'.
Proof.
  induction 1 as [|r ip sub rs es H1 H2 (es' & W & IH)|ip sub rs es H1 H2 (es' & W & IH)].
  - exists []. split; [constructor|reflexivity].
  - exists ((ip, sub) :: es'). split; [constructor; assumption|]. intros c rs0 HT. cbn [run_all add_all]. destruct (add_rule_ok stale c rs0 r ip sub HT H1) as (c1 & -> & HT1). cbn [bind fst snd]. change (0 =? 0) with true. cbv iota. exact (IH _ _ HT1).
  - exists es'. split; [exact W|]. intros c rs0 HT. cbn [run_all]. rewrite skip_rule by exact H1. cbn [bind snd]. exact (IH _ _ HT).
Qed.
End Run.
