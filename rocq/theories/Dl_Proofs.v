From Verif Require Import Base BaseFacts Slist_Model Slist_Proofs Dl_Model Dl_Spec.
Require Import ZifyBool ZifyNat.

Lemma same_ok a b : same_path a b = true <-> a = b.
Proof. unfold same_path. destruct (list_eq_dec Z.eq_dec a b); split; congruence. Qed.
Lemma fput_same fs p o : fput fs p o p = o.
Proof. unfold fput. assert (same_path p p = true) as -> by (apply same_ok; reflexivity). reflexivity. Qed.
Lemma fput_other fs p o q : q <> p -> fput fs p o q = fs q.
Proof. intros H. unfold fput. destruct (same_path q p) eqn:E; [apply same_ok in E; contradiction|reflexivity]. Qed.
Lemma tmp_neq p : tmp_of p <> p.
Proof. intros H. apply (f_equal (@length Z)) in H. unfold tmp_of in H. rewrite app_length in H. cbn [length] in H. lia. Qed.
Lemma tmp_tmp p : tmp_of (tmp_of p) <> p.
Proof. intros H. apply (f_equal (@length Z)) in H. unfold tmp_of in H. rewrite !app_length in H. cbn [length] in H. lia. Qed.
Lemma is_file_ok url : is_file url = true <-> local url.
Proof.
  unfold is_file. rewrite same_ok. split.
  - intros H. exists (skipn 4 url). rewrite <- H. symmetry. apply firstn_skipn.
  - intros (r & ->). reflexivity.
Qed.
Lemma prefixb_ok p : forall x, prefixb p x = true <-> exists r, x = p ++ r.
Proof.
  induction p as [|a p IH]; intros x; cbn [prefixb]; [split; [intros _; exists x; reflexivity|reflexivity]|]. destruct x as [|b x]; [split; [discriminate|intros (r & X); discriminate X]|]. rewrite andb_true_iff, IH, Z.eqb_eq. split.
  - intros (-> & r & ->). exists r. reflexivity.
  - intros (r & X). injection X as -> ->. eauto.
Qed.
Lemma find_none p x : find_str p x = None -> forall a b, x <> a ++ p ++ b.
Proof.
  induction x as [|c x IH]; cbn [find_str]; destruct (prefixb p _) eqn:E; try discriminate.
  - intros _ a b H. destruct a; [|discriminate]. assert (prefixb p [] = true) by (apply prefixb_ok; exists b; exact H). congruence.
  - destruct (find_str p x) eqn:F; [discriminate|]. intros _ a b H. destruct a as [|d a]; [assert (prefixb p (c :: x) = true) by (apply prefixb_ok; exists b; exact H); congruence|]. injection H as -> H. exact (IH eq_refl a b H).
Qed.
Lemma find_some p x i : find_str p x = Some i -> exists b, x = firstn i x ++ p ++ b /\ forall a c, firstn i x ++ p = a ++ p ++ c -> c = [].
Proof.
  revert i. induction x as [|c x IH]; intros i; cbn [find_str]; destruct (prefixb p _) eqn:E; try discriminate.
  - intros [= <-]. apply prefixb_ok in E. destruct E as (b & E). exists b. split; [exact E|]. cbn [firstn app]. intros a d H. apply (f_equal (@length Z)) in H. rewrite !app_length in H. destruct d; [reflexivity|cbn [length] in H; lia].
  - intros [= <-]. apply prefixb_ok in E. destruct E as (b & E). exists b. split; [exact E|]. cbn [firstn app]. intros a d H. apply (f_equal (@length Z)) in H. rewrite !app_length in H. destruct d; [reflexivity|cbn [length] in H; lia].
  - destruct (find_str p x) as [k|] eqn:F; [|discriminate]. intros [= <-]. destruct (IH k eq_refl) as (b & E1 & E2). exists b. cbn [firstn app]. split; [congruence|]. intros a d H. destruct a as [|y a].
    + exfalso. assert (prefixb p (c :: x) = true); [|congruence]. apply prefixb_ok. cbn [app] in H. exists (d ++ b). rewrite E1. rewrite (app_assoc (firstn k x)). rewrite app_comm_cons, H, app_assoc. reflexivity.
    + injection H as -> H. exact (E2 _ _ H).
Qed.
Lemma skip_slashes n rest : (forall r, rest <> 47 :: r) -> skip_slash (repeat 47 n ++ rest) = rest.
Proof. intros H. induction n as [|n IH]; cbn [repeat app skip_slash]; [|change (47 =? 47) with true; exact IH]. destruct rest as [|c r]; [reflexivity|]. cbn [skip_slash]. destruct (Z.eqb_spec c 47) as [->|]; [exfalso; exact (H r eq_refl)|reflexivity]. Qed.

(** The path of a URL. *)
Lemma prefixb_app p : forall x t, (length p <= length x)%nat -> prefixb p (x ++ t) = prefixb p x.
Proof. induction p as [|a p IH]; intros x t H; [reflexivity|]. destruct x as [|b x]; [cbn [length] in H; lia|]. cbn [prefixb app]. rewrite IH by (cbn [length] in H; lia). reflexivity. Qed.
Lemma find_first p s t : p <> [] -> (forall a b, s ++ p = a ++ p ++ b -> b = []) -> find_str p (s ++ p ++ t) = Some (length s).
Proof.
  intros Hp. induction s as [|c s IH]; intros H.
  - cbn [app length]. assert (E : prefixb p (p ++ t) = true) by (apply prefixb_ok; eauto). destruct (p ++ t); cbn [find_str]; rewrite E; reflexivity.
  - change ((c :: s) ++ p ++ t) with (c :: s ++ p ++ t). cbn [find_str]. destruct (prefixb p (c :: s ++ p ++ t)) eqn:E.
    + exfalso. replace (c :: s ++ p ++ t) with (((c :: s) ++ p) ++ t) in E by (rewrite <- app_assoc; reflexivity). rewrite prefixb_app in E by (rewrite app_length; lia). apply prefixb_ok in E. destruct E as (r & E). assert (r = []) by (apply (H [] r); exact E). subst r. apply (f_equal (@length Z)) in E. rewrite !app_length in E. cbn [length] in E. lia.
    + rewrite IH; [reflexivity|]. intros a b X. apply (H (c :: a) b). cbn [app]. rewrite X. reflexivity.
Qed.
Lemma path_found url p expand size : url_path url p -> local_path expand url size = if (size <? length p + 1)%nat then None else expand p.
Proof.
  intros (s & n & rest & -> & -> & HR & HS). unfold local_path. rewrite find_first by (try discriminate; exact HS). replace (skipn (length s + 1) (s ++ [58;47;47] ++ repeat 47 n ++ rest)) with (repeat 47 (S (S n)) ++ rest); [rewrite skip_slashes by exact HR; reflexivity|].
  rewrite skipn_app, skipn_all2 by lia. replace (length s + 1 - length s)%nat with 1%nat by lia. reflexivity.
Qed.
Lemma path_none url expand size : no_path url -> local_path expand url size = None.
Proof.
  intros H. unfold local_path. destruct (find_str [58;47;47] url) as [i|] eqn:E; [|reflexivity]. destruct (find_some _ _ _ E) as (b & E1 & _). exfalso. exact (H _ _ E1).
Qed.
(** Every URL has a path or none. *)
Lemma path_total url : (exists p, url_path url p) \/ no_path url.
Proof.
  destruct (find_str [58;47;47] url) as [i|] eqn:E; [left|right; exact (find_none _ _ E)]. destruct (find_some _ _ _ E) as (b & E1 & E2).
  assert (SS : exists n rest, b = repeat 47 n ++ rest /\ forall r, rest <> 47 :: r).
  { clear. induction b as [|c b (n & rest & E & H)]; [exists 0%nat, []; split; [reflexivity|discriminate]|]. destruct (Z.eq_dec c 47) as [->|N]; [exists (S n), rest; split; [rewrite E; reflexivity|exact H]|]. exists 0%nat, (c :: b). split; [reflexivity|]. intros r [= X _]. contradiction. }
  destruct SS as (n & rest & -> & HR). exists (47 :: rest), (firstn i url), n, rest. split; [exact E1|]. split; [reflexivity|]. split; [exact HR|exact E2].
Qed.

Section Run.
Context (expand : list Z -> option (list Z)) (can_write : list Z -> bool) (dl : nat -> nat -> bool * list Z) (times : Z).
(** The files while the sources are fetched: [t] in the temporary file, what was there before elsewhere, anything in the second temporary file. *)
Definition fetching (fs0 fs : files) (tmp t : list Z) : Prop := fs tmp = Some t /\ forall p, p <> tmp -> p <> tmp_of tmp -> fs p = fs0 p.
Lemma attempts_ok fs0 j tmp t b d : can_write tmp = true -> can_write (tmp_of tmp) = true -> forall k fs fuel n tm, fetching fs0 fs tmp t -> (forall i, (n <= i < n + k)%nat -> fst (dl j i) = false) -> dl j (n + k) = (d, b) -> d = true -> tm < 0 \/ Z.of_nat k < tm -> (k < fuel)%nat ->
  exists fs', attempts can_write dl fuel j n fs tmp true tm = Ret (0, fs') /\ fetching fs0 fs' tmp (t ++ b).
Proof.
  intros W1 W2. induction k as [|k IH]; intros fs fuel n tm (F1 & F2) HK HD Hd HT Hf; (destruct fuel as [|fuel]; [lia|]); cbn [attempts]; (destruct (Z.eqb_spec tm 0); [lia|]); unfold base; rewrite W2.
  - rewrite Nat.add_0_r in HD. rewrite HD. cbn [fst snd]. rewrite Hd. unfold copy_file. rewrite fput_same, W1. rewrite fput_other by (intros X; exact (tmp_neq _ (eq_sym X))). rewrite F1. eexists. split; [reflexivity|]. split; [apply fput_same|]. intros p P1 P2. rewrite !fput_other by assumption. apply F2; assumption.
  - rewrite (HK n) by lia. cbn [fst]. apply IH; try assumption; try lia.
    + split; [rewrite fput_other by (intros X; exact (tmp_neq _ (eq_sym X))); exact F1|]. intros p P1 P2. rewrite fput_other by assumption. apply F2; assumption.
    + intros i Hi. apply HK. lia.
    + rewrite <- HD. f_equal. lia.
    + destruct (Z.ltb_spec 0 tm); lia.
Qed.
Lemma attempts_fail fs0 j tmp t : can_write (tmp_of tmp) = true -> forall k fs fuel n, fetching fs0 fs tmp t -> (forall i, (n <= i < n + k)%nat -> fst (dl j i) = false) -> (k < fuel)%nat ->
  exists fs', attempts can_write dl fuel j n fs tmp true (Z.of_nat k) = Ret (-1, fs') /\ fetching fs0 fs' tmp t.
Proof.
  intros W2. induction k as [|k IH]; intros fs fuel n (F1 & F2) HK Hf; (destruct fuel as [|fuel]; [lia|]); cbn [attempts]; [eexists; split; [reflexivity|split; assumption]|]. destruct (Z.eqb_spec (Z.of_nat (S k)) 0); [lia|]. unfold base. rewrite W2, (HK n) by lia. cbn [fst].
  destruct (Z.ltb_spec 0 (Z.of_nat (S k))); [|lia]. replace (Z.of_nat (S k) - 1) with (Z.of_nat k) by lia. apply IH; [|intros i Hi; apply HK; lia|lia].
  split; [rewrite fput_other by (intros X; exact (tmp_neq _ (eq_sym X))); exact F1|]. intros p P1 P2. rewrite fput_other by assumption. apply F2; assumption.
Qed.
(** The fuel a source needs. *)
Lemma single_ok fs0 j url o tmp : can_write tmp = true -> can_write (tmp_of tmp) = true -> (forall p, local url -> url_path url p -> expand p <> Some tmp /\ expand p <> Some (tmp_of tmp)) -> source expand fs0 dl times j url o ->
  exists n, forall fs t fuel, fetching fs0 fs tmp t -> (n < fuel)%nat -> exists r fs', single expand can_write dl fuel j fs url tmp true times = Ret (r, fs') /\ (r = 0 <-> o <> None) /\ fetching fs0 fs' tmp (t ++ match o with Some b => b | None => [] end).
Proof.
  intros W1 W2 HL HS. assert (NL : ~ local url -> is_file url = false) by (intros H; destruct (is_file url) eqn:E; [apply is_file_ok in E; contradiction|reflexivity]).
  assert (RM : forall fs' t, fetching fs0 fs' tmp (t ++ match o with Some b => b | None => [] end) -> fetching fs0 (fput fs' (tmp_of tmp) None) tmp (t ++ match o with Some b => b | None => [] end)).
  { intros fs' t (G1 & G2). split; [rewrite fput_other by (intros X; exact (tmp_neq _ (eq_sym X))); exact G1|]. intros p P1 P2. rewrite fput_other by assumption. apply G2; assumption. }
  destruct HS as [p q b Hu Hp Hl He Hb|p q Hu Hp Hl He Hb|Hu HB|k b Hu HK HD HT|Hu HT HK].
  - exists 0%nat. intros fs t fuel HF _. pose proof HF as (F1 & F2). unfold single. rewrite (proj2 (is_file_ok url) Hu), (path_found url p expand 384 Hp). destruct (Nat.ltb_spec 384 (length p + 1)); [lia|]. rewrite He. destruct (HL p Hu Hp) as (N1 & N2). unfold copy_file. rewrite F2 by congruence. rewrite Hb, W1, F1. eexists _, _. split; [reflexivity|]. split; [split; [discriminate|reflexivity]|].
    split; [apply fput_same|]. intros x P1 P2. rewrite fput_other by assumption. apply F2; assumption.
  - exists 0%nat. intros fs t fuel HF _. pose proof HF as (F1 & F2). unfold single. rewrite (proj2 (is_file_ok url) Hu), (path_found url p expand 384 Hp). destruct (Nat.ltb_spec 384 (length p + 1)); [lia|]. rewrite He. destruct (HL p Hu Hp) as (N1 & N2). unfold copy_file. rewrite F2 by congruence. rewrite Hb. eexists _, _. split; [reflexivity|]. split; [split; [discriminate|congruence]|]. rewrite app_nil_r. exact HF.
  - exists 0%nat. intros fs t fuel HF _. pose proof HF as (F1 & F2). unfold single. rewrite (proj2 (is_file_ok url) Hu). assert (E : local_path expand url 384 = None).
    { destruct HB as [HB|(p & Hp & HB)]; [apply path_none, HB|]. rewrite (path_found url p expand 384 Hp). destruct (Nat.ltb_spec 384 (length p + 1)); [reflexivity|]. destruct HB as [HB|HB]; [lia|exact HB]. }
    rewrite E. eexists _, _. split; [reflexivity|]. split; [split; [discriminate|congruence]|]. rewrite app_nil_r. exact HF.
  - exists k. intros fs t fuel HF Hf. unfold single. rewrite (NL Hu). destruct (attempts_ok fs0 j tmp t b true W1 W2 k fs fuel 0 times HF) as (fs' & E & G); [intros i Hi; apply HK; lia|exact HD|reflexivity|exact HT|exact Hf|]. rewrite E. cbn [bind fst snd]. eexists _, _. split; [reflexivity|]. split; [split; [discriminate|reflexivity]|]. apply RM, G.
  - exists (Z.to_nat times). intros fs t fuel HF Hf. unfold single. rewrite (NL Hu). destruct (attempts_fail fs0 j tmp t W2 (Z.to_nat times) fs fuel 0 HF) as (fs' & E & G); [intros i Hi; apply HK; lia|exact Hf|]. rewrite Z2Nat.id in E by exact HT. rewrite E. cbn [bind fst snd]. eexists _, _. split; [reflexivity|]. split; [split; [discriminate|congruence]|]. apply RM. rewrite app_nil_r. exact G.
Qed.
Definition got_one (os : list (option (list Z))) : bool := existsb (fun o => match o with Some _ => true | None => false end) os.
Lemma each_ok fs0 tmp : can_write tmp = true -> can_write (tmp_of tmp) = true -> forall j urls os, sources expand fs0 dl times j urls os -> (forall u p, In u urls -> local u -> url_path u p -> expand p <> Some tmp /\ expand p <> Some (tmp_of tmp)) ->
  exists n, forall fs t state fuel, fetching fs0 fs tmp t -> (n < fuel)%nat -> exists fs', each_url expand can_write dl fuel j fs urls tmp times state = Ret (state || got_one os, fs') /\ fetching fs0 fs' tmp (t ++ joined os).
Proof.
  intros W1 W2 j urls os HS. induction HS as [j|j u o us os H1 H2 IH]; intros HL.
  - exists 0%nat. intros fs t state fuel HF _. exists fs. cbn [each_url got_one existsb]. rewrite orb_false_r. split; [reflexivity|]. unfold joined. cbn [map concat]. rewrite app_nil_r. exact HF.
  - destruct (single_ok fs0 j u o tmp W1 W2) as (n1 & G1); [intros p; apply HL; left; reflexivity|exact H1|]. destruct IH as (n2 & G2); [intros v p Hv; apply HL; right; exact Hv|].
    exists (max n1 n2). intros fs t state fuel HF Hf. destruct (G1 fs t fuel HF ltac:(lia)) as (r & fs1 & E1 & Er & (F1 & F2)). cbn [each_url]. rewrite E1. cbn [bind fst snd]. rewrite W1, F1.
    destruct (G2 (fput fs1 tmp (Some ((t ++ match o with Some b => b | None => [] end) ++ [10]))) ((t ++ match o with Some b => b | None => [] end) ++ [10]) (state || (r =? 0)) fuel) as (fs' & E2 & F3); [split; [apply fput_same|]; intros p P1 P2; rewrite fput_other by assumption; apply F2; assumption|lia|].
    exists fs'. rewrite E2. split.
    + do 2 f_equal. cbn [got_one existsb]. rewrite <- orb_assoc. f_equal. f_equal. destruct o; [apply Z.eqb_eq, Er; discriminate|]. apply Z.eqb_neq. intros X. apply Er in X. contradiction.
    + unfold joined in *. cbn [map concat]. rewrite !app_assoc in *. exact F3.
Qed.
Lemma got_ok os : got_one os = true <-> exists b, In (Some b) os.
Proof. unfold got_one. rewrite existsb_exists. split; [intros ([b|] & H & X); [exists b; exact H|discriminate]|intros (b & H); exists (Some b); split; [exact H|reflexivity]]. Qed.
Lemma multi_ok fs0 urls os file : can_write (tmp_of file) = true -> can_write (tmp_of (tmp_of file)) = true -> sources expand fs0 dl times 0 urls os ->
  (forall u p, In u urls -> local u -> url_path u p -> expand p <> Some (tmp_of file) /\ expand p <> Some (tmp_of (tmp_of file))) ->
  exists n, forall rok fuel, (n < fuel)%nat -> exists fs', multi expand can_write dl fuel rok fs0 urls file times = Ret (if got_one os then 0 else 1, fs') /\
    fs' file = (if got_one os then if rok then Some (joined os) else None else fs0 file) /\ (got_one os = false \/ rok = false -> fs' (tmp_of file) = Some (joined os)) /\ (forall p, p <> file -> p <> tmp_of file -> p <> tmp_of (tmp_of file) -> fs' p = fs0 p).
Proof.
  intros W1 W2 HS HL. destruct (each_ok fs0 (tmp_of file) W1 W2 0 urls os HS HL) as (n & G). exists n. intros rok fuel Hf.
  assert (F0 : fetching fs0 (fput fs0 (tmp_of file) (Some [])) (tmp_of file) []) by (split; [apply fput_same|intros p P1 P2; apply fput_other; assumption]).
  destruct (G _ [] false fuel F0 Hf) as (fs1 & E & F1 & F2). unfold multi. rewrite W1, E. cbn [bind fst snd orb app] in *.
  assert (NF : forall X : file = tmp_of file, False) by (intros X; exact (tmp_neq _ (eq_sym X))). assert (NF2 : file <> tmp_of (tmp_of file)) by (intros X; exact (tmp_tmp _ (eq_sym X))).
  destruct (got_one os); cbn [fst]; [destruct rok|]; (eexists; split; [reflexivity|]); (split; [|split]).
  - rewrite fput_other by exact NF. rewrite fput_same. exact F1.
  - intros [X|X]; discriminate.
  - intros p P1 P2 P3. rewrite !fput_other by assumption. apply F2; assumption.
  - apply fput_same.
  - intros _. rewrite fput_other by apply tmp_neq. exact F1.
  - intros p P1 P2 P3. rewrite !fput_other by assumption. apply F2; assumption.
  - apply F2; assumption.
  - intros _. exact F1.
  - intros p P1 P2 P3. apply F2; assumption.
Qed.
End Run.

(** A source that never succeeds, without a limit on the attempts. *)
Lemma attempts_stuck can_write dl j : (forall i, fst (dl j i) = false) -> forall fuel n fs file app_, attempts can_write dl fuel j n fs file app_ (-1) = Fuel.
Proof.
  intros H. induction fuel as [|fuel IH]; intros n fs file app_; [reflexivity|]. cbn [attempts]. unfold base. destruct (can_write (tmp_of file)); cbn -[attempts tmp_of]; rewrite ?H; apply IH.
Qed.
Lemma attempts_safe can_write dl j : forall fuel n fs file app_ t, attempts can_write dl fuel j n fs file app_ t = Fuel \/ exists r, attempts can_write dl fuel j n fs file app_ t = Ret r.
Proof.
  induction fuel as [|fuel IH]; intros n fs file app_ t; [left; reflexivity|]. cbn [attempts]. destruct (t =? 0); [right; eauto|]. destruct (base can_write dl j n fs (tmp_of file)) as [ok fs1]. destruct ok; [|apply IH]. destruct (copy_file can_write fs1 (tmp_of file) file app_). right. eauto.
Qed.
Lemma each_stuck expand can_write dl u post tmp fuel : ~ local u -> can_write tmp = true -> forall pre j fs state, (forall i, fst (dl (j + length pre)%nat i) = false) -> each_url expand can_write dl fuel j fs (pre ++ u :: post) tmp (-1) state = Fuel.
Proof.
  intros HU W. assert (NL : is_file u = false) by (destruct (is_file u) eqn:E; [apply is_file_ok in E; contradiction|reflexivity]).
  induction pre as [|v pre IH]; intros j fs state HD; cbn [app each_url].
  - cbn [length] in HD. rewrite Nat.add_0_r in HD. unfold single. rewrite NL, attempts_stuck by exact HD. reflexivity.
  - assert (X : single expand can_write dl fuel j fs v tmp true (-1) = Fuel \/ exists r, single expand can_write dl fuel j fs v tmp true (-1) = Ret r).
    { unfold single. destruct (is_file v); [right; destruct (local_path expand v 384) as [p|]; [destruct (copy_file can_write fs p tmp true)|]; eauto|]. destruct (attempts_safe can_write dl j fuel 0 fs tmp true (-1)) as [E|(r & E)]; rewrite E; [left; reflexivity|right; cbn [bind]; eauto]. }
    destruct X as [E|(r & E)]; rewrite E; [reflexivity|]. cbn [bind]. rewrite W. apply IH. intros i. specialize (HD i). cbn [length] in HD. rewrite Nat.add_succ_r in HD. exact HD.
Qed.
