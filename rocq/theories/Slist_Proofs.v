From Verif Require Import Base BaseFacts List2Facts Hash_Model Arr_Model Arr_Props Sbuf_Props Slist_Model Replace_Props.
Require Import ZifyBool ZifyNat.

(** * Specification: cutting a string at delimiters *)
Fixpoint pieces (ds : list Z) (x : list Z) : list (list Z) :=
  match x with
  | [] => [[]]
  | c :: x' => if memz c ds then [] :: pieces ds x' else match pieces ds x' with p :: ps => (c :: p) :: ps | [] => [[c]] end
  end.
Definition pieces_opt (ds : option (list Z)) (x : list Z) : list (list Z) := match ds with None => [x] | Some ds => pieces ds x end.
(** Without garbage at both ends. *)
Fixpoint drop_front (g x : list Z) : list Z := match x with [] => [] | c :: x' => if memz c g then drop_front g x' else x end.
Definition strip (g x : list Z) : list Z := rev (drop_front g (rev (drop_front g x))).
Definition strip_all (g : list Z) (l : list (list Z)) : list (list Z) := flat_map (fun x => match strip g x with [] => [] | y => [y] end) l.

(** * The invariant *)
Definition zs (l : list (list Z)) : list Z := concat (map (fun x => x ++ [0]) l).
Definition nonul (x : list Z) : Prop := ~ In 0 x.
Definition bholds (k : block) (l : list (list Z)) : Prop := (bk_used k <= length (bk_mem k))%nat /\ firstn (bk_used k) (bk_mem k) = zs l /\ Forall nonul l.
Definition lholds (s : sbuf) (ls : list (list (list Z))) : Prop := Forall2 bholds s ls.

Lemma zs_app a b : zs (a ++ b) = zs a ++ zs b.
Proof. unfold zs. rewrite map_app, concat_app. reflexivity. Qed.
Lemma zs_cons x l : zs (x :: l) = x ++ 0 :: zs l.
Proof. unfold zs. cbn [map concat]. rewrite <- app_assoc. reflexivity. Qed.
Lemma zs_len_cons x l : length (zs (x :: l)) = (length x + 1 + length (zs l))%nat.
Proof. rewrite zs_cons, app_length. cbn [length]. lia. Qed.
Lemma zs_nil_len l : length (zs l) = 0%nat -> l = [].
Proof. destruct l; [reflexivity|]. rewrite zs_len_cons. lia. Qed.
Lemma bholds_len k l : bholds k l -> bk_used k = length (zs l).
Proof. intros (H1 & H2 & _). rewrite <- H2, firstn_length. lia. Qed.
Lemma bholds_mem k l : bholds k l -> exists rest, bk_mem k = zs l ++ rest.
Proof. intros (_ & H2 & _). exists (skipn (bk_used k) (bk_mem k)). rewrite <- H2. symmetry. apply firstn_skipn. Qed.
Lemma bholds_intro l rest n : Forall nonul l -> n = length (zs l) -> bholds (mk_block (zs l ++ rest) n) l.
Proof. intros HF ->. unfold bholds. cbn [bk_mem bk_used]. rewrite app_length, firstn_app_l. repeat split; [lia|exact HF]. Qed.
Lemma F2_nth {A B} (P : A -> B -> Prop) l l' : Forall2 P l l' -> forall i x, nth_error l i = Some x -> exists y, nth_error l' i = Some y /\ P x y.
Proof. induction 1 as [|a b l l' H HF IH]; intros [|i] x E; cbn [nth_error] in *; try discriminate; [injection E as <-; exists b; auto|apply IH, E]. Qed.
Lemma F2_nth' {A B} (P : A -> B -> Prop) l l' : Forall2 P l l' -> forall i y, nth_error l' i = Some y -> exists x, nth_error l i = Some x /\ P x y.
Proof. induction 1 as [|a b l l' H HF IH]; intros [|i] x E; cbn [nth_error] in *; try discriminate; [injection E as <-; exists a; auto|apply IH, E]. Qed.
Lemma F2_len {A B} (P : A -> B -> Prop) l l' : Forall2 P l l' -> length l = length l'.
Proof. induction 1; cbn [length]; congruence. Qed.
Lemma F2_set s ls b k l : lholds s ls -> (b < length s)%nat -> bholds k l -> lholds (set_block s b k) (firstn b ls ++ l :: skipn (S b) ls).
Proof.
  intros H. revert b. induction H as [|a c s ls Hac H IH]; intros b Hb Hk; cbn [length] in *; [lia|]. destruct b as [|b]; unfold set_block; cbn [firstn skipn app]; [constructor; assumption|]. constructor; [exact Hac|]. apply (IH b ltac:(lia) Hk).
Qed.

(** ** Walking *)
Lemma strlen_ok s ls b l1 x l2 : lholds s ls -> nth_error ls b = Some (l1 ++ x :: l2) -> strlen_at s b (length (zs l1)) = Ret (length x) /\ str_at s b (length (zs l1)) = Ret x.
Proof.
  intros H Hb. destruct (F2_nth' _ _ _ H _ _ Hb) as (k & Hk & HB). destruct (bholds_mem _ _ HB) as (rest & Em). unfold strlen_at, str_at, strlen_at. rewrite Hk, Em, zs_app, zs_cons. rewrite <- !app_assoc. cbn [app]. rewrite skipn_app_l.
  destruct HB as (_ & _ & HF). apply Forall_app in HF. destruct HF as (_ & HF). inversion HF as [|? ? Hx _]; subst. rewrite zlen_ok by exact Hx. cbn [bind]. rewrite firstn_app_l. auto.
Qed.
(** Items from a position on. *)
Definition at_pos (ls : list (list (list Z))) (b o : nat) (rem : list (list Z)) : Prop :=
  exists l1 l2, nth_error ls b = Some (l1 ++ l2) /\ o = length (zs l1) /\ rem = l2 ++ concat (skipn (S b) ls).
Definition at_item (ls : list (list (list Z))) (b o : nat) (x : list Z) (rem : list (list Z)) (done : list (list Z)) : Prop :=
  exists l1 l2, nth_error ls b = Some (l1 ++ x :: l2) /\ o = length (zs l1) /\ rem = l2 ++ concat (skipn (S b) ls) /\ done = concat (firstn b ls) ++ l1.
Lemma skipn_nth {A} (l : list A) b x : nth_error l b = Some x -> skipn b l = x :: skipn (S b) l.
Proof. revert b. induction l as [|y l IH]; intros [|b] H; cbn [nth_error skipn] in *; try discriminate; [injection H as ->; reflexivity|apply IH, H]. Qed.
Lemma firstn_S_nth {A} (l : list A) b x : nth_error l b = Some x -> firstn (S b) l = firstn b l ++ [x].
Proof. revert b. induction l as [|y l IH]; intros [|b] H; cbn [nth_error firstn app] in *; try discriminate; [injection H as ->; reflexivity|]. f_equal. apply (IH b H). Qed.
Definition found (ls : list (list (list Z))) (rem done : list (list Z)) (r : outcome (option (nat * nat))) : Prop :=
  match rem with
  | [] => r = Ret None
  | x :: rem' => exists b o, r = Ret (Some (b, o)) /\ at_item ls b o x rem' done
  end.
Lemma settle_ok s ls : lholds s ls -> forall fuel b l1 l2, (length s < b + fuel)%nat -> nth_error ls b = Some (l1 ++ l2) ->
  found ls (l2 ++ concat (skipn (S b) ls)) (concat (firstn b ls) ++ l1) (settle fuel s b (length (zs l1))).
Proof.
  intros H. induction fuel as [|fuel IH]; intros b l1 l2 Hf Hb.
  { assert (b < length ls)%nat by (apply nth_error_Some; congruence). pose proof (F2_len _ _ _ H). lia. }
  cbn [settle]. destruct (F2_nth' _ _ _ H _ _ Hb) as (k & Hk & HB). rewrite Hk. rewrite (bholds_len _ _ HB), zs_app, app_length. destruct l2 as [|x l2].
  - cbn [zs map concat length]. rewrite Nat.add_0_r, Nat.ltb_irrefl. cbn [app]. rewrite app_nil_r in Hb. destruct (nth_error ls (S b)) as [l|] eqn:Eb.
    + rewrite (skipn_nth _ _ _ Eb). cbn [concat]. pose proof (IH (S b) [] l ltac:(lia) Eb) as X. cbn [zs map concat length] in X. rewrite app_nil_r in X.
      rewrite (firstn_S_nth _ _ _ Hb), concat_app in X. cbn [concat] in X. rewrite app_nil_r in X. exact X.
    + assert (E : skipn (S b) ls = []) by (apply skipn_all2, nth_error_None, Eb). rewrite E. cbn [concat found]. destruct fuel as [|fuel]; [assert (b < length ls)%nat by (apply nth_error_Some; congruence); pose proof (F2_len _ _ _ H); lia|]. cbn [settle].
      assert (En : nth_error s (S b) = None) by (apply nth_error_None; apply nth_error_None in Eb; pose proof (F2_len _ _ _ H); lia). rewrite En. reflexivity.
  - rewrite zs_len_cons. destruct (Nat.ltb_spec (length (zs l1)) (length (zs l1) + (length x + 1 + length (zs l2)))); [|lia]. cbn [app found]. exists b, (length (zs l1)). split; [reflexivity|]. exists l1, l2. auto.
Qed.
Lemma next_first s ls : lholds s ls -> found ls (concat ls) [] (sl_next s None).
Proof.
  intros H. unfold sl_next. destruct ls as [|l ls]; [inversion H; subst; reflexivity|]. pose proof (settle_ok s (l :: ls) H (length s + 1) 0 [] l ltac:(lia) eq_refl) as X. exact X.
Qed.
Lemma next_next s ls b o x rem done : lholds s ls -> at_item ls b o x rem done -> found ls rem (done ++ [x]) (sl_next s (Some (b, o))).
Proof.
  intros H (l1 & l2 & Hb & -> & -> & ->). unfold sl_next. destruct (strlen_ok s ls b l1 x l2 H Hb) as (-> & _). cbn [bind]. change (l1 ++ x :: l2) with (l1 ++ [x] ++ l2) in Hb. rewrite app_assoc in Hb. pose proof (settle_ok s ls H (length s + 1) b (l1 ++ [x]) l2 ltac:(lia) Hb) as X.
  rewrite zs_app, app_length, zs_len_cons in X. cbn [zs map concat length] in X. rewrite !Nat.add_assoc, Nat.add_0_r in X. rewrite <- app_assoc. exact X.
Qed.
Lemma walk_from s ls : lholds s ls -> forall fuel rem b o x done, at_item ls b o x rem done -> (length rem < fuel)%nat -> sl_walk fuel s (Some (b, o)) = Ret rem.
Proof.
  intros H. induction fuel as [|fuel IH]; intros rem b o x done Ha Hf; [lia|]. cbn [sl_walk]. pose proof (next_next s ls b o x rem done H Ha) as X. unfold found in X. destruct rem as [|y rem]; [rewrite X; reflexivity|]. destruct X as (b' & o' & -> & Ha'). cbn [bind].
  pose proof Ha' as (l1 & l2 & Hb & -> & _). destruct (strlen_ok s ls b' l1 y l2 H Hb) as (_ & ->). cbn [bind]. cbn [length] in Hf. rewrite (IH rem b' _ y _ Ha') by lia. reflexivity.
Qed.
Lemma walk_ok s ls fuel : lholds s ls -> (length (concat ls) < fuel)%nat -> sl_walk fuel s None = Ret (concat ls).
Proof.
  intros H Hf. destruct fuel as [|fuel]; [lia|]. cbn [sl_walk]. pose proof (next_first s ls H) as X. unfold found in X. destruct (concat ls) as [|y rem]; [rewrite X; reflexivity|]. destruct X as (b' & o' & -> & Ha'). cbn [bind].
  pose proof Ha' as (l1 & l2 & Hb & -> & _). destruct (strlen_ok s ls b' l1 y l2 H Hb) as (_ & ->). cbn [bind]. cbn [length] in Hf. rewrite (walk_from s ls H fuel rem b' _ y _ Ha') by lia. reflexivity.
Qed.

(** ** Adding *)
Definition cutc (ds : list Z) (c : Z) : Z := if memz c ds then 0 else c.
Lemma memz_in c l : memz c l = true <-> In c l.
Proof. unfold memz. rewrite existsb_exists. split; [intros (y & Hy & E); apply Z.eqb_eq in E; subst; exact Hy|intros H; exists c; split; [exact H|apply Z.eqb_refl]]. Qed.
Lemma pieces_nonempty ds x : exists p ps, pieces ds x = p :: ps.
Proof. induction x as [|c x (p & ps & IH)]; cbn [pieces]; [eauto|]. rewrite IH. destruct (memz c ds); eauto. Qed.
Lemma divide_loop_ok ds x rest : nonul x -> divide_loop ds (x ++ 0 :: rest) = Ret (map (cutc ds) x ++ 0 :: rest, (length (pieces ds x) - 1)%nat).
Proof.
  induction x as [|c x IH]; intros H; cbn [app divide_loop map pieces]; [reflexivity|]. destruct (Z.eqb_spec c 0) as [->|]; [exfalso; apply H; left; reflexivity|]. rewrite IH by (intros X; apply H; right; exact X). cbn [bind fst snd]. change (cutc ds c) with (if memz c ds then 0 else c). destruct (pieces_nonempty ds x) as (p & ps & ->).
  destruct (memz c ds); cbn [length]; rewrite !Nat.sub_succ, !Nat.sub_0_r; reflexivity.
Qed.
Lemma cut_zs ds x : map (cutc ds) x ++ [0] = zs (pieces ds x).
Proof.
  induction x as [|c x IH]; cbn [map pieces app]; [reflexivity|]. rewrite IH. destruct (pieces_nonempty ds x) as (p & ps & E). unfold cutc. destruct (memz c ds); [rewrite zs_cons; reflexivity|]. rewrite E, !zs_cons. reflexivity.
Qed.
Lemma pieces_nonul ds x : nonul x -> Forall nonul (pieces ds x).
Proof.
  induction x as [|c x IH]; intros H; cbn [pieces]; [repeat constructor; intros []|]. specialize (IH ltac:(intros X; apply H; right; exact X)). destruct (pieces_nonempty ds x) as (p & ps & E). rewrite E in *. destruct (memz c ds).
  - constructor; [intros []|exact IH].
  - inversion IH as [|? ? Hp Hps]; subst. constructor; [|exact Hps]. intros [->|X]; [apply H; left; reflexivity|apply (Hp X)].
Qed.
Lemma set_block_len s b k : (b < length s)%nat -> length (set_block s b k) = length s.
Proof. intros H. unfold set_block. rewrite app_length, firstn_length. cbn [length]. rewrite skipn_length. lia. Qed.
(** What an addition of a string does to the list, without the division. *)
Lemma sbuf_add_str ok junk s ls x : lholds s ls -> nonul x ->
  (exists s', sbuf_add ok junk s (Some (x ++ [0])) (length x + 1) false = Ret (None, s') /\ ok = false /\ lholds s' ls) \/
  exists b o s' l1 ls', sbuf_add ok junk s (Some (x ++ [0])) (length x + 1) false = Ret (Some (b, o), s') /\ lholds s' ls' /\ length ls' = S b /\ nth_error ls' b = Some (l1 ++ [x]) /\ o = length (zs l1) /\
    concat (firstn b ls') ++ l1 = concat ls /\ (b <= length ls)%nat /\ (l1 <> [] -> length ls' = length ls).
Proof.
  intros H Hx. pose proof (F2_len _ _ _ H) as HL. unfold sbuf_add. cbn beta iota. unfold write_here. set (n := (length x + 1)%nat). assert (Esl : slice (x ++ [0]) 0 n = Some (x ++ [0])). { unfold slice. cbn [Nat.add skipn]. assert (E : n = length (x ++ [0])) by (unfold n; rewrite app_length; reflexivity). rewrite E, Nat.leb_refl, firstn_all. reflexivity. }
  destruct (match rev s with [] => true | b :: _ => Nat.ltb (length (bk_mem b) - bk_used b) n end) eqn:En.
  - destruct ok; [right|left; exists s; auto]. rewrite Esl. rewrite nth_error_app2, Nat.sub_diag by lia. cbn [nth_error bk_mem bk_used].
    set (mem := map junk (seq 0 (round_up (n * S (length s)) 8))). assert (Lm : (n <= length mem)%nat). { unfold mem. rewrite map_length, seq_length. pose proof (round_up_ge (n * S (length s)) 8 ltac:(lia)). nia. }
    destruct (write_ok mem 0 (x ++ [0])) as (m & Em); [rewrite app_length; cbn [length]; lia|]. rewrite Em. exists (length s), 0%nat. eexists. exists [], (ls ++ [[x]]). split; [reflexivity|].
    assert (Em2 : m = zs [x] ++ skipn n mem). { unfold write in Em. destruct (Nat.leb _ _); [|discriminate]. injection Em as <-. cbn [firstn app Nat.add]. rewrite zs_cons. cbn [zs map concat]. rewrite <- !app_assoc. cbn [app]. f_equal. f_equal. f_equal. unfold n. rewrite app_length. reflexivity. }
    split; [|split; [rewrite app_length; cbn [length]; lia|split; [rewrite HL, nth_error_app2, Nat.sub_diag by lia; reflexivity|split; [reflexivity|split; [rewrite HL, firstn_app_l, app_nil_r; reflexivity|split; [lia|intros X; contradiction]]]]]].
    rewrite firstn_app_l. assert (Esk : forall y : list block, skipn (S (length s)) (s ++ [mk_block mem n]) = []) by (intros _; apply skipn_all2; rewrite app_length; cbn [length]; lia). rewrite (Esk []). apply Forall2_app; [exact H|]. constructor; [|constructor]. rewrite Em2. apply bholds_intro; [constructor; [exact Hx|constructor]|]. rewrite zs_len_cons. cbn [zs map concat length]. unfold n. lia.
  - right. destruct (rev s) as [|k r] eqn:Er; [discriminate|]. apply Nat.ltb_ge in En. assert (Es : s = rev r ++ [k]) by (rewrite <- (rev_involutive s), Er; reflexivity).
    rewrite Es in H. apply Forall2_app_inv_l in H. destruct H as (ls1 & ls2 & H1 & H2 & ->). inversion H2 as [|? l ? ? Hk H3]; subst ls2. inversion H3; subst. clear H2 H3. subst. pose proof (F2_len _ _ _ H1) as L1.
    assert (Lr : (length (rev r ++ [k]) - 1)%nat = length (rev r)) by (rewrite app_length; cbn [length]; lia). rewrite Lr, Esl. cbn [rev]. rewrite nth_error_app2, Nat.sub_diag by lia. cbn [nth_error bk_mem bk_used].
    destruct (bholds_mem _ _ Hk) as (rest & Em). pose proof (bholds_len _ _ Hk) as Lu. destruct Hk as (Hk1 & Hk2 & Hk3). destruct (write_ok (bk_mem k) (bk_used k) (x ++ [0])) as (m & Ew); [rewrite app_length; cbn [length]; unfold n in En; lia|]. rewrite Ew.
    exists (length (rev r)), (bk_used k). eexists. exists l, (ls1 ++ [l ++ [x]]). split; [reflexivity|].
    assert (Em2 : m = zs (l ++ [x]) ++ skipn n rest). { unfold write in Ew. destruct (Nat.leb _ _); [|discriminate]. injection Ew as <-. rewrite Hk2, zs_app, zs_cons. cbn [zs map concat]. rewrite <- !app_assoc. cbn [app]. f_equal. f_equal. f_equal. rewrite Em, Lu. rewrite skipn_app. rewrite app_length. cbn [length]. rewrite skipn_all2 by lia. cbn [app]. f_equal. unfold n. lia. }
    split; [|split; [rewrite app_length; cbn [length]; lia|split; [rewrite L1, nth_error_app2, Nat.sub_diag by lia; reflexivity|split; [exact Lu|split; [rewrite L1, firstn_app_l, concat_app; cbn [concat]; rewrite app_nil_r; reflexivity|split; [rewrite app_length; lia|intros _; rewrite !app_length; reflexivity]]]]]].
    rewrite firstn_app_l. assert (Esk : skipn (S (length (rev r))) (rev r ++ [mk_block (bk_mem k) (bk_used k + n)]) = []) by (apply skipn_all2; rewrite app_length; cbn [length]; lia). rewrite Esk. apply Forall2_app; [exact H1|]. constructor; [|constructor]. rewrite Em2. apply bholds_intro; [apply Forall_app; split; [exact Hk3|constructor; [exact Hx|constructor]]|]. rewrite zs_app, app_length, zs_len_cons. cbn [zs map concat length]. unfold n. lia.
Qed.
Lemma divide_ok s ls b l1 x ds : lholds s ls -> length ls = S b -> nth_error ls b = Some (l1 ++ [x]) -> nonul x ->
  exists s', divide s b (length (zs l1)) ds = Ret (s', length (pieces_opt ds x)) /\ lholds s' (firstn b ls ++ [l1 ++ pieces_opt ds x]).
Proof.
  intros H HL Hb Hx. unfold divide, pieces_opt. destruct ds as [ds|].
  2:{ exists s. split; [reflexivity|]. assert (E : ls = firstn b ls ++ [l1 ++ [x]]). { rewrite <- (firstn_skipn b ls) at 1. rewrite (skipn_nth _ _ _ Hb). rewrite (skipn_all2 (n := S b)) by lia. reflexivity. } rewrite <- E. exact H. }
  destruct (F2_nth' _ _ _ H _ _ Hb) as (k & Hk & HB). rewrite Hk. destruct (bholds_mem _ _ HB) as (rest & Em). pose proof (bholds_len _ _ HB) as Lu. destruct HB as (HB1 & HB2 & HB3). rewrite Em. rewrite zs_app, zs_cons in *. cbn [zs map concat] in *. rewrite <- !app_assoc. cbn [app]. rewrite skipn_app_l. rewrite divide_loop_ok by exact Hx. cbn [bind fst snd]. rewrite firstn_app_l. destruct (pieces_nonempty ds x) as (p & ps & Ep).
  eexists. split; [do 2 f_equal; rewrite Ep; cbn [length]; lia|]. assert (Hbl : (b < length s)%nat) by (apply nth_error_Some; congruence).
  assert (Es : skipn (S b) ls = []) by (apply skipn_all2; lia). rewrite <- Es. apply (F2_set s ls b); [exact H|exact Hbl|].
  replace (zs l1 ++ map (cutc ds) x ++ 0 :: rest) with (zs (l1 ++ pieces ds x) ++ rest) by (rewrite zs_app, <- cut_zs, <- !app_assoc; reflexivity).
  apply bholds_intro; [apply Forall_app in HB3; destruct HB3 as (HB3 & _); apply Forall_app; split; [exact HB3|apply pieces_nonul, Hx]|]. rewrite zs_app, app_length, <- cut_zs, app_length, map_length. cbn [length]. rewrite Lu, !app_length. cbn [length]. lia.
Qed.
Lemma sl_add_ok ok junk s ls x ds : lholds s ls -> nonul x ->
  exists r s' ls', sl_add ok junk s x ds = Ret (r, s') /\ lholds s' ls' /\ (ok = true -> r = true) /\ concat ls' = concat ls ++ (if r then pieces_opt ds x else []).
Proof.
  intros H Hx. unfold sl_add. destruct (sbuf_add_str ok junk s ls x H Hx) as [(s' & -> & -> & H')|(b & o & s' & l1 & ls' & -> & H' & HL & Hb & -> & Hc & _)].
  - cbn [bind fst snd]. exists false, s', ls. split; [reflexivity|]. split; [exact H'|]. split; [discriminate|]. rewrite app_nil_r. reflexivity.
  - cbn [bind fst snd]. destruct (divide_ok s' ls' b l1 x ds H' HL Hb Hx) as (s2 & -> & H2). cbn [bind fst snd]. exists true, s2. eexists. split; [reflexivity|]. split; [exact H2|]. split; [reflexivity|]. rewrite concat_app. cbn [concat]. rewrite app_nil_r, app_assoc, Hc. reflexivity.
Qed.

(** ** Removing bytes *)
Lemma remove_n_ok s ls b a v w l : lholds s ls -> nth_error ls b = Some l -> zs l = a ++ v ++ w -> w <> [] -> forall l', zs l' = a ++ w -> Forall nonul l' -> lholds (remove_n s b (length a) (length v)) (firstn b ls ++ l' :: skipn (S b) ls).
Proof.
  intros H Hb El Hw l' El' HF. destruct (F2_nth' _ _ _ H _ _ Hb) as (k & Hk & HB). unfold remove_n. rewrite Hk. pose proof (bholds_len _ _ HB) as Lu. destruct (bholds_mem _ _ HB) as (rest & Em).
  assert (Hbl : (b < length s)%nat) by (apply nth_error_Some; congruence). rewrite El, !app_length in Lu. assert (0 < length w)%nat by (destruct w; [contradiction|cbn [length]; lia]).
  destruct (Nat.ltb_spec (length a) (bk_used k)); [|lia]. destruct (Nat.leb_spec (length a + length v) (bk_used k)); [|lia]. cbn [andb]. apply F2_set; [exact H|exact Hbl|].
  replace (bk_used k - length a - length v)%nat with (length w) by lia.
  assert (E1 : firstn (length a) (bk_mem k) = a) by (rewrite Em, El, <- !app_assoc; apply firstn_app_l).
  assert (E2 : skipn (length a + length v) (bk_mem k) = w ++ rest). { rewrite Em, El. rewrite (app_assoc a v w), <- app_length, <- (app_assoc (a ++ v)). apply skipn_app_l. }
  rewrite E1, E2, firstn_app_l. rewrite app_assoc, <- El'. apply bholds_intro; [exact HF|]. rewrite El', app_length. lia.
Qed.
Lemma remove_n_gone s ls b l1 x l2 : lholds s ls -> nth_error ls b = Some (l1 ++ x :: l2) -> lholds (remove_n s b (length (zs l1)) (length x + 1)) (firstn b ls ++ (l1 ++ l2) :: skipn (S b) ls).
Proof.
  intros H Hb. destruct (F2_nth' _ _ _ H _ _ Hb) as (k & Hk & HB). unfold remove_n. rewrite Hk. pose proof (bholds_len _ _ HB) as Lu. destruct (bholds_mem _ _ HB) as (rest & Em). destruct HB as (_ & _ & HF).
  assert (Hbl : (b < length s)%nat) by (apply nth_error_Some; congruence). rewrite zs_app, app_length, zs_len_cons in Lu. rewrite zs_app, zs_cons in Em.
  destruct (Nat.ltb_spec (length (zs l1)) (bk_used k)); [|lia]. destruct (Nat.leb_spec (length (zs l1) + (length x + 1)) (bk_used k)); [|lia]. cbn [andb]. apply F2_set; [exact H|exact Hbl|].
  replace (bk_used k - length (zs l1) - (length x + 1))%nat with (length (zs l2)) by lia.
  assert (E1 : firstn (length (zs l1)) (bk_mem k) = zs l1) by (rewrite Em, <- !app_assoc; apply firstn_app_l).
  assert (E2 : skipn (length (zs l1) + (length x + 1)) (bk_mem k) = zs l2 ++ rest). { rewrite Em. replace (length (zs l1) + (length x + 1))%nat with (length (zs l1 ++ x ++ [0])) by (rewrite !app_length; reflexivity). replace ((zs l1 ++ x ++ 0 :: zs l2) ++ rest) with ((zs l1 ++ x ++ [0]) ++ zs l2 ++ rest) by (rewrite <- !app_assoc; reflexivity). apply skipn_app_l. }
  rewrite E1, E2, firstn_app_l, app_assoc, <- zs_app. apply bholds_intro; [apply Forall_app in HF; destruct HF as (F1 & F2); inversion F2; subst; apply Forall_app; split; assumption|]. rewrite zs_app, app_length. lia.
Qed.
Lemma nth_set_ls {A} (ls : list A) b l l' : nth_error ls b = Some l -> nth_error (firstn b ls ++ l' :: skipn (S b) ls) b = Some l' /\ skipn (S b) (firstn b ls ++ l' :: skipn (S b) ls) = skipn (S b) ls /\ firstn b (firstn b ls ++ l' :: skipn (S b) ls) = firstn b ls.
Proof.
  intros H. assert (Hb : (b < length ls)%nat) by (apply nth_error_Some; congruence). assert (L : length (firstn b ls) = b) by (rewrite firstn_length; lia). split; [|split].
  - rewrite nth_error_app2, L, Nat.sub_diag by lia. reflexivity.
  - rewrite skipn_app, L. rewrite skipn_all2 by lia. replace (S b - b)%nat with 1%nat by lia. reflexivity.
  - rewrite firstn_app, L, Nat.sub_diag, firstn_O, app_nil_r, firstn_firstn, Nat.min_id. reflexivity.
Qed.

(** ** Trimming *)
Lemma npbrk_ok g x : match npbrk g x with None => drop_front g x = [] | Some h => (h <= length x)%nat /\ drop_front g x = skipn h x /\ drop_front g x <> [] end.
Proof. induction x as [|c x IH]; cbn [npbrk drop_front]; [reflexivity|]. destruct (memz c g); [|cbn [length skipn]; repeat split; [lia|discriminate]]. destruct (npbrk g x) as [h|]; cbn [option_map length skipn]; [destruct IH as (? & ? & ?); repeat split; [lia|assumption|assumption]|exact IH]. Qed.
Lemma drop_front_app g a c : memz c g = false -> drop_front g (a ++ [c]) = drop_front g a ++ [c].
Proof. intros Hc. induction a as [|d a IH]; cbn [app drop_front]; [rewrite Hc; reflexivity|]. destruct (memz d g); [exact IH|reflexivity]. Qed.
Lemma rnpbrk_ok g x : match rnpbrk g x with None => rev (drop_front g (rev x)) = [] | Some t => (S t <= length x)%nat /\ rev (drop_front g (rev x)) = firstn (S t) x end.
Proof.
  induction x as [|c x IH]; cbn [rnpbrk rev]; [reflexivity|]. destruct (rnpbrk g x) as [t|].
  - destruct IH as (L & E). split; [cbn [length]; lia|]. assert (HX : drop_front g (rev x) <> []) by (intros X; rewrite X in E; cbn [rev] in E; assert (L2 : length (firstn (S t) x) = 0%nat) by (rewrite <- E; reflexivity); rewrite firstn_length in L2; lia).
    assert (HA : forall y, drop_front g y <> [] -> drop_front g (y ++ [c]) = drop_front g y ++ [c]). { induction y as [|d y IHy]; cbn [drop_front app]; [contradiction|]. destruct (memz d g); [exact IHy|reflexivity]. }
    rewrite HA by exact HX. rewrite rev_app_distr. cbn [rev app]. rewrite E. reflexivity.
  - assert (HA : forall y, drop_front g y = [] -> drop_front g (y ++ [c]) = if memz c g then [] else [c]). { induction y as [|d y IHy]; cbn [drop_front app]; [reflexivity|]. destruct (memz d g); [exact IHy|discriminate]. }
    assert (E0 : drop_front g (rev x) = []) by (rewrite <- (rev_involutive (drop_front g (rev x))), IH; reflexivity). rewrite HA by exact E0. destruct (memz c g); [reflexivity|]. cbn [length firstn rev app]. split; [lia|reflexivity].
Qed.
Lemma strip_nil g x : drop_front g x = [] -> strip g x = [].
Proof. unfold strip. intros ->. reflexivity. Qed.
Lemma drop_front_nonul g x : nonul x -> nonul (drop_front g x).
Proof. induction x as [|c x IH]; intros H; cbn [drop_front]; [exact H|]. destruct (memz c g); [apply IH; intros X; apply H; right; exact X|exact H]. Qed.
Lemma strip_nonempty g x : drop_front g x <> [] -> strip g x <> [].
Proof.
  intros H E. unfold strip in E. set (y := drop_front g x) in *. assert (Hy : exists c z, y = c :: z /\ memz c g = false). { unfold y in *. clear E y. induction x as [|c x IH]; cbn [drop_front] in *; [contradiction|]. destruct (memz c g) eqn:Ec; [apply IH, H|]. exists c, x. auto. }
  destruct Hy as (c & z & -> & Hc). cbn [rev] in E. rewrite drop_front_app in E by exact Hc. rewrite rev_app_distr in E. discriminate.
Qed.
Lemma trim_loop_ok g : forall fuel s ls rem b o x done, lholds s ls -> at_item ls b o x rem done -> (length rem + 1 < fuel)%nat ->
  exists s' ls', trim_loop fuel g s (Some (b, o)) = Ret s' /\ lholds s' ls' /\ concat ls' = done ++ strip_all g (x :: rem).
Proof.
  induction fuel as [|fuel IH]; intros s ls rem b o x done H Ha Hf; [lia|]. cbn [trim_loop]. pose proof Ha as (l1 & l2 & Hb & -> & -> & ->). destruct (strlen_ok s ls b l1 x l2 H Hb) as (El & Es). rewrite Es. cbn [bind].
  assert (Hx : nonul x /\ Forall nonul (l1 ++ l2)). { destruct (F2_nth' _ _ _ H _ _ Hb) as (k & _ & (_ & _ & HF)). apply Forall_app in HF. destruct HF as (F1 & F2). inversion F2; subst. split; [assumption|]. apply Forall_app. auto. }
  destruct Hx as (Hx & HF12). apply Forall_app in HF12. destruct HF12 as (HF1 & HF2).
  pose proof (npbrk_ok g x) as HN. destruct (npbrk g x) as [h|].
  - destruct HN as (Hh & Hd & Hne). set (x1 := drop_front g x) in *. assert (Ex : x = firstn h x ++ x1) by (rewrite Hd; symmetry; apply firstn_skipn).
    assert (Hx1 : nonul x1) by (apply drop_front_nonul, Hx).
    set (s1 := remove_n s b (length (zs l1)) h). set (ls1 := firstn b ls ++ (l1 ++ x1 :: l2) :: skipn (S b) ls).
    assert (H1 : lholds s1 ls1). { unfold s1. replace h with (length (firstn h x)) by (rewrite firstn_length; lia). eapply (remove_n_ok s ls b (zs l1) (firstn h x) (x1 ++ 0 :: zs l2)); [exact H|exact Hb| | | |].
      - rewrite zs_app, zs_cons. rewrite Ex at 1. rewrite <- !app_assoc. reflexivity.
      - intros X. apply app_eq_nil in X. destruct X; discriminate.
      - rewrite zs_app, zs_cons. reflexivity.
      - apply Forall_app. split; [exact HF1|]. constructor; assumption. }
    destruct (nth_set_ls ls b _ (l1 ++ x1 :: l2) Hb) as (N1 & N2 & N3). fold ls1 in N1, N2, N3. destruct (strlen_ok s1 ls1 b l1 x1 l2 H1 N1) as (_ & Es1). rewrite Es1. cbn [bind].
    pose proof (rnpbrk_ok g x1) as HR. destruct (rnpbrk g x1) as [t|]; [|exfalso; apply (strip_nonempty g x Hne); exact HR]. destruct HR as (Ht & Er). change (rev (drop_front g (rev x1))) with (strip g x) in Er. set (y := strip g x) in *.
    set (s2 := remove_n s1 b (length (zs l1) + S t) (length x1 - S t)). set (ls2 := firstn b ls1 ++ (l1 ++ y :: l2) :: skipn (S b) ls1).
    assert (Ey : x1 = y ++ skipn (S t) x1) by (rewrite Er; symmetry; apply firstn_skipn).
    assert (Hy : nonul y) by (intros X; apply Hx1; rewrite Ey; apply in_app_iff; left; exact X).
    assert (H2 : lholds s2 ls2). { unfold s2. replace (length (zs l1) + S t)%nat with (length (zs l1 ++ y)) by (rewrite app_length, Er, firstn_length; lia). replace (length x1 - S t)%nat with (length (skipn (S t) x1)) by (rewrite skipn_length; reflexivity). eapply (remove_n_ok s1 ls1 b (zs l1 ++ y) (skipn (S t) x1) (0 :: zs l2)); [exact H1|exact N1| |discriminate| |].
      - rewrite zs_app, zs_cons. rewrite Ey at 1. rewrite <- !app_assoc. reflexivity.
      - rewrite zs_app, zs_cons, <- !app_assoc. reflexivity.
      - apply Forall_app. split; [exact HF1|]. constructor; assumption. }
    destruct (nth_set_ls ls1 b _ (l1 ++ y :: l2) N1) as (M1 & M2 & M3). fold ls2 in M1, M2, M3.
    assert (Ha2 : at_item ls2 b (length (zs l1)) y (l2 ++ concat (skipn (S b) ls)) (concat (firstn b ls) ++ l1)). { exists l1, l2. rewrite M2, M3, N2, N3. auto. }
    pose proof (next_next s2 ls2 b _ y _ _ H2 Ha2) as X. unfold found in X. assert (Ec2 : concat ls2 = concat (firstn b ls) ++ l1 ++ y :: l2 ++ concat (skipn (S b) ls)). { unfold ls2. rewrite N2, N3, concat_app. cbn [concat]. rewrite <- !app_assoc. reflexivity. }
    assert (Esa : strip_all g (x :: l2 ++ concat (skipn (S b) ls)) = y :: strip_all g (l2 ++ concat (skipn (S b) ls))). { unfold strip_all. cbn [flat_map]. fold y. pose proof (strip_nonempty g x Hne) as Hyn. fold y in Hyn. destruct y as [|c z]; [contradiction|reflexivity]. }
    rewrite Esa. destruct (l2 ++ concat (skipn (S b) ls)) as [|z rem] eqn:Erem.
    + rewrite X. cbn [bind]. destruct fuel as [|fuel]; [cbn [length] in Hf; lia|]. cbn [trim_loop]. exists s2, ls2. split; [reflexivity|]. split; [exact H2|]. rewrite Ec2, <- app_assoc. cbn [strip_all flat_map]. rewrite ?Erem. reflexivity.
    + destruct X as (b' & o' & -> & Ha3). cbn [bind]. cbn [length] in Hf. destruct (IH s2 ls2 rem b' o' z _ H2 Ha3 ltac:(lia)) as (s' & ls' & E' & H' & Ec'). exists s', ls'. split; [exact E'|]. split; [exact H'|]. rewrite Ec'. rewrite <- !app_assoc. reflexivity.
  - unfold sl_remove. rewrite El. cbn [bind fst snd]. set (s1 := remove_n s b (length (zs l1)) (length x + 1)). pose proof (remove_n_gone s ls b l1 x l2 H Hb) as H1. fold s1 in H1. set (ls1 := firstn b ls ++ (l1 ++ l2) :: skipn (S b) ls) in *.
    destruct (nth_set_ls ls b _ (l1 ++ l2) Hb) as (N1 & N2 & N3). fold ls1 in N1, N2, N3. pose proof (settle_ok s1 ls1 H1 (length s + 1) b l1 l2) as X. assert (Lh : length s1 = length s) by (rewrite (F2_len _ _ _ H1), (F2_len _ _ _ H); unfold ls1; rewrite app_length, firstn_length; cbn [length]; rewrite skipn_length; assert (b < length ls)%nat by (apply nth_error_Some; congruence); lia).
    specialize (X ltac:(lia) N1). rewrite N2, N3 in X. unfold found in X.
    assert (Esa : strip_all g (x :: l2 ++ concat (skipn (S b) ls)) = strip_all g (l2 ++ concat (skipn (S b) ls))). { unfold strip_all. cbn [flat_map]. rewrite (strip_nil g x HN). reflexivity. }
    rewrite Esa. destruct (l2 ++ concat (skipn (S b) ls)) as [|z rem] eqn:Erem.
    + rewrite X. cbn [bind fst snd]. destruct fuel as [|fuel]; [cbn [length] in Hf; lia|]. cbn [trim_loop]. exists s1, ls1. split; [reflexivity|]. split; [exact H1|]. unfold ls1. rewrite concat_app. cbn [concat strip_all flat_map]. rewrite <- !app_assoc. rewrite Erem. reflexivity.
    + destruct X as (b' & o' & -> & Ha3). cbn [bind fst snd]. cbn [length] in Hf. apply (IH s1 ls1 rem b' o' z _ H1 Ha3 ltac:(lia)).
Qed.
Lemma trim_all_ok g s ls fuel : lholds s ls -> (length (concat ls) + 1 < fuel)%nat -> exists s' ls', trim_all fuel g s = Ret s' /\ lholds s' ls' /\ concat ls' = strip_all (match g with None => default_garbage | Some g => g end) (concat ls).
Proof.
  intros H Hf. unfold trim_all. pose proof (next_first s ls H) as X. unfold found in X. destruct (concat ls) as [|x rem] eqn:Ec.
  - rewrite X. cbn [bind]. destruct fuel as [|fuel]; [lia|]. cbn [trim_loop]. exists s, ls. auto.
  - destruct X as (b & o & -> & Ha). cbn [bind]. cbn [length] in Hf. destruct (trim_loop_ok (match g with None => default_garbage | Some g => g end) fuel s ls rem b o x [] H Ha ltac:(lia)) as (s' & ls' & E & H' & Ec'). exists s', ls'. auto.
Qed.

(** ** Lower case *)
Lemma lower_nonul x : nonul x -> nonul (str_to_lower x).
Proof. intros H X. apply in_map_iff in X. destruct X as (c & E & Hc). unfold to_lower in E. destruct (Z.leb_spec 65 c), (Z.leb_spec c 90); cbn [andb] in E; try lia; subst; contradiction. Qed.
Lemma lower_step s ls b l1 x l2 : lholds s ls -> nth_error ls b = Some (l1 ++ x :: l2) -> exists k m, nth_error s b = Some k /\ write (bk_mem k) (length (zs l1)) (str_to_lower x) = Some m /\
  lholds (set_block s b (mk_block m (bk_used k))) (firstn b ls ++ (l1 ++ str_to_lower x :: l2) :: skipn (S b) ls).
Proof.
  intros H Hb. destruct (F2_nth' _ _ _ H _ _ Hb) as (k & Hk & HB). exists k. destruct (bholds_mem _ _ HB) as (rest & Em). pose proof (bholds_len _ _ HB) as Lu. destruct HB as (HB1 & _ & HF). apply Forall_app in HF. destruct HF as (F1 & F2). inversion F2 as [|? ? Hx F2']; subst.
  rewrite zs_app, app_length, zs_len_cons in Lu. assert (Ll : length (str_to_lower x) = length x) by (unfold str_to_lower; apply map_length). destruct (write_ok (bk_mem k) (length (zs l1)) (str_to_lower x)) as (m & Ew); [lia|]. exists m. split; [exact Hk|]. split; [exact Ew|].
  apply F2_set; [exact H|apply nth_error_Some; congruence|]. assert (E : m = zs (l1 ++ str_to_lower x :: l2) ++ rest). { unfold write in Ew. destruct (Nat.leb _ _); [|discriminate]. injection Ew as <-. rewrite Em. rewrite zs_app, zs_cons, <- !app_assoc. rewrite firstn_app_l. rewrite zs_app, zs_cons, <- !app_assoc. do 2 f_equal. rewrite Ll. rewrite <- app_length. rewrite app_assoc. rewrite skipn_app_l. reflexivity. }
  rewrite E. apply bholds_intro; [apply Forall_app; split; [exact F1|constructor; [apply lower_nonul, Hx|exact F2']]|]. rewrite zs_app, app_length, zs_len_cons, Ll. lia.
Qed.
Lemma lower_loop_ok : forall fuel s ls rem it done, lholds s ls -> ((it = None /\ done = [] /\ rem = concat ls) \/ exists b o x d, it = Some (b, o) /\ at_item ls b o x rem d /\ done = d ++ [x]) -> (length rem < fuel)%nat ->
  exists s' ls', lower_loop fuel s it = Ret s' /\ lholds s' ls' /\ concat ls' = done ++ map str_to_lower rem.
Proof.
  induction fuel as [|fuel IH]; intros s ls rem it done H Hit Hf; [lia|]. cbn [lower_loop].
  assert (X : found ls rem done (sl_next s it) /\ concat ls = done ++ rem).
  { destruct Hit as [(-> & -> & ->)|(b & o & x & d & -> & Ha & ->)]; [split; [apply next_first, H|reflexivity]|]. split; [eapply next_next; eassumption|]. destruct Ha as (l1 & l2 & Hb & _ & -> & ->). rewrite <- (firstn_skipn b ls) at 1. rewrite (skipn_nth _ _ _ Hb), concat_app. cbn [concat]. rewrite <- !app_assoc. reflexivity. }
  destruct X as (X & Ec). unfold found in X. destruct rem as [|y rem]; [rewrite X; cbn [bind map]; exists s, ls; auto|]. destruct X as (b & o & -> & Ha). cbn [bind]. destruct Ha as (l1 & l2 & Hb & -> & Er & Ed). destruct (strlen_ok s ls b l1 y l2 H Hb) as (_ & ->). cbn [bind]. destruct (lower_step s ls b l1 y l2 H Hb) as (k & m & -> & -> & H1).
  destruct (nth_set_ls ls b _ (l1 ++ str_to_lower y :: l2) Hb) as (N1 & N2 & N3). set (ls1 := firstn b ls ++ (l1 ++ str_to_lower y :: l2) :: skipn (S b) ls) in *.
  destruct (IH _ ls1 rem (Some (b, length (zs l1))) (done ++ [str_to_lower y]) H1) as (s' & ls' & E & H' & Ec'); [right; exists b, (length (zs l1)), (str_to_lower y), done; split; [reflexivity|]; split; [|reflexivity]; exists l1, l2; rewrite N2, N3; auto|cbn [length] in Hf; lia|].
  exists s', ls'. split; [exact E|]. split; [exact H'|]. rewrite Ec'. cbn [map]. rewrite <- app_assoc. reflexivity.
Qed.

(** ** Appending to the last string *)
Lemma last_start_ok (m : list Z) pre x tail i : nonul x -> m = pre ++ 0 :: x ++ tail -> length pre <> 0%nat -> (length pre <= i <= length pre + length x)%nat -> last_start m i = Ret (S (length pre)).
Proof.
  intros Hx -> Hp. induction i as [|i IH]; intros Hi; [lia|]. cbn [last_start]. rewrite nth_error_app2 by lia. destruct (S i - length pre)%nat as [|j] eqn:Ej; cbn [nth_error].
  - change (0 =? 0) with true. cbn iota. f_equal. lia.
  - rewrite nth_error_app1 by lia. destruct (nth_error x j) as [c|] eqn:Ec; [|apply nth_error_None in Ec; lia]. destruct (Z.eqb_spec c 0) as [->|]; [exfalso; apply Hx; eapply nth_error_In; exact Ec|]. apply IH. lia.
Qed.
Lemma last_start_first (m x : list Z) tail i : nonul x -> m = x ++ tail -> (i < length x)%nat \/ i = 0%nat -> last_start m i = Ret 0%nat.
Proof.
  intros Hx ->. induction i as [|i IH]; intros Hi; cbn [last_start]; [reflexivity|]. rewrite nth_error_app1 by lia. destruct (nth_error x (S i)) as [c|] eqn:Ec; [|apply nth_error_None in Ec; lia]. destruct (Z.eqb_spec c 0) as [->|]; [exfalso; apply Hx; eapply nth_error_In; exact Ec|]. apply IH. lia.
Qed.
(** The last block is not empty, and no string is. *)
Definition tail_ok (ls : list (list (list Z))) (done : list (list Z)) (x : list Z) : Prop :=
  exists ls0 l, ls = ls0 ++ [l ++ [x]] /\ done = concat ls0 ++ l /\ (l = [[]] -> False).
Lemma zs_last (l : list (list Z)) : l <> [] -> exists l0 y, l = l0 ++ [y].
Proof. intros H. destruct (exists_last H) as (l0 & y & E). eauto. Qed.
Lemma append_last_ok junk junk2 s ls done x str ds : lholds s ls -> tail_ok ls done x -> nonul str ->
  exists s' ls0 l, sl_append_last true junk junk2 s str ds = Ret (Z.of_nat (length (pieces_opt ds (x ++ str))), s') /\ lholds s' (ls0 ++ [l ++ pieces_opt ds (x ++ str)]) /\ concat ls0 ++ l = done.
Proof.
  intros H (ls0 & l & -> & -> & Hl) Hs. pose proof (F2_len _ _ _ H) as HL. rewrite app_length in HL. cbn [length] in HL. unfold sl_append_last.
  assert (Hb : nth_error (ls0 ++ [l ++ [x]]) (length s - 1) = Some (l ++ [x])) by (replace (length s - 1)%nat with (length ls0) by lia; rewrite nth_error_app2, Nat.sub_diag by lia; reflexivity).
  destruct (F2_nth' _ _ _ H _ _ Hb) as (k & Hk & HB). rewrite Hk. pose proof (bholds_len _ _ HB) as Lu. destruct (bholds_mem _ _ HB) as (rest & Em). destruct HB as (_ & _ & HF). apply Forall_app in HF. destruct HF as (F1 & F2). inversion F2 as [|? ? Hx _]; subst.
  rewrite zs_app, app_length, zs_len_cons in Lu. cbn [zs map concat length] in Lu. rewrite zs_app, zs_cons in Em. cbn [zs map concat] in Em. rewrite <- app_assoc in Em.
  assert (El : last_start (bk_mem k) (bk_used k - 2) = Ret (length (zs l))).
  { destruct l as [|y0 l']; [cbn [zs map concat app length] in *; rewrite <- app_assoc in Em; eapply last_start_first; [exact Hx|exact Em|lia]|].
    assert (Hnz : y0 :: l' <> []) by discriminate. destruct (zs_last _ Hnz) as (l0 & y & Ey). rewrite Ey in *. rewrite zs_app, zs_cons in *. cbn [zs map concat] in *. rewrite <- !app_assoc in Em. cbn [app] in Em. rewrite app_assoc in Em. rewrite !app_length in *. cbn [length] in *.
    replace (length (zs l0) + (length y + 1))%nat with (S (length (zs l0 ++ y))) by (rewrite app_length; lia). rewrite <- app_assoc in Em. eapply last_start_ok; [exact Hx|rewrite <- app_assoc; exact Em| |rewrite app_length; lia].
    rewrite app_length. intros X. assert (l0 = []) by (apply zs_nil_len; lia). subst l0. assert (y = []) by (destruct y; [reflexivity|cbn [length] in X; lia]). subst y. apply Hl. reflexivity. }
  rewrite El. cbn [bind]. destruct (strlen_ok s _ (length s - 1) l x [] H Hb) as (-> & _). cbn [bind]. replace (bk_used k - length (zs l))%nat with (length x + 1)%nat by lia.
  assert (Efx : firstn (length x) (skipn (length (zs l)) (bk_mem k)) = x) by (rewrite Em, skipn_app_l, <- app_assoc; apply firstn_app_l). rewrite Efx. set (size := (length str + 1 + (length x + 1) - 1)%nat).
  assert (Ew : write (map junk2 (seq 0 size)) 0 (x ++ str ++ [0]) = Some ((x ++ str) ++ [0])). { unfold write. rewrite map_length, seq_length, !app_length. cbn [length Nat.add firstn app]. destruct (Nat.leb_spec (length x + (length str + 1)) size) as [Hz|Hz]; [|unfold size in Hz; lia]. f_equal. rewrite skipn_all2 by (rewrite map_length, seq_length; unfold size; lia). rewrite app_nil_r, <- app_assoc. reflexivity. }
  rewrite Ew. destruct (Nat.ltb_spec (bk_used k) (length x + 1)); [lia|]. set (s1 := set_block s (length s - 1) _). assert (H1 : lholds s1 (ls0 ++ [l])).
  { pose proof (F2_set s (ls0 ++ [l ++ [x]]) (length s - 1) (mk_block (bk_mem k) (bk_used k - (length x + 1))) l H ltac:(lia)) as X. replace (length s - 1)%nat with (length ls0) in X at 2 3 by lia. rewrite firstn_app_l in X. rewrite (skipn_all2 (n := S (length ls0))) in X by (rewrite app_length; cbn [length]; lia). apply X. rewrite Em. apply bholds_intro; [exact F1|lia]. }
  replace size with (length (x ++ str) + 1)%nat by (rewrite app_length; unfold size; lia). assert (Hxs : nonul (x ++ str)) by (intros X; apply in_app_iff in X; destruct X; [apply Hx|apply Hs]; assumption).
  destruct (sbuf_add_str true junk s1 (ls0 ++ [l]) (x ++ str) H1 Hxs) as [(s' & _ & X & _)|(b & o & s' & l1 & ls' & -> & H' & HL' & Hb' & -> & Hc & _)]; [discriminate|]. cbn [bind fst snd].
  destruct (divide_ok s' ls' b l1 (x ++ str) ds H' HL' Hb' Hxs) as (s2 & -> & H2). cbn [bind fst snd]. exists s2, (firstn b ls'), l1. split; [reflexivity|]. split; [exact H2|]. rewrite Hc, concat_app. cbn [concat]. rewrite app_nil_r. reflexivity.
Qed.
