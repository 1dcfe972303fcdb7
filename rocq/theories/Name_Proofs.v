From Verif Require Import Base BaseFacts Name_Model Name_Spec.
Require Import ZifyBool ZifyNat.

(** dotted text with a trailing dot, as the loop builds it *)
Fixpoint tdots (ls : list (list Z)) : list Z :=
  match ls with [] => [] | l :: ls' => l ++ 46 :: tdots ls' end.

Lemma tdots_dotted ls : ls <> [] -> tdots ls = dotted ls ++ [46].
Proof.
  induction ls as [|l [|l2 ls] IH]; intros H; [congruence| reflexivity |].
  change (tdots (l :: l2 :: ls)) with (l ++ 46 :: tdots (l2 :: ls)).
  rewrite IH by discriminate.
  change (dotted (l :: l2 :: ls)) with (l ++ 46 :: dotted (l2 :: ls)).
  now rewrite <- app_assoc.
Qed.

Lemma bwrite_ok b i l : (i + length l <= length b)%nat ->
  bwrite b i l = Ret (firstn i b ++ l ++ skipn (i + length l) b).
Proof.
  intros H. unfold bwrite, write. destruct (Nat.leb_spec (i + length l) (length b)); [reflexivity|lia].
Qed.

Lemma bwrite_inv b i l b' : bwrite b i l = Ret b' ->
  (i + length l <= length b)%nat /\ b' = firstn i b ++ l ++ skipn (i + length l) b /\ length b' = length b.
Proof.
  unfold bwrite. destruct (write b i l) eqn:E; intros H; inversion H; subst.
  pose proof (write_length _ _ _ _ E). apply write_some in E. tauto.
Qed.

Lemma rdn_inv m i n l : rdn m i n = Ret l -> slice m i n = Some l.
Proof. unfold rdn. destruct slice; intros E; inversion E; auto. Qed.

Lemma rd8_inv m i b : rd8 m i = Ret b -> nth_error m i = Some b.
Proof. unfold rd8. destruct nth_error; intros E; inversion E; auto. Qed.

Lemma rd8_some m i b : nth_error m i = Some b -> rd8 m i = Ret b.
Proof. unfold rd8. intros ->. reflexivity. Qed.

Lemma splice_splice {A} (b l1 l2 : list A) i j :
  (i + length l1 + length l2 <= length b)%nat -> j = (i + length l1)%nat ->
  firstn j (firstn i b ++ l1 ++ skipn j b) ++ l2 ++ skipn (j + length l2) (firstn i b ++ l1 ++ skipn j b)
  = firstn i b ++ (l1 ++ l2) ++ skipn (j + length l2) b.
Proof.
  intros H ->. assert (Hfl : length (firstn i b) = i) by (rewrite firstn_length; lia).
  rewrite (app_assoc (firstn i b)).
  rewrite firstn_app. rewrite firstn_all2 by (rewrite app_length; lia).
  rewrite app_length, Hfl, Nat.sub_diag, firstn_O, app_nil_r.
  rewrite skipn_app. rewrite skipn_all2 by (rewrite app_length; lia).
  rewrite app_length, Hfl, skipn_skipn'.
  replace (i + length l1 + (i + length l1 + length l2 - (i + length l1)))%nat with (i + length l1 + length l2)%nat by lia.
  rewrite <- !app_assoc. reflexivity.
Qed.

(** ** The copy of one label *)
Lemma name_copy_fits m pos cnt b bi l :
  slice m (S pos) cnt = Some l -> (bi + cnt + 1 <= length b)%nat ->
  name_copy m pos cnt b bi = Ret (inr (firstn bi b ++ (l ++ [46]) ++ skipn (bi + cnt + 1) b)).
Proof.
  intros Hs Hf. pose proof (slice_length _ _ _ _ Hs) as Hl.
  unfold name_copy. destruct (Nat.leb_spec (bi + cnt + 1) (length b)) as [_|H]; [|lia].
  unfold rdn. rewrite Hs. simpl bind.
  rewrite bwrite_ok by lia. simpl bind.
  assert (Hfl : length (firstn bi b) = bi) by (rewrite firstn_length; lia).
  rewrite bwrite_ok; simpl bind.
  - f_equal. f_equal. rewrite app_assoc.
    rewrite firstn_app. rewrite (firstn_all2 (firstn bi b ++ l)) by (rewrite app_length; lia).
    rewrite app_length.
    replace (bi + cnt - (length (firstn bi b) + length l))%nat with O by lia.
    simpl. rewrite app_nil_r, <- !app_assoc. f_equal. f_equal. simpl. f_equal.
    rewrite app_assoc, skipn_app.
    rewrite (skipn_all2 (firstn bi b ++ l)) by (rewrite app_length; lia). simpl.
    rewrite skipn_skipn'. f_equal. rewrite app_length. lia.
  - rewrite !app_length, skipn_length. simpl. lia.
Qed.

Lemma name_copy_cases m pos cnt b bi :
  (bi <= length b)%nat ->
  (exists l, slice m (S pos) cnt = Some l /\ (bi + cnt + 1 <= length b)%nat /\
     name_copy m pos cnt b bi = Ret (inr (firstn bi b ++ (l ++ [46]) ++ skipn (bi + cnt + 1) b)))
  \/ (slice m (S pos) cnt = None /\ (bi + cnt + 1 <= length b)%nat /\ name_copy m pos cnt b bi = UBR)
  \/ ((length b < bi + cnt + 1)%nat /\ exists b', length b' = length b /\
        name_copy m pos cnt b bi = Ret (inl (None, Some b')) /\
        (b <> [] -> nth_error b' (bi - 1) = Some 0) /\
        firstn (bi - 1) b' = firstn (bi - 1) b /\ skipn (S (bi - 1)) b' = skipn (S (bi - 1)) b).
Proof.
  intros Hb. destruct (Nat.leb_spec (bi + cnt + 1) (length b)) as [H|H].
  - destruct (slice m (S pos) cnt) as [l|] eqn:E.
    + left. exists l. repeat split; auto. now apply name_copy_fits.
    + right; left. repeat split; auto. unfold name_copy, rdn.
      destruct (Nat.leb_spec (bi + cnt + 1) (length b)) as [_|?]; [|lia]. now rewrite E.
  - right; right. split; [lia|]. unfold name_copy.
    destruct (Nat.leb_spec (bi + cnt + 1) (length b)) as [?|_]; [lia|].
    destruct bi as [|k].
    + destruct b as [|x b].
      * exists []. repeat split; auto. congruence.
      * rewrite bwrite_ok by (simpl; lia). eexists; split; [|split; [reflexivity|]]; auto.
    + rewrite bwrite_ok by (simpl; lia). simpl bind.
      assert (Hfl : length (firstn k b) = k) by (rewrite firstn_length; lia).
      eexists; split; [|split; [reflexivity|]].
      * repeat (rewrite app_length || simpl length || rewrite skipn_length). lia.
      * replace (S k - 1)%nat with k by lia. split; [intros _|split].
        -- rewrite nth_error_app2 by lia. rewrite Hfl, Nat.sub_diag. reflexivity.
        -- rewrite firstn_app, Hfl, Nat.sub_diag, firstn_O, app_nil_r.
           apply firstn_all2. lia.
        -- rewrite skipn_app. rewrite (skipn_all2 (firstn k b)) by lia.
           rewrite Hfl. replace (S k - k)%nat with 1%nat by lia.
           simpl length. replace (k + 1)%nat with (S k) by lia. reflexivity.
Qed.

Lemma name_end_cases b bi ll redir :
  (bi <= length b)%nat ->
  (b = [] /\ name_end (Some b) bi ll redir = Ret (None, Some b)) \/
  (b <> [] /\ name_end (Some b) bi ll redir =
     Ret (Some (if redir then ll else S ll), Some (firstn (bi - 1) b ++ [0] ++ skipn (S (bi - 1)) b))).
Proof.
  intros Hb. destruct b as [|x b].
  - left. split; auto. destruct bi; simpl in *; [auto|lia].
  - right. split; [congruence|]. unfold name_end. destruct bi as [|k].
    + reflexivity.
    + rewrite bwrite_ok by (simpl in *; lia). simpl bind.
      replace (S k - 1)%nat with k by lia. do 3 f_equal.
      simpl length. f_equal. replace (k + 1)%nat with (S k) by lia. reflexivity.
Qed.

(** ** Safety of writes *)
Lemma name_loop_safe fuel hb dlen m : forall pos b bi ll redir,
  (bi <= length b)%nat ->
  match name_loop fuel hb dlen m pos (Some b) bi ll redir with
  | UBW => False
  | Ret (r, ob) => exists b', ob = Some b' /\ length b' = length b /\
                    (r <> None -> In 0 b')
  | _ => True
  end.
Proof.
  induction fuel as [|fuel IH]; intros pos b bi ll redir Hb; [exact I|].
  cbn [name_loop]. unfold rd8 at 1. destruct (nth_error m pos) as [c|] eqn:Ec; [|exact I].
  cbn [bind]. destruct (c =? 0) eqn:E0.
  - destruct (name_end_cases b bi ll redir Hb) as [[-> ->]|[Hn ->]].
    + exists []. repeat split; auto. congruence.
    + eexists; split; [reflexivity|]. split.
      * rewrite !app_length, firstn_length, skipn_length. destruct b; simpl in *; [congruence|lia].
      * intros _. apply in_or_app. right. left. reflexivity.
  - destruct (is_ptr c).
    + unfold label_ptr, rd8. rewrite Ec. cbn [bind].
      destruct (nth_error m (S pos)) as [lo|]; [|exact I]. cbn [bind].
      destruct (Nat.ltb dlen _).
      * exists b. repeat split; auto. congruence.
      * destruct hb; [|exact I]. apply IH; auto.
    + destruct (hb && _)%bool.
      * exists b. repeat split; auto. congruence.
      * destruct (name_copy_cases m pos (Z.to_nat c) b bi Hb)
          as [(l & Hs & Hf & ->)|[(_ & _ & ->)|(Hf & b' & Hl & -> & _)]]; cbn [bind]; auto.
        -- pose proof (slice_length _ _ _ _ Hs) as Hlen.
           assert (Hfl : length (firstn bi b) = bi) by (rewrite firstn_length; lia).
           set (b2 := firstn bi b ++ (l ++ [46]) ++ skipn (bi + Z.to_nat c + 1) b).
           assert (Hb2 : length b2 = length b).
           { unfold b2. rewrite !app_length, skipn_length. simpl. lia. }
           specialize (IH (pos + (1 + Z.to_nat c))%nat b2 (bi + Z.to_nat c + 1)%nat
                          (if redir then ll else (ll + (Z.to_nat c + 1))%nat) redir).
           rewrite Hb2 in IH. apply IH. lia.
        -- exists b'. repeat split; auto. congruence.
Qed.

(** ** Completeness: an RFC 1035 name is read *)
Lemma denotes_pos mx m o ls w : denotes mx m o ls w -> (o < length m)%nat.
Proof.
  intros H; destruct H as [o H|o n l ls w H|o hi lo ls w H]; apply nth_error_Some; rewrite H; discriminate.
Qed.

(** [rd] tells whether the name ends with a pointer, [k] the length counted inside of the loop. *)
Lemma name_loop_complete mx m o ls w :
  (mx <= 191)%nat -> denotes mx m o ls w ->
  exists (f0 : nat) (rd : bool) (k : nat), forall fuel b bi ll redir,
    (f0 <= fuel)%nat -> (bi + length (tdots ls) <= length b)%nat ->
    (if rd then k else S k) = w /\
    name_loop fuel true (length m) m o (Some b) bi ll redir =
    name_end (Some (firstn bi b ++ tdots ls ++ skipn (bi + length (tdots ls)) b))
             (bi + length (tdots ls)) (if redir then ll else (ll + k)%nat) (redir || rd)%bool.
Proof.
  intros Hmx H. induction H as [o H0|o n l ls w H1 Hn Hs Hd IH|o hi lo ls w Hhi Hlo Rhi Rlo Hd IH].
  - exists 1%nat, false, O. intros fuel b bi ll redir Hfuel Hb. split; [reflexivity|].
    destruct fuel as [|fuel]; [lia|]. cbn [name_loop].
    rewrite (rd8_some _ _ _ H0). cbn [bind]. simpl (0 =? 0). cbv iota.
    simpl tdots. simpl length. rewrite Nat.add_0_r. simpl app at 1.
    change (([] : list Z) ++ skipn bi b) with (skipn bi b).
    rewrite firstn_skipn. rewrite Bool.orb_false_r. f_equal. destruct redir; lia.
  - destruct IH as (f0 & rd & k & IH). exists (S f0), rd, (n + 1 + k)%nat.
    intros fuel b bi ll redir Hfuel Hb.
    pose proof (slice_length _ _ _ _ Hs) as Hlen.
    pose proof (denotes_pos _ _ _ _ _ Hd) as Hp.
    simpl tdots in Hb. rewrite app_length in Hb. simpl length in Hb.
    destruct fuel as [|fuel]; [lia|].
    cbn [name_loop].
    rewrite (rd8_some _ _ _ H1). cbn [bind].
    destruct (Z.of_nat n =? 0) eqn:E; [lia|]. unfold is_ptr. destruct (192 <=? Z.of_nat n) eqn:E2; [lia|].
    rewrite Nat2Z.id. simpl andb.
    destruct (Nat.ltb_spec (length m) (o + n)) as [?|_]; [lia|].
    rewrite (name_copy_fits _ _ _ _ _ _ Hs) by lia. cbn [bind].
    assert (Hfl : length (firstn bi b) = bi) by (rewrite firstn_length; lia).
    set (b2 := firstn bi b ++ (l ++ [46]) ++ skipn (bi + n + 1) b).
    assert (Hb2 : length b2 = length b).
    { unfold b2. rewrite !app_length, skipn_length. simpl. lia. }
    replace (o + (1 + n))%nat with (S o + n)%nat by lia.
    destruct (IH fuel b2 (bi + n + 1)%nat (if redir then ll else (ll + (n + 1))%nat) redir) as [Hw IH1].
    { lia. } { lia. }
    split; [destruct rd; lia|]. rewrite IH1.
    simpl tdots. rewrite app_length. simpl length.
    f_equal.
    + f_equal. unfold b2.
      rewrite (splice_splice b (l ++ [46]) (tdots ls) bi (bi + n + 1)%nat) by (rewrite app_length; simpl; lia).
      rewrite <- !app_assoc. simpl app. do 4 f_equal. f_equal. lia.
    + lia.
    + destruct redir; lia.
  - destruct IH as (f0 & rd & k & IH). exists (S f0), true, 2%nat.
    intros fuel b bi ll redir Hfuel Hb. split; [reflexivity|].
    destruct fuel as [|fuel]; [lia|]. cbn [name_loop].
    rewrite (rd8_some _ _ _ Hhi). cbn [bind].
    destruct (hi =? 0) eqn:E; [lia|]. unfold is_ptr. destruct (192 <=? hi) eqn:E2; [|lia].
    unfold label_ptr. rewrite (rd8_some _ _ _ Hhi), (rd8_some _ _ _ Hlo). cbn [bind].
    replace (lo + (hi - 192) * 256) with ((hi - 192) * 256 + lo) by lia.
    pose proof (denotes_pos _ _ _ _ _ Hd) as Hp.
    destruct (Nat.ltb_spec (length m) (Z.to_nat ((hi - 192) * 256 + lo))) as [?|_]; [lia|].
    destruct (IH fuel b bi (if redir then ll else (ll + 2)%nat) true) as [_ IH1]; [lia|lia|].
    rewrite IH1. rewrite Bool.orb_true_r. reflexivity.
Qed.

Lemma name_end_text ls b k rd : (text_space ls <= length b)%nat ->
  name_end (Some (tdots ls ++ skipn (length (tdots ls)) b)) (length (tdots ls)) k rd
  = Ret (Some (if rd then k else S k), Some (dotted ls ++ 0 :: skipn (text_space ls) b)).
Proof.
  intros Hb. unfold text_space in *.
  destruct ls as [|l ls].
  - destruct b; [simpl in Hb; lia|]. reflexivity.
  - rewrite tdots_dotted by discriminate. rewrite app_length.
    change (length [46]) with 1%nat. rewrite Nat.add_1_r.
    generalize dependent (dotted (l :: ls)). intros t Hb.
    unfold name_end. rewrite <- app_assoc. rewrite bwrite_ok.
    + simpl length at 2. rewrite firstn_app, firstn_all, Nat.sub_diag, firstn_O, app_nil_r.
      simpl bind. do 4 f_equal.
      rewrite skipn_app. rewrite skipn_all2 by lia.
      replace (length t + 1 - length t)%nat with 1%nat by lia.
      reflexivity.
    + rewrite app_length. simpl length. lia.
Qed.

Lemma get_host_name_complete mx m o ls w :
  (mx <= 191)%nat -> denotes mx m o ls w ->
  exists f0, forall fuel b, (f0 <= fuel)%nat -> (text_space ls <= length b)%nat ->
    get_host_name fuel (length m) m o b =
    Ret (Some w, Some (dotted ls ++ 0 :: skipn (text_space ls) b)).
Proof.
  intros Hmx H. destruct (name_loop_complete mx m o ls w Hmx H) as (f0 & rd & k & HC).
  exists f0. intros fuel b Hf Hb. unfold text_space in *.
  assert (Ht : (length (tdots ls) <= length b)%nat).
  { destruct ls as [|l ls]; [simpl; lia|].
    rewrite tdots_dotted by discriminate. rewrite app_length. simpl length at 2. lia. }
  destruct (HC fuel b O O false Hf ltac:(lia)) as [Hw E].
  unfold get_host_name. rewrite E. rewrite Bool.orb_false_l.
  simpl Nat.add. simpl firstn. simpl app.
  rewrite name_end_text by exact Hb. rewrite Hw. reflexivity.
Qed.

(** ** Soundness: whatever is returned is what the offset denotes *)
Lemma name_loop_sound fuel dlen m : (dlen <= length m)%nat -> Forall is_byte m ->
  forall pos b bi ll redir r b',
  (bi <= length b)%nat ->
  name_loop fuel true dlen m pos (Some b) bi ll redir = Ret (Some r, Some b') ->
  exists ls w (rd : bool) k, denotes 191 m pos ls w /\ (if rd then k else S k) = w /\
    (bi + length (tdots ls) <= length b)%nat /\
    name_end (Some (firstn bi b ++ tdots ls ++ skipn (bi + length (tdots ls)) b))
             (bi + length (tdots ls)) (if redir then ll else (ll + k)%nat) (redir || rd)%bool = Ret (Some r, Some b').
Proof.
  intros Hd Hby. induction fuel as [|fuel IH]; intros pos b bi ll redir r b' Hb H; [discriminate|].
  cbn [name_loop] in H. destruct (rd8 m pos) as [c| | |] eqn:Ec; try discriminate. cbn [bind] in H.
  apply rd8_inv in Ec.
  assert (Hc : is_byte c). { rewrite Forall_forall in Hby. eapply Hby, nth_error_In; eauto. }
  unfold is_byte in Hc.
  destruct (c =? 0) eqn:E0.
  - exists [], 1%nat, false, O. split; [apply D_root; rewrite Ec; f_equal; lia|]. split; [reflexivity|].
    split; [simpl; lia|]. simpl tdots. simpl length. rewrite Nat.add_0_r. simpl app at 1.
    change (([] : list Z) ++ skipn bi b) with (skipn bi b). rewrite firstn_skipn, Bool.orb_false_r.
    rewrite Nat.add_0_r. replace (if redir then ll else ll) with ll by (destruct redir; auto). exact H.
  - unfold is_ptr in H. destruct (192 <=? c) eqn:E1.
    + unfold label_ptr in H. rewrite (rd8_some _ _ _ Ec) in H. cbn [bind] in H.
      destruct (rd8 m (S pos)) as [lo| | |] eqn:El; try discriminate. cbn [bind] in H.
      apply rd8_inv in El.
      assert (Hlo : is_byte lo). { rewrite Forall_forall in Hby. eapply Hby, nth_error_In; eauto. }
      unfold is_byte in Hlo.
      destruct (Nat.ltb dlen _); [discriminate|].
      apply IH in H; [|assumption]. destruct H as (ls & w & rd & k & HD & Hw & Hl & HE).
      exists ls, 2%nat, true, 2%nat. split; [eapply D_ptr; eauto; try lia;
        replace ((c - 192) * 256 + lo) with (lo + (c - 192) * 256) by lia; exact HD|].
      split; [reflexivity|]. split; [assumption|]. rewrite Bool.orb_true_r.
      simpl orb in HE. exact HE.
    + destruct (true && _)%bool; [discriminate|].
      destruct (name_copy_cases m pos (Z.to_nat c) b bi Hb)
        as [(l & Hs & Hf & E)|[(_ & _ & E)|(Hf & b1 & Hl & E & _)]]; rewrite E in H; cbn [bind] in H;
        try discriminate.
      pose proof (slice_length _ _ _ _ Hs) as Hlen.
      assert (Hfl : length (firstn bi b) = bi) by (rewrite firstn_length; lia).
      set (b2 := firstn bi b ++ (l ++ [46]) ++ skipn (bi + Z.to_nat c + 1) b) in *.
      assert (Hb2 : length b2 = length b).
      { unfold b2. rewrite !app_length, skipn_length. simpl. lia. }
      apply IH in H; [|lia]. destruct H as (ls & w & rd & k & HD & Hw & Hl & HE).
      exists (l :: ls), (S (Z.to_nat c) + w)%nat, rd, (Z.to_nat c + 1 + k)%nat.
      split.
      { eapply D_label with (n := Z.to_nat c); [rewrite Ec; f_equal; lia|lia|assumption|].
        replace (S pos + Z.to_nat c)%nat with (pos + (1 + Z.to_nat c))%nat by lia. exact HD. }
      split; [destruct rd; lia|].
      simpl tdots. rewrite app_length. simpl length. split; [lia|].
      rewrite <- HE. f_equal.
      * f_equal. unfold b2.
        rewrite (splice_splice b (l ++ [46]) (tdots ls) bi (bi + Z.to_nat c + 1)%nat) by (rewrite app_length; simpl; lia).
        rewrite <- !app_assoc. simpl app. do 4 f_equal. f_equal. lia.
      * lia.
      * destruct redir; lia.
Qed.

Lemma get_host_name_sound fuel dlen m o b r b' :
  (dlen <= length m)%nat -> Forall is_byte m ->
  get_host_name fuel dlen m o b = Ret (Some r, Some b') ->
  exists ls, denotes 191 m o ls r /\ (text_space ls <= length b)%nat /\
             b' = dotted ls ++ 0 :: skipn (text_space ls) b.
Proof.
  intros Hd Hby H. unfold get_host_name in H.
  apply name_loop_sound in H; auto; [|lia].
  destruct H as (ls & w & rd & k & HD & Hw & Hl & HE).
  exists ls. cbn [Nat.add firstn app orb] in HE, Hl.
  assert (Hs : (text_space ls <= length b)%nat).
  { unfold text_space. destruct ls as [|l ls].
    - destruct b; [discriminate|simpl; lia].
    - rewrite tdots_dotted, app_length in Hl by discriminate. simpl length in Hl at 2. lia. }
  rewrite name_end_text in HE by exact Hs. inversion HE; subst. auto.
Qed.

(** ** Termination *)
(** The measure: room left in the buffer, then the position while on a pointer. *)
Definition chain_ok (m : list Z) : Prop :=
  forall p hi lo hi2, nth_error m p = Some hi -> nth_error m (S p) = Some lo -> 192 <= hi ->
    let q := Z.to_nat (lo + (hi - 192) * 256) in
    nth_error m q = Some hi2 -> 192 <= hi2 -> (q < p)%nat.

Definition rank (m : list Z) (pos : nat) : nat :=
  match nth_error m pos with Some c => if 192 <=? c then S pos else O | None => O end.

Lemma rank_le m pos : (rank m pos <= length m)%nat.
Proof.
  unfold rank. destruct (nth_error m pos) eqn:E; [|lia].
  assert (pos < length m)%nat by (apply nth_error_Some; congruence).
  destruct (192 <=? z); lia.
Qed.

Lemma name_loop_terminates m hb dlen (HF : Forall is_byte m) (HC : chain_ok m) :
  forall fuel pos b bi ll redir,
  (bi <= length b)%nat ->
  ((length b - bi) * (length m + 2) + rank m pos < fuel)%nat ->
  name_loop fuel hb dlen m pos (Some b) bi ll redir <> Fuel.
Proof.
  induction fuel as [|fuel IH]; intros pos b bi ll redir Hb Hf; [destruct (Nat.nlt_0_r _ Hf)|].
  cbn [name_loop]. destruct (rd8 m pos) as [c| | |] eqn:Ec; try discriminate.
  2: { unfold rd8 in Ec. destruct nth_error; discriminate. }
  cbn [bind]. apply rd8_inv in Ec.
  destruct (c =? 0) eqn:E0.
  - destruct (name_end_cases b bi ll redir Hb) as [[_ ->]|[_ ->]]; discriminate.
  - unfold is_ptr. destruct (192 <=? c) eqn:E1.
    + unfold label_ptr. rewrite (rd8_some _ _ _ Ec). cbn [bind].
      destruct (rd8 m (S pos)) as [lo| | |] eqn:El; try discriminate.
      2: { unfold rd8 in El. destruct (nth_error m (S pos)); discriminate. }
      cbn [bind]. apply rd8_inv in El.
      destruct (Nat.ltb dlen _); [discriminate|]. destruct hb; [|discriminate].
      apply IH; [assumption|].
      assert (Hr : (rank m (Z.to_nat (lo + (c - 192) * 256)) < rank m pos)%nat).
      { unfold rank at 2. rewrite Ec, E1. unfold rank.
        destruct (nth_error m (Z.to_nat (lo + (c - 192) * 256))) as [c2|] eqn:E2; [|lia].
        destruct (192 <=? c2) eqn:E3; [|lia].
        pose proof (HC pos c lo c2 Ec El ltac:(lia) E2 ltac:(lia)). lia. }
      lia.
    + destruct (hb && _)%bool; [discriminate|].
      assert (Hc : is_byte c). { rewrite Forall_forall in HF. eapply HF, nth_error_In; eauto. }
      unfold is_byte in Hc.
      destruct (name_copy_cases m pos (Z.to_nat c) b bi Hb)
        as [(l & Hs & Hfit & ->)|[(_ & _ & ->)|(Hfit & b1 & Hl & -> & _)]]; cbn [bind]; try discriminate.
      pose proof (slice_length _ _ _ _ Hs) as Hlen.
      assert (Hfl : length (firstn bi b) = bi) by (rewrite firstn_length; lia).
      set (b2 := firstn bi b ++ (l ++ [46]) ++ skipn (bi + Z.to_nat c + 1) b) in *.
      assert (Hb2 : length b2 = length b).
      { unfold b2. rewrite !app_length, skipn_length. simpl. lia. }
      apply IH; [lia|]. rewrite Hb2.
      pose proof (rank_le m (pos + (1 + Z.to_nat c))).
      assert ((length b - (bi + Z.to_nat c + 1)) * (length m + 2) + (length m + 2) <= (length b - bi) * (length m + 2))%nat.
      { replace ((length b - (bi + Z.to_nat c + 1)) * (length m + 2) + (length m + 2))%nat
          with ((length b - (bi + Z.to_nat c + 1) + 1) * (length m + 2))%nat by (rewrite Nat.mul_add_distr_r; lia).
        apply Nat.mul_le_mono_r. lia. }
      lia.
Qed.

Lemma get_host_name_terminates m dlen start b fuel :
  Forall is_byte m -> chain_ok m -> (S (length b) * (length m + 2) <= fuel)%nat ->
  get_host_name fuel dlen m start b <> Fuel.
Proof.
  intros HF HC Hf. apply name_loop_terminates; auto; [lia|].
  pose proof (rank_le m start). nia.
Qed.

(** A name pointing at itself keeps the loop busy for ever. *)
Lemma self_pointer_loops m dlen p hi lo b bi ll redir :
  nth_error m p = Some hi -> nth_error m (S p) = Some lo -> 192 <= hi ->
  Z.to_nat (lo + (hi - 192) * 256) = p -> (p <= dlen)%nat ->
  forall fuel, name_loop fuel true dlen m p (Some b) bi ll redir = Fuel.
Proof.
  intros Hhi Hlo R Hp Hd fuel. revert ll redir. induction fuel as [|fuel IH]; intros ll redir; [reflexivity|].
  cbn [name_loop]. rewrite (rd8_some _ _ _ Hhi). cbn [bind].
  destruct (hi =? 0) eqn:E0; [lia|]. unfold is_ptr. destruct (192 <=? hi) eqn:E1; [|lia].
  unfold label_ptr. rewrite (rd8_some _ _ _ Hhi), (rd8_some _ _ _ Hlo). cbn [bind].
  rewrite Hp. destruct (Nat.ltb_spec dlen p); [lia|]. apply IH.
Qed.

(** ** Reads *)
Lemma name_loop_reads fuel dlen m : (dlen + 3 <= length m)%nat -> Forall is_byte m ->
  forall pos b bi ll redir, (pos <= S dlen)%nat -> (bi <= length b)%nat ->
  name_loop fuel true dlen m pos (Some b) bi ll redir <> UBR.
Proof.
  intros Hm HF. induction fuel as [|fuel IH]; intros pos b bi ll redir Hp Hb; [discriminate|].
  cbn [name_loop].
  destruct (nth_error m pos) as [c|] eqn:Ec.
  2: { apply nth_error_None in Ec. lia. }
  rewrite (rd8_some _ _ _ Ec). cbn [bind].
  destruct (c =? 0) eqn:E0.
  - destruct (name_end_cases b bi ll redir Hb) as [[_ ->]|[_ ->]]; discriminate.
  - unfold is_ptr. destruct (192 <=? c) eqn:E1.
    + unfold label_ptr. rewrite (rd8_some _ _ _ Ec). cbn [bind].
      destruct (nth_error m (S pos)) as [lo|] eqn:El.
      2: { apply nth_error_None in El. lia. }
      rewrite (rd8_some _ _ _ El). cbn [bind].
      destruct (Nat.ltb_spec dlen (Z.to_nat (lo + (c - 192) * 256))); [discriminate|].
      apply IH; auto; lia.
    + simpl andb. destruct (Nat.ltb_spec dlen (pos + Z.to_nat c)) as [?|Hin]; [discriminate|].
      destruct (name_copy_cases m pos (Z.to_nat c) b bi Hb)
        as [(l & Hs & Hfit & ->)|[(Hs & _ & ->)|(Hfit & b1 & Hl & -> & _)]]; cbn [bind]; try discriminate.
      * pose proof (slice_length _ _ _ _ Hs) as Hlen.
        assert (Hfl : length (firstn bi b) = bi) by (rewrite firstn_length; lia).
        apply IH; [lia|]. rewrite !app_length, skipn_length. simpl. lia.
      * exfalso. unfold slice in Hs. destruct (Nat.leb_spec (S pos + Z.to_nat c) (length m)); [discriminate|lia].
Qed.

(** ** Only the extent is wanted (DNSJumpOverName) *)
Lemma jump_loop_sound fuel m : Forall is_byte m -> forall pos ll r,
  name_loop fuel false 0 m pos None 0 ll false = Ret r ->
  exists w, extent m pos w /\ r = (Some (ll + w)%nat, None).
Proof.
  intros HF. induction fuel as [|fuel IH]; intros pos ll r H; [discriminate|].
  cbn [name_loop] in H. destruct (rd8 m pos) as [c| | |] eqn:Ec; try discriminate. cbn [bind] in H.
  apply rd8_inv in Ec.
  assert (Hc : is_byte c). { rewrite Forall_forall in HF. eapply HF, nth_error_In; eauto. }
  unfold is_byte in Hc.
  destruct (c =? 0) eqn:E0.
  - inversion H; subst. exists 1%nat. split; [constructor; rewrite Ec; f_equal; lia|].
    do 2 f_equal; lia.
  - unfold is_ptr in H. destruct (192 <=? c) eqn:E1.
    + inversion H; subst. exists 2%nat. split; [econstructor; eauto; lia|reflexivity].
    + cbn [andb] in H. apply IH in H. destruct H as (w & HE & ->).
      exists (S (Z.to_nat c) + w)%nat. split.
      * eapply E_label with (n := Z.to_nat c); [rewrite Ec; f_equal; lia|lia|].
        replace (S pos + Z.to_nat c)%nat with (pos + (1 + Z.to_nat c))%nat by lia. exact HE.
      * do 2 f_equal; lia.
Qed.

Lemma jump_loop_complete m pos w : extent m pos w ->
  forall fuel ll, (length m < fuel + pos)%nat ->
  name_loop fuel false 0 m pos None 0 ll false = Ret (Some (ll + w)%nat, None).
Proof.
  intros H. induction H as [o H0|o hi Hhi R|o n w H1 Hn HE IH]; intros fuel ll Hf.
  - assert (o < length m)%nat by (apply nth_error_Some; congruence).
    destruct fuel as [|fuel]; [lia|]. cbn [name_loop]. rewrite (rd8_some _ _ _ H0). cbn [bind].
    simpl. do 3 f_equal. lia.
  - assert (o < length m)%nat by (apply nth_error_Some; congruence).
    destruct fuel as [|fuel]; [lia|]. cbn [name_loop]. rewrite (rd8_some _ _ _ Hhi). cbn [bind].
    destruct (hi =? 0) eqn:E0; [lia|]. unfold is_ptr. destruct (192 <=? hi) eqn:E1; [|lia].
    reflexivity.
  - assert (o < length m)%nat by (apply nth_error_Some; congruence).
    destruct fuel as [|fuel]; [lia|]. cbn [name_loop]. rewrite (rd8_some _ _ _ H1). cbn [bind].
    destruct (Z.of_nat n =? 0) eqn:E0; [lia|]. unfold is_ptr. destruct (192 <=? Z.of_nat n) eqn:E1; [lia|].
    rewrite Nat2Z.id. cbn [andb].
    replace (o + (1 + n))%nat with (S o + n)%nat by lia.
    rewrite IH by lia. do 3 f_equal. lia.
Qed.

Lemma jump_loop_terminates m : Forall is_byte m -> forall fuel pos ll,
  (length m < fuel + pos)%nat -> (0 < fuel)%nat ->
  name_loop fuel false 0 m pos None 0 ll false <> Fuel.
Proof.
  intros HF. induction fuel as [|fuel IH]; intros pos ll Hf Hf0; [lia|].
  cbn [name_loop]. destruct (nth_error m pos) as [c|] eqn:Ec.
  - assert (pos < length m)%nat by (apply nth_error_Some; congruence).
    rewrite (rd8_some _ _ _ Ec). cbn [bind].
    destruct (c =? 0); [discriminate|]. destruct (is_ptr c); [discriminate|].
    cbn [andb]. destruct fuel as [|fuel']; [lia|]. apply IH; lia.
  - unfold rd8. rewrite Ec. discriminate.
Qed.

Lemma extent_fun m o w1 w2 : extent m o w1 -> extent m o w2 -> w1 = w2.
Proof.
  intros H1. revert w2. induction H1 as [o H0|o hi Hhi R|o n w H1 Hn HE IH]; intros w2 H2; inversion H2; subst; try congruence.
  - rewrite H0 in H; inversion H; lia.
  - rewrite H0 in H; inversion H; lia.
  - rewrite Hhi in H; inversion H; lia.
  - rewrite Hhi in H; inversion H; lia.
  - rewrite H1 in H; inversion H; lia.
  - rewrite H1 in H; inversion H; lia.
  - rewrite H1 in H; inversion H. assert (n = n0) by lia. subst. f_equal. now apply IH.
Qed.

Lemma denotes_extent mx m o ls w : (mx <= 191)%nat -> denotes mx m o ls w -> extent m o w.
Proof.
  intros Hmx H. induction H as [o H0|o n l ls w H1 Hn Hs Hd IH|o hi lo ls w Hhi Hlo Rhi Rlo Hd IH].
  - now constructor.
  - apply E_label; auto; lia.
  - eapply E_ptr; eauto; lia.
Qed.

Lemma denotes_mono mx mx' m o ls w : (mx <= mx')%nat -> denotes mx m o ls w -> denotes mx' m o ls w.
Proof.
  intros Hmx H. induction H as [o H0|o n l ls w H1 Hn Hs Hd IH|o hi lo ls w Hhi Hlo Rhi Rlo Hd IH].
  - now constructor.
  - eapply D_label; eauto. lia.
  - eapply D_ptr; eauto.
Qed.

Lemma denotes_fun mx m o ls w ls' w' :
  (mx <= 191)%nat -> denotes mx m o ls w -> denotes mx m o ls' w' -> ls = ls' /\ w = w'.
Proof.
  intros Hmx H. revert ls' w'.
  induction H as [o H0|o n l ls w H1 Hn Hs Hd IH|o hi lo ls w Hhi Hlo Rhi Rlo Hd IH]; intros ls' w' H2;
    inversion H2; subst; try congruence.
  - auto.
  - rewrite H0 in H; inversion H; lia.
  - rewrite H0 in H; inversion H; lia.
  - rewrite H1 in H; inversion H; lia.
  - rewrite H1 in H; inversion H. assert (n = n0) by lia. subst.
    match goal with HD : denotes _ _ _ ls0 _ |- _ => apply IH in HD; destruct HD; subst end.
    split; congruence.
  - rewrite H1 in H; inversion H; lia.
  - rewrite Hhi in H; inversion H; lia.
  - rewrite Hhi in H; inversion H; lia.
  - rewrite Hhi in H; inversion H; subst. match goal with HL : nth_error m (S o) = Some lo0 |- _ => rewrite Hlo in HL; inversion HL; subst end.
    match goal with HD : denotes _ _ _ ls' _ |- _ => apply IH in HD; destruct HD; subst end. auto.
Qed.

(** The bytes of the packet a name occupies do not change what it denotes when the packet is extended. *)
Lemma nth_error_app_some {A} (m x : list A) i b : nth_error m i = Some b -> nth_error (m ++ x) i = Some b.
Proof. intros H. rewrite nth_error_app1; auto. apply nth_error_Some. congruence. Qed.

Lemma slice_app_some {A} (m x : list A) i n l : slice m i n = Some l -> slice (m ++ x) i n = Some l.
Proof.
  rewrite !slice_some. intros [H ->]. split; [rewrite app_length; lia|].
  rewrite skipn_app, firstn_app. rewrite skipn_length.
  replace (n - (length m - i))%nat with O by lia. rewrite firstn_O, app_nil_r. reflexivity.
Qed.

Lemma denotes_app mx m x o ls w : denotes mx m o ls w -> denotes mx (m ++ x) o ls w.
Proof.
  intros H. induction H as [o H0|o n l ls w H1 Hn Hs Hd IH|o hi lo ls w Hhi Hlo Rhi Rlo Hd IH].
  - constructor. now apply nth_error_app_some.
  - eapply D_label; eauto using nth_error_app_some, slice_app_some.
  - eapply D_ptr; eauto using nth_error_app_some.
Qed.

(** ** The writer *)
Lemma wire_length ls : ls <> [] -> length (wire ls) = (length (dotted ls) + 2)%nat.
Proof.
  induction ls as [|l [|l2 ls] IH]; intros H; [congruence| |].
  - simpl. rewrite app_length. simpl. lia.
  - change (wire (l :: l2 :: ls)) with (Z.of_nat (length l) :: l ++ wire (l2 :: ls)).
    change (dotted (l :: l2 :: ls)) with (l ++ 46 :: dotted (l2 :: ls)).
    specialize (IH ltac:(discriminate)). cbn [length]. rewrite !app_length. rewrite IH. cbn [length]. lia.
Qed.

Lemma upd_app a x b v : upd (a ++ x :: b) (length a) v = a ++ v :: b.
Proof. induction a; simpl; congruence. Qed.

Lemma nth_app {A} (a b : list A) x d : nth (length a) (a ++ x :: b) d = x.
Proof. induction a; simpl; auto. Qed.

(** scanning the rest [s] of a label: [pre] finished wire bytes, [k] the count so far, [cur] the label
    bytes seen so far *)
Lemma label_scan_label mx s : forall rest pre cur k, (mx <= 255)%nat ->
  Forall (fun c => 0 < c < 256 /\ c <> 46) s ->
  k = length cur -> (k + length s <= mx)%nat ->
  label_scan (s ++ rest) (pre ++ Z.of_nat k :: cur ++ s ++ rest ++ [0]) (length pre) (length pre + 1 + k)
  = label_scan rest (pre ++ Z.of_nat (k + length s) :: (cur ++ s) ++ rest ++ [0]) (length pre) (length pre + 1 + k + length s).
Proof.
  induction s as [|c s IH]; intros rest pre cur k Hmx HF Hk Hl.
  - simpl. rewrite !Nat.add_0_r, app_nil_r. reflexivity.
  - inversion HF as [|? ? Hc HF']; subst. simpl app at 1. cbn [label_scan].
    destruct (c =? 46) eqn:E; [lia|].
    rewrite nth_app, upd_app. simpl length in Hl.
    specialize (IH rest pre (cur ++ [c]) (S (length cur)) Hmx HF').
    rewrite app_length in IH. simpl length in IH.
    replace ((Z.of_nat (length cur) + 1) mod 256) with (Z.of_nat (S (length cur))) by (rewrite Z.mod_small; lia).
    replace (S (length pre + 1 + length cur)) with (length pre + 1 + S (length cur))%nat by lia.
    replace (cur ++ (c :: s) ++ rest ++ [0]) with ((cur ++ [c]) ++ s ++ rest ++ [0]) by (rewrite <- !app_assoc; reflexivity).
    rewrite IH by lia.
    replace ((cur ++ [c]) ++ s) with (cur ++ c :: s) by (rewrite <- !app_assoc; reflexivity).
    simpl length. rewrite !Nat.add_succ_r. rewrite !Nat.add_succ_l. reflexivity.
Qed.

Lemma label_scan_wire mx ls : forall l pre, (mx <= 255)%nat ->
  Forall (good_label mx) (l :: ls) ->
  label_scan (dotted (l :: ls)) (pre ++ 0 :: dotted (l :: ls) ++ [0]) (length pre) (length pre + 1)
  = pre ++ wire (l :: ls).
Proof.
  induction ls as [|l2 ls IH]; intros l pre Hmx HF; inversion HF as [|? ? Hl HF']; subst; destruct Hl as [Hlen Hl].
  - simpl dotted.
    pose proof (label_scan_label mx l [] pre [] O Hmx Hl eq_refl ltac:(lia)) as E.
    rewrite app_nil_r in E. simpl app in E. rewrite Nat.add_0_r in E. simpl Z.of_nat in E.
    rewrite E. simpl. reflexivity.
  - change (dotted (l :: l2 :: ls)) with (l ++ 46 :: dotted (l2 :: ls)).
    pose proof (label_scan_label mx l (46 :: dotted (l2 :: ls)) pre [] O Hmx Hl eq_refl ltac:(lia)) as E.
    rewrite Nat.add_0_r in E. cbn [app Z.of_nat] in E. rewrite <- app_assoc. cbn [app]. rewrite E. clear E.
    cbn [label_scan]. simpl (46 =? 46). cbv iota.
    specialize (IH l2 (pre ++ Z.of_nat (length l) :: l) Hmx HF').
    rewrite app_length in IH. simpl length in IH.
    replace (pre ++ Z.of_nat (0 + length l) :: l ++ 46 :: dotted (l2 :: ls) ++ [0])
      with ((pre ++ Z.of_nat (length l) :: l) ++ 46 :: dotted (l2 :: ls) ++ [0])
      by (rewrite <- app_assoc; reflexivity).
    replace (length pre + 1 + length l)%nat with (length (pre ++ Z.of_nat (length l) :: l))
      by (rewrite app_length; simpl; lia).
    rewrite upd_app.
    replace (length (pre ++ Z.of_nat (length l) :: l)) with (length pre + S (length l))%nat by (rewrite app_length; reflexivity).
    replace (S (length pre + S (length l))) with (length pre + S (length l) + 1)%nat by lia.
    rewrite IH. rewrite <- app_assoc. reflexivity.
Qed.

Lemma labelize_wire mx ls space :
  (mx <= 255)%nat -> Forall (good_label mx) ls -> (length (wire ls) <= space)%nat ->
  labelize (dotted ls) space = Some (wire ls).
Proof.
  intros Hmx HF Hs. unfold labelize. destruct ls as [|l ls]; [reflexivity|].
  rewrite wire_length in Hs by discriminate.
  destruct (dotted (l :: ls)) as [|c t] eqn:E.
  - exfalso. inversion HF as [|? ? [Hl _] _]; subst. destruct ls; simpl in E.
    + subst l. simpl in Hl. lia.
    + destruct l; simpl in *; [lia|discriminate].
  - rewrite <- E in *. destruct (Nat.ltb_spec space (length (dotted (l :: ls)) + 2)); [lia|].
    f_equal. exact (label_scan_wire mx ls l [] Hmx HF).
Qed.

Lemma labelize_small s space : s <> [] -> (space < length s + 2)%nat -> labelize s space = None.
Proof.
  intros Hs H. unfold labelize. destruct s; [congruence|].
  destruct (Nat.ltb_spec space (length (z :: s) + 2)); [reflexivity|lia].
Qed.

Lemma denotes_wire mx ls : forall pre post, Forall (good_label mx) ls ->
  denotes mx (pre ++ wire ls ++ post) (length pre) ls (length (wire ls)).
Proof.
  induction ls as [|l ls IH]; intros pre post HF.
  - apply D_root. rewrite nth_error_app2 by lia. rewrite Nat.sub_diag. reflexivity.
  - inversion HF as [|? ? [Hl Hc] HF']; subst.
    change (wire (l :: ls)) with (Z.of_nat (length l) :: l ++ wire ls). cbn [length]. rewrite app_length.
    change (S (length l + length (wire ls)))%nat with (S (length l) + length (wire ls))%nat.
    eapply D_label with (n := length l).
    + rewrite nth_error_app2 by lia. rewrite Nat.sub_diag. reflexivity.
    + lia.
    + replace (pre ++ (Z.of_nat (length l) :: l ++ wire ls) ++ post)
        with ((pre ++ [Z.of_nat (length l)]) ++ l ++ (wire ls ++ post))
        by (rewrite <- !app_assoc; simpl; rewrite <- app_assoc; reflexivity).
      replace (S (length pre)) with (length (pre ++ [Z.of_nat (length l)])) by (rewrite app_length; simpl; lia).
      apply slice_app.
    + replace (pre ++ (Z.of_nat (length l) :: l ++ wire ls) ++ post)
        with ((pre ++ Z.of_nat (length l) :: l) ++ wire ls ++ post)
        by (rewrite <- !app_assoc; simpl; rewrite <- app_assoc; reflexivity).
      replace (S (length pre) + length l)%nat with (length (pre ++ Z.of_nat (length l) :: l)) by (rewrite app_length; simpl; lia).
      apply IH; assumption.
Qed.

(** ** DNSCopyLable: every name without bytes >= 192 inside is copied in its expanded form *)
Lemma copy_label_run m l : forall o rest fuel k,
  slice m o (length l) = Some l -> Forall (fun c => 0 < c < 192) l ->
  copy_label fuel m (o + length l) = Ret rest -> (k = fuel + length l)%nat ->
  copy_label k m o = Ret (l ++ rest).
Proof.
  induction l as [|c l IH]; intros o rest fuel k Hs HF HC Hk.
  - simpl in *. rewrite Nat.add_0_r in *. subst. exact HC.
  - subst k. cbn [length]. rewrite Nat.add_succ_r. cbn [copy_label].
    pose proof (slice_nth _ _ _ _ O Hs ltac:(simpl; lia)) as H0. rewrite Nat.add_0_r in H0. simpl in H0.
    rewrite (rd8_some _ _ _ (eq_sym H0)). cbn [bind].
    inversion HF as [|? ? Hc HF']; subst.
    unfold is_ptr. destruct (192 <=? c) eqn:E1; [lia|]. destruct (c =? 0) eqn:E0; [lia|].
    rewrite (IH (S o) rest fuel (fuel + length l)%nat); auto.
    + apply slice_some in Hs. destruct Hs as [Hl Hs]. simpl length in *.
      apply slice_some. split; [lia|].
      destruct (skipn o m) as [|x t] eqn:E; simpl in Hs; [discriminate|].
      injection Hs as -> Hs. rewrite Hs at 1. f_equal.
      replace (S o) with (o + 1)%nat by lia. rewrite <- skipn_skipn'. rewrite E. reflexivity.
    + simpl length in HC. replace (S o + length l)%nat with (o + S (length l))%nat by lia. exact HC.
Qed.

Lemma copy_label_complete mx m o ls w : (mx <= 191)%nat ->
  denotes mx m o ls w -> Forall (Forall (fun c => 0 < c < 192)) ls ->
  exists fuel, copy_label fuel m o = Ret (wire ls).
Proof.
  intros Hmx H. induction H as [o H0|o n l ls w H1 Hn Hs Hd IH|o hi lo ls w Hhi Hlo Rhi Rlo Hd IH]; intros HF.
  - exists 1%nat. cbn [copy_label]. rewrite (rd8_some _ _ _ H0). reflexivity.
  - inversion HF as [|? ? Hl HF']; subst. destruct (IH HF') as [fuel E].
    pose proof (slice_length _ _ _ _ Hs) as Hlen. subst n.
    exists (S (fuel + length l)). cbn [copy_label]. rewrite (rd8_some _ _ _ H1). cbn [bind].
    unfold is_ptr. destruct (192 <=? Z.of_nat (length l)) eqn:E1; [lia|].
    destruct (Z.of_nat (length l) =? 0) eqn:E0; [lia|].
    rewrite (copy_label_run m l (S o) (wire ls) fuel (fuel + length l)%nat Hs Hl E eq_refl). reflexivity.
  - destruct (IH HF) as [fuel E]. exists (S fuel). cbn [copy_label]. rewrite (rd8_some _ _ _ Hhi). cbn [bind].
    unfold is_ptr. destruct (192 <=? hi) eqn:E1; [|lia].
    unfold label_ptr. rewrite (rd8_some _ _ _ Hhi), (rd8_some _ _ _ Hlo). cbn [bind].
    replace (lo + (hi - 192) * 256) with ((hi - 192) * 256 + lo) by lia. exact E.
Qed.
