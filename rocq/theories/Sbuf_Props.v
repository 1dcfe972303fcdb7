From Verif Require Import Base BaseFacts List2Facts Arr_Model Arr_Props.
Require Import ZifyBool ZifyNat.

(** * C36: the append-only buffer *)
(** One addition: whether memory can be had, the contents of new memory, the data (or none), its length, whether to align. *)
Record add_op := mk_op { o_ok : bool; o_junk : nat -> Z; o_data : option (list Z); o_len : nat; o_align : bool }.
Fixpoint sadd_all (s : sbuf) (ops : list add_op) : outcome (list (option (nat * nat)) * sbuf) :=
  match ops with
  | [] => Ret ([], s)
  | o :: ops' => let! r := sbuf_add (o_ok o) (o_junk o) s (o_data o) (o_len o) (o_align o) in
                 let! q := sadd_all (snd r) ops' in Ret (fst r :: fst q, snd q)
  end.
Definition op_good (o : add_op) : Prop := forall x, o_data o = Some x -> (o_len o <= length x)%nat.
(** The memory at an address. *)
Definition bytes_at (s : sbuf) (a : nat * nat) (n : nat) : option (list Z) := match nth_error s (fst a) with None => None | Some b => slice (bk_mem b) (snd a) n end.
Definition apart (a : nat * nat) (n : nat) (b : nat * nat) (m : nat) : Prop := fst a <> fst b \/ (snd a + n <= snd b)%nat \/ (snd b + m <= snd a)%nat.

Definition item : Type := nat * nat * nat * option (list Z).
Definition placed (s : sbuf) (it : item) : Prop :=
  let '(k, o, n, d) := it in exists b, nth_error s k = Some b /\ (o + n <= bk_used b)%nat /\ forall x, d = Some x -> slice (bk_mem b) o n = Some (firstn n x).
Definition blocks_ok (s : sbuf) : Prop := forall k b, nth_error s k = Some b -> (bk_used b <= length (bk_mem b))%nat.
Lemma round_up_ge v b : (0 < b)%nat -> (v <= round_up v b)%nat.
Proof. intros H. unfold round_up. pose proof (Nat.div_mod_eq (v + b - 1) b). pose proof (Nat.mod_upper_bound (v + b - 1) b ltac:(lia)). nia. Qed.
Lemma nth_set {A} (s : list A) k x y j : nth_error s k = Some x -> nth_error (firstn k s ++ y :: skipn (S k) s) j = if Nat.eqb j k then Some y else nth_error s j.
Proof.
  intros H. assert (Hk : (k < length s)%nat) by (apply nth_error_Some; congruence). assert (L : length (firstn k s) = k) by (rewrite firstn_length; lia).
  destruct (Nat.eqb_spec j k) as [->|N]; [rewrite nth_error_app2, L, Nat.sub_diag by lia; reflexivity|]. destruct (Nat.lt_ge_cases j k).
  - rewrite nth_error_app1 by lia. rewrite nth_error_firstn. destruct (Nat.ltb_spec j k); [reflexivity|lia].
  - rewrite nth_error_app2, L by lia. replace (j - k)%nat with (S (j - S k)) by lia. cbn [nth_error]. rewrite nth_error_skipn. f_equal. lia.
Qed.
(** Where the bytes go: at the end of the used part of the last block. *)
Lemma write_here_ok ok junk s n : blocks_ok s ->
  (ok = false /\ write_here ok junk s n = (None, s)) \/
  exists k o s1, write_here ok junk s n = (Some (k, o), s1) /\ blocks_ok s1 /\
    (exists b, nth_error s1 k = Some b /\ bk_used b = (o + n)%nat) /\
    (forall j b, nth_error s j = Some b -> exists b1, nth_error s1 j = Some b1 /\ bk_mem b1 = bk_mem b /\ (bk_used b <= bk_used b1)%nat /\ (j = k -> bk_used b = o)) /\
    (o = 0%nat \/ exists b, nth_error s k = Some b /\ bk_used b = o).
Proof.
  intros HB. unfold write_here. set (need := match rev s with [] => true | b :: _ => _ end). destruct need eqn:En.
  - destruct ok; [right|left; auto]. exists (length s), 0%nat. eexists. split; [reflexivity|]. set (nb := mk_block _ n).
    assert (Hnb : (bk_used nb <= length (bk_mem nb))%nat). { cbn [nb bk_used bk_mem]. rewrite map_length, seq_length. pose proof (round_up_ge (n * S (length s)) 8 ltac:(lia)). nia. }
    split; [|split; [|split; [|left; reflexivity]]].
    + intros k b H. destruct (Nat.lt_ge_cases k (length s)); [rewrite nth_error_app1 in H by assumption; apply (HB k b H)|]. rewrite nth_error_app2 in H by assumption. destruct (k - length s)%nat as [|[|]]; [injection H as <-; exact Hnb|discriminate..].
    + exists nb. split; [rewrite nth_error_app2, Nat.sub_diag by lia; reflexivity|reflexivity].
    + intros j b H. assert (Hj : (j < length s)%nat) by (apply nth_error_Some; congruence). exists b. rewrite nth_error_app1 by exact Hj. split; [exact H|]. split; [reflexivity|]. split; [lia|]. intros; lia.
  - unfold need in En. destruct (rev s) as [|b r] eqn:Er; [discriminate|]. right. apply Nat.ltb_ge in En.
    assert (Es : s = rev r ++ [b]) by (rewrite <- (rev_involutive s), Er; reflexivity). assert (Lr : length (rev r) = (length s - 1)%nat) by (rewrite Es, app_length; cbn [length]; lia).
    assert (Ls : (0 < length s)%nat) by (rewrite Es, app_length; cbn [length]; lia).
    assert (Hk : nth_error s (length s - 1) = Some b) by (rewrite <- Lr, Es, nth_error_app2, Nat.sub_diag by lia; reflexivity).
    exists (length s - 1)%nat, (bk_used b). eexists. split; [reflexivity|]. cbn [rev]. pose proof (HB _ _ Hk) as Hbb.
    assert (Hn : forall j, nth_error (rev r ++ [mk_block (bk_mem b) (bk_used b + n)]) j = if Nat.eqb j (length s - 1) then Some (mk_block (bk_mem b) (bk_used b + n)) else nth_error s j).
    { intros j. destruct (Nat.eqb_spec j (length s - 1)) as [->|N]; [rewrite <- Lr, nth_error_app2, Nat.sub_diag by lia; reflexivity|]. rewrite Es. destruct (Nat.lt_ge_cases j (length (rev r))); [rewrite !nth_error_app1 by assumption; reflexivity|].
      rewrite !nth_error_app2 by assumption. destruct (j - length (rev r))%nat as [|[|]] eqn:Ej; [lia|reflexivity..]. }
    split; [|split; [|split; [|right; eauto]]].
    + intros k x H. rewrite Hn in H. destruct (Nat.eqb k (length s - 1)); [injection H as <-; cbn [bk_used bk_mem]; lia|apply (HB k x H)].
    + exists (mk_block (bk_mem b) (bk_used b + n)). rewrite Hn, Nat.eqb_refl. auto.
    + intros j x H. rewrite Hn. destruct (Nat.eqb_spec j (length s - 1)) as [->|N].
      * assert (x = b) by congruence. subst x. eexists. split; [reflexivity|]. cbn [bk_mem bk_used]. split; [reflexivity|]. split; [lia|auto].
      * exists x. split; [exact H|]. split; [reflexivity|]. split; [lia|intros; contradiction].
Qed.
Lemma sbuf_add_ok s its o : blocks_ok s -> (forall it, In it its -> placed s it) -> op_good o ->
  exists r s', sbuf_add (o_ok o) (o_junk o) s (o_data o) (o_len o) (o_align o) = Ret (r, s') /\ blocks_ok s' /\ (forall it, In it its -> placed s' it) /\
  match r with
  | None => o_ok o = false
  | Some (k, p) => placed s' (k, p, o_len o, o_data o) /\ (forall it, In it its -> let '(k2, p2, n2, _) := it in k2 = k -> (p2 + n2 <= p)%nat)
  end.
Proof.
  intros HB HI Hg. unfold sbuf_add. set (n := if o_align o then round_up (o_len o) 8 else o_len o). assert (Hn : (o_len o <= n)%nat) by (unfold n; destruct (o_align o); [apply round_up_ge; lia|lia]). clearbody n.
  destruct (write_here_ok (o_ok o) (o_junk o) s n HB) as [(Eo & ->)|(k & p & s1 & -> & HB1 & (b & Hb & Eb) & HS & _)].
  - exists None, s. split; [reflexivity|]. auto.
  - assert (HI1 : forall it, In it its -> placed s1 it).
    { intros (((k2, p2), n2), d2) Hi. destruct (HI _ Hi) as (b2 & H1 & H2 & H3). destruct (HS _ _ H1) as (b3 & G1 & G2 & G3 & _). exists b3. split; [exact G1|]. split; [lia|]. rewrite G2. exact H3. }
    assert (HP : forall it, In it its -> let '(k2, p2, n2, _) := it in k2 = k -> (p2 + n2 <= p)%nat).
    { intros (((k2, p2), n2), d2) Hi E. destruct (HI _ Hi) as (b2 & H1 & H2 & _). destruct (HS _ _ H1) as (_ & _ & _ & _ & G4). specialize (G4 E). lia. }
    destruct (o_data o) as [x|] eqn:Ed.
    + pose proof (Hg x Ed) as Hx. assert (Esl : slice x 0 (o_len o) = Some (firstn (o_len o) x)). { unfold slice. cbn [Nat.add skipn]. destruct (Nat.leb_spec (o_len o) (length x)); [reflexivity|lia]. }
      rewrite Esl, Hb. assert (Lf : length (firstn (o_len o) x) = o_len o) by (rewrite firstn_length; lia). pose proof (HB1 _ _ Hb) as Hbb.
      destruct (write_ok (bk_mem b) p (firstn (o_len o) x)) as (m & Em); [lia|]. rewrite Em. eexists. eexists. split; [reflexivity|].
      pose proof (nth_set s1 k b (mk_block m (bk_used b))) as HN. split; [|split; [|split; [|exact HP]]].
      * intros j c H. rewrite HN in H by exact Hb. destruct (Nat.eqb j k); [|apply (HB1 j c H)]. injection H as <-. cbn [bk_used bk_mem]. rewrite (write_length _ _ _ _ Em). exact Hbb.
      * intros (((k2, p2), n2), d2) Hi. destruct (HI1 _ Hi) as (b2 & H1 & H2 & H3). pose proof (HP _ Hi) as HPi. cbn in HPi. unfold placed. rewrite HN by exact Hb. destruct (Nat.eqb_spec k2 k) as [->|N]; [|eauto].
        assert (b2 = b) by congruence. subst b2. eexists. split; [reflexivity|]. cbn [bk_used bk_mem]. split; [exact H2|]. intros y Hy. rewrite (slice_write_out _ _ _ _ _ _ Em) by (left; apply HPi; reflexivity). apply H3, Hy.
      * exists (mk_block m (bk_used b)). rewrite HN, Nat.eqb_refl by exact Hb. split; [reflexivity|]. cbn [bk_used bk_mem]. split; [lia|]. intros y Hy. injection Hy as <-. pose proof (slice_write_same _ _ _ _ Em) as X. rewrite Lf in X. exact X.
    + eexists. eexists. split; [reflexivity|]. split; [exact HB1|]. split; [exact HI1|]. split; [|exact HP]. exists b. split; [exact Hb|]. split; [lia|discriminate].
Qed.
Fixpoint items_from (ops : list add_op) (rs : list (option (nat * nat))) : list item :=
  match ops, rs with
  | o :: ops', r :: rs' => match r with Some (k, p) => (k, p, o_len o, o_data o) :: items_from ops' rs' | None => items_from ops' rs' end
  | _, _ => []
  end.
Lemma sadd_all_ok ops : Forall op_good ops -> forall s its, blocks_ok s -> (forall it, In it its -> placed s it) ->
  exists rs s', sadd_all s ops = Ret (rs, s') /\ length rs = length ops /\ (forall it, In it its -> placed s' it) /\
    (forall i o r, nth_error ops i = Some o -> nth_error rs i = Some r -> match r with None => o_ok o = false | Some (k, p) => placed s' (k, p, o_len o, o_data o) end) /\
    (forall it i o k p, In it its -> nth_error ops i = Some o -> nth_error rs i = Some (Some (k, p)) -> let '(k2, p2, n2, _) := it in k2 = k -> (p2 + n2 <= p)%nat) /\
    (forall i j o1 o2 k1 p1 k2 p2, (i < j)%nat -> nth_error ops i = Some o1 -> nth_error rs i = Some (Some (k1, p1)) -> nth_error ops j = Some o2 -> nth_error rs j = Some (Some (k2, p2)) -> k1 = k2 -> (p1 + o_len o1 <= p2)%nat).
Proof.
  induction 1 as [|o ops Ho HF IH]; intros s its HB HI; cbn [sadd_all].
  - exists [], s. split; [reflexivity|]. split; [reflexivity|]. split; [exact HI|]. split; [intros [|] ? ? H; discriminate|]. split; [intros ? [|] ? ? ? _ H; discriminate|intros [|] ? ? ? ? ? ? ? _ H; discriminate].
  - destruct (sbuf_add_ok s its o HB HI Ho) as (r & s1 & -> & HB1 & HI1 & Hr). cbn [bind fst snd].
    set (its1 := match r with Some (k, p) => [(k, p, o_len o, o_data o)] | None => [] end).
    assert (HI2 : forall it, In it (its1 ++ its) -> placed s1 it).
    { intros it Hi. apply in_app_iff in Hi. destruct Hi as [Hi|Hi]; [|apply HI1, Hi]. unfold its1 in Hi. destruct r as [(k, p)|]; [|contradiction]. destruct Hi as [<-|[]]. apply Hr. }
    destruct (IH s1 (its1 ++ its) HB1 HI2) as (rs & s' & -> & L & H1 & H2 & H3 & H4). cbn [bind fst snd]. exists (r :: rs), s'. split; [reflexivity|]. split; [cbn [length]; lia|].
    split; [intros it Hi; apply H1, in_app_iff; right; exact Hi|]. split; [|split].
    + intros [|i] o2 r2 E1 E2; cbn [nth_error] in E1, E2; [|apply (H2 i o2 r2 E1 E2)]. injection E1 as <-. injection E2 as <-. destruct r as [(k, p)|]; [|exact Hr]. apply H1. apply in_app_iff. left. left. reflexivity.
    + intros it [|i] o2 k p Hi E1 E2; cbn [nth_error] in E1, E2; [|apply (H3 it i o2 k p); [apply in_app_iff; right; exact Hi|exact E1|exact E2]]. injection E2 as ->. apply Hr, Hi.
    + intros [|i] [|j] o1 o2 k1 p1 k2 p2 Hij E1 E2 E3 E4; cbn [nth_error] in E1, E2, E3, E4; [lia| |lia|].
      * injection E1 as <-. injection E2 as ->. pose proof (H3 (k1, p1, o_len o, o_data o) j o2 k2 p2 ltac:(left; reflexivity) E3 E4) as X. exact X.
      * apply (H4 i j o1 o2 k1 p1 k2 p2 ltac:(lia) E1 E2 E3 E4).
Qed.
(** For all sequences of additions of any sizes: an addition fails only if there is no memory; every stored item has its bytes at
    its address in the end (so also at every moment between, each of which is the end of a shorter sequence), inside of the
    memory; items never overlap. *)
Theorem C36_stable ops : Forall op_good ops -> exists rs s, sadd_all [] ops = Ret (rs, s) /\ length rs = length ops /\
  (forall i o r, nth_error ops i = Some o -> nth_error rs i = Some r ->
     match r with None => o_ok o = false | Some a => exists y, bytes_at s a (o_len o) = Some y /\ forall x, o_data o = Some x -> y = firstn (o_len o) x end) /\
  (forall i j o1 o2 a1 a2, i <> j -> nth_error ops i = Some o1 -> nth_error rs i = Some (Some a1) -> nth_error ops j = Some o2 -> nth_error rs j = Some (Some a2) -> apart a1 (o_len o1) a2 (o_len o2)).
Proof.
  intros HF. assert (B0 : blocks_ok []) by (intros [|] b H; discriminate). destruct (sadd_all_ok ops HF [] [] B0 ltac:(contradiction)) as (rs & s & E & L & _ & H2 & _ & H4). exists rs, s. split; [exact E|]. split; [exact L|].
  assert (HB : blocks_ok s).
  { clear - HF E B0. revert rs s E B0. generalize (@nil block) as s0. induction HF as [|o ops Ho HF IH]; intros s0 rs s E B0; cbn [sadd_all] in E; [injection E as _ <-; exact B0|].
    destruct (sbuf_add_ok s0 [] o B0 ltac:(contradiction) Ho) as (r & s1 & E1 & B1 & _). rewrite E1 in E. cbn [bind fst snd] in E. destruct (sadd_all s1 ops) as [(rs2, s2)| | |] eqn:E2; try discriminate. cbn [bind fst snd] in E. injection E as _ <-. apply (IH s1 rs2 s2 E2 B1). }
  split.
  - intros i o r Eo Er. pose proof (H2 i o r Eo Er) as H. destruct r as [(k, p)|]; [|exact H]. destruct H as (b & Hb & Hu & Hx). unfold bytes_at. cbn [fst snd]. rewrite Hb. pose proof (HB _ _ Hb) as Hbb.
    assert (Es : slice (bk_mem b) p (o_len o) = Some (firstn (o_len o) (skipn p (bk_mem b)))) by (unfold slice; destruct (Nat.leb_spec (p + o_len o) (length (bk_mem b))); [reflexivity|lia]).
    eexists. split; [exact Es|]. intros x Ex. specialize (Hx x Ex). congruence.
  - intros i j o1 o2 (k1, p1) (k2, p2) Hij E1 E2 E3 E4. unfold apart. cbn [fst snd]. destruct (Nat.eq_dec k1 k2) as [Ek|]; [right|left; assumption]. destruct (Nat.lt_ge_cases i j).
    + left. apply (H4 i j o1 o2 k1 p1 k2 p2 ltac:(assumption) E1 E2 E3 E4 Ek).
    + right. apply (H4 j i o2 o1 k2 p2 k1 p1 ltac:(lia) E3 E4 E1 E2 (eq_sym Ek)).
Qed.
Print Assumptions C36_stable.

(** The same addresses are returned whatever is added later. *)
Theorem C36_addresses ops1 ops2 s rs s' : sadd_all s (ops1 ++ ops2) = Ret (rs, s') -> exists s1, sadd_all s ops1 = Ret (firstn (length ops1) rs, s1).
Proof.
  revert s rs s'. induction ops1 as [|o ops1 IH]; intros s rs s' E; cbn [app sadd_all length] in *; [exists s; reflexivity|].
  destruct (sbuf_add _ _ _ _ _ _) as [(r, s1)| | |]; try discriminate. cbn [bind fst snd] in *. destruct (sadd_all s1 (ops1 ++ ops2)) as [(rs2, s2)| | |] eqn:E2; try discriminate. cbn [bind fst snd] in *. injection E as <- <-.
  destruct (IH s1 rs2 s2 E2) as (s3 & ->). cbn [bind fst snd]. exists s3. reflexivity.
Qed.
Print Assumptions C36_addresses.

(** Items added with alignment only are at offsets that are multiples of 8 (blocks themselves are aligned by malloc). *)
Theorem C36_aligned ops rs s : Forall op_good ops -> Forall (fun o => o_align o = true) ops -> sadd_all [] ops = Ret (rs, s) -> forall i k p, nth_error rs i = Some (Some (k, p)) -> (p mod 8 = 0)%nat.
Proof.
  intros HF HA. assert (M0 : forall j b, nth_error (@nil block) j = Some b -> (bk_used b mod 8 = 0)%nat) by (intros [|] b H; discriminate). assert (B0 : blocks_ok []) by (intros [|] b H; discriminate).
  revert HF rs s. generalize dependent (@nil block). induction HA as [|o ops Ha HA IH]; intros s0 M0 B0 HF rs s E i k p Hi; cbn [sadd_all] in E.
  - injection E as <- <-. destruct i; discriminate.
  - inversion HF as [|? ? Hg HF']; subst. destruct (sbuf_add_ok s0 [] o B0 ltac:(contradiction) Hg) as (r & s1 & E1 & B1 & _). rewrite E1 in E. cbn [bind fst snd] in E.
    destruct (sadd_all s1 ops) as [(rs2, s2)| | |] eqn:E2; try discriminate. cbn [bind fst snd] in E. injection E as <- <-.
    assert (HM : (forall j b, nth_error s1 j = Some b -> (bk_used b mod 8 = 0)%nat) /\ forall k p, r = Some (k, p) -> (p mod 8 = 0)%nat).
    { clear IH E2 Hi. clear s2 rs2. unfold sbuf_add in E1. rewrite Ha in E1. set (n := round_up (o_len o) 8) in *. assert (Hn : (n mod 8 = 0)%nat) by (unfold n, round_up; apply Nat.mod_mul; lia). clearbody n.
      assert (HW : forall wh s2, write_here (o_ok o) (o_junk o) s0 n = (wh, s2) -> (forall j b, nth_error s2 j = Some b -> (bk_used b mod 8 = 0)%nat) /\ forall k p, wh = Some (k, p) -> (p mod 8 = 0)%nat).
      { intros wh s2 Ew. unfold write_here in Ew. destruct (match rev s0 with [] => true | b :: _ => _ end).
        - destruct (o_ok o); injection Ew as <- <-; [|split; [exact M0|discriminate]]. split; [|intros ? ? X; injection X as <- <-; reflexivity]. intros j b H. destruct (Nat.lt_ge_cases j (length s0)); [rewrite nth_error_app1 in H by assumption; apply (M0 j b H)|].
          rewrite nth_error_app2 in H by assumption. destruct (j - length s0)%nat as [|[|]]; [injection H as <-; exact Hn|discriminate..].
        - destruct (rev s0) as [|b r0] eqn:Er; injection Ew as <- <-; [split; [exact M0|discriminate]|]. assert (Es : s0 = rev r0 ++ [b]) by (rewrite <- (rev_involutive s0), Er; reflexivity).
          assert (Mb : (bk_used b mod 8 = 0)%nat) by (apply (M0 (length (rev r0))); rewrite Es, nth_error_app2, Nat.sub_diag by lia; reflexivity).
          split; [|intros ? ? X; injection X as <- <-; exact Mb]. cbn [rev]. intros j c H. destruct (Nat.lt_ge_cases j (length (rev r0))).
          + rewrite nth_error_app1 in H by assumption. apply (M0 j c). rewrite Es, nth_error_app1 by assumption. exact H.
          + rewrite nth_error_app2 in H by assumption. destruct (j - length (rev r0))%nat as [|[|]]; [injection H as <-; cbn [bk_used]; rewrite Nat.add_mod, Mb, Hn by lia; reflexivity|discriminate..]. }
      destruct (write_here (o_ok o) (o_junk o) s0 n) as (wh, s2). destruct (HW wh s2 eq_refl) as (W1 & W2). destruct wh as [(k1, p1)|]; [|injection E1 as <- <-; auto]. destruct (o_data o) as [x|]; [|injection E1 as <- <-; auto].
      destruct (slice x 0 (o_len o)) as [y|]; [|discriminate]. destruct (nth_error s2 k1) as [b|] eqn:Eb; [|discriminate]. destruct (write (bk_mem b) p1 y) as [m|]; [|discriminate]. injection E1 as <- <-. split; [|intros ? ? X; injection X as <- <-; apply (W2 k1 p1 eq_refl)].
      intros j c H. rewrite (nth_set s2 k1 b) in H by exact Eb. destruct (Nat.eqb j k1); [injection H as <-; apply (W1 _ _ Eb)|apply (W1 j c H)]. }
    destruct HM as (HM1 & HM2). destruct i as [|i]; cbn [nth_error] in Hi; [injection Hi as ->; apply (HM2 k p eq_refl)|]. apply (IH s1 HM1 B1 HF' rs2 s2 E2 i k p Hi).
Qed.
Print Assumptions C36_aligned.
Example C36_nonvacuous : exists s, sadd_all [] [mk_op true (fun _ => 0) (Some [1;2;3]) 3 false; mk_op true (fun _ => 7) (Some [4;5;6;7]) 4 true; mk_op true (fun _ => 0) (Some [8;9]) 2 false; mk_op true (fun _ => 0) (Some [10;11;12;13;14;15;16]) 7 false] =
  Ret ([Some (0, 0); Some (1, 0); Some (1, 8); Some (2, 0)]%nat, s) /\ bytes_at s (1, 8)%nat 2 = Some [8; 9].
Proof. eexists. split; vm_compute; reflexivity. Qed.
