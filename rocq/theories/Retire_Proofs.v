From Verif Require Import Base BaseFacts Retire_Model Retire_Spec.
Require Import ZifyBool ZifyNat.

Lemma put_length {A} (l : list A) i x : (i < length l)%nat -> length (put l i x) = length l.
Proof. intros H. unfold put. rewrite app_length, firstn_length. cbn [length]. rewrite skipn_length. lia. Qed.
Lemma put_nth {A} (l : list A) i x j : (i < length l)%nat -> nth_error (put l i x) j = if (j =? i)%nat then Some x else nth_error l j.
Proof.
  intros H. unfold put. destruct (Nat.eqb_spec j i) as [->|N].
  - rewrite nth_error_app2 by (rewrite firstn_length; lia). rewrite firstn_length. replace (i - Nat.min i (length l))%nat with 0%nat by lia. reflexivity.
  - destruct (Nat.lt_ge_cases j i).
    + rewrite nth_error_app1 by (rewrite firstn_length; lia). revert i j H N H0. induction l as [|y l IH]; intros [|i] [|j] H N H0; cbn [length firstn nth_error] in *; try lia; [reflexivity|]. apply IH; lia.
    + rewrite nth_error_app2 by (rewrite firstn_length; lia). rewrite firstn_length. replace (j - Nat.min i (length l))%nat with (S (j - S i)) by lia. cbn [nth_error]. revert i j H N H0. induction l as [|y l IH]; intros [|i] [|j] H N H0; cbn [length] in *; try lia; cbn [skipn nth_error]; [f_equal; lia|]. replace (S j - S (S i))%nat with (j - S i)%nat by lia. apply (IH i j); lia.
Qed.
Lemma nth_lt {A} (l : list A) i x : nth_error l i = Some x -> (i < length l)%nat.
Proof. intros H. apply nth_error_Some. congruence. Qed.

(** * The invariant *)
Definition J (m : md) : Prop :=
  m_wh m = match m_wk m with WEnd => false | _ => true end /\
  m_addrs m = match m_wk m with WUnset | WEnd => false | _ => true end /\
  match m_wk m with WFree | WUnset | WEnd => m_isrv m = false | _ => True end /\
  if m_udp m then m_sh m = match m_sw m with SEnd => false | _ => true end /\ m_ctx m = match m_sw m with SUnset | SEnd => false | _ => true end /\ match m_sw m with SFree | SUnset | SEnd => m_wk m = WEnd | _ => True end
  else m_sw m = SEnd /\ m_sh m = false /\ m_ctx m = m_addrs m.
Definition running (m : md) : Prop := m_isrv m = true /\ (m_wk m = WHead \/ m_wk m = WTurn) /\ (m_sw m = SHead \/ m_sw m = STurn).
Definition dead (m : md) : Prop := m_wk m = WEnd /\ m_sw m = SEnd.
Definition freed (m : md) : nat := ((if m_addrs m then 0 else 1) + (if m_udp m && negb (m_ctx m) then 1 else 0))%nat.
Definition upto (ms : list md) (i : nat) : Prop := forall j m, (j < i)%nat -> nth_error ms j = Some m -> dead m.
Definition cinv (c : cpc) (ms : list md) : Prop :=
  match c with
  | CNew | CPause => True
  | CSet i u => u = false -> upto ms i
  | CWork i u => (i < length ms)%nat /\ (u = false -> upto ms i)
  | CSweep i u => (i < length ms)%nat /\ (u = false -> upto ms i /\ forall m, nth_error ms i = Some m -> m_wk m = WEnd)
  | CFree => upto ms (length ms)
  end.
Record inv (tr : list label) (s : st) : Prop := mk_inv {
  i_groups : map (fun m => (m_udp m, negb (m_named m))) (s_mods s) = groups tr;
  i_mods : forall i m, nth_error (s_mods s) i = Some m -> J m /\ releases i tr = freed m;
  i_fresh : forall i, (length (s_mods s) <= i)%nat -> releases i tr = 0%nat;
  i_phase : match s_phase s with
            | PBuild => ~ In Replace (map fst tr) /\ (calm tr -> forall i m, nth_error (s_mods s) i = Some m -> m_udp m = true -> running m) /\ idle (s_qs s) = true
            | PCur => ~ In Replace (map fst tr) /\ (calm tr -> forall i m, nth_error (s_mods s) i = Some m -> m_udp m = true -> running m)
            | POld c => idle (s_qs s) = true /\ cinv c (s_mods s)
            | PGone => idle (s_qs s) = true /\ (calm tr \/ In Drop (map fst tr) -> upto (s_mods s) (length (s_mods s)))
            end;
  i_drop : In Drop (map fst tr) -> s_phase s = PGone }.

Lemma releases_snoc i tr l : releases i (tr ++ [l]) = (releases i tr + match fst l with Release j => if (j =? i)%nat then 1 else 0 | _ => 0 end)%nat.
Proof. unfold releases. rewrite filter_app, app_length. destruct l as [a b]. destruct a as [| | | | | |j| | | | |]; try reflexivity. cbn. destruct (j =? i)%nat; reflexivity. Qed.
Lemma groups_snoc tr l : groups (tr ++ [l]) = groups tr ++ match fst l with Start u f => [(u, f)] | _ => [] end.
Proof. unfold groups. rewrite flat_map_app. cbn [flat_map]. destruct (fst l); rewrite ?app_nil_r; reflexivity. Qed.
Lemma idle_none qs q x : idle qs = true -> nth_error qs q = Some x -> x = None.
Proof. unfold idle. rewrite forallb_forall. intros H E. apply nth_error_In in E. apply H in E. destruct x; [discriminate|reflexivity]. Qed.
Lemma idle_repeat n : idle (repeat None n) = true.
Proof. induction n; [reflexivity|exact IHn]. Qed.

(** ** One step of a thread of a group *)
Lemma work_ok i h m a b m' : J m -> work i h m = Some (a, b, m') ->
  J m' /\ (m_udp m' = m_udp m /\ m_named m' = m_named m) /\ ~ dead m /\ (freed m' = freed m + match a with Release _ => 1 | _ => 0 end)%nat /\ (b = true \/ a = Reports i /\ m_named m = false) /\
  (match a with Tau | Turn _ | Reports _ | GiveUp _ _ | Release _ => True | _ => False end) /\ (forall j, a = Release j -> j = i) /\ (forall u j, a = GiveUp u j -> u = m_udp m) /\
  (m_wk m = WEnd -> m_wk m' = WEnd) /\ (m_sw m' = m_sw m) /\ (running m -> (forall j, a <> GiveUp true j) -> m_udp m = true -> running m').
Proof.
  destruct m as [udp named isrv wk sw wh sh addrs ctx]. unfold J, work, dead, freed, running. cbn [m_udp m_named m_isrv m_wk m_sw m_wh m_sh m_addrs m_ctx]. intros (H1 & H2 & H3 & H4) E.
  subst wh addrs.
  assert (K : sh = (if udp then match sw with SEnd => false | _ => true end else false) /\ ctx = (if udp then match sw with SUnset | SEnd => false | _ => true end else match wk with WUnset | WEnd => false | _ => true end) /\ (udp = false -> sw = SEnd) /\ (udp = true -> match sw with SFree | SUnset | SEnd => wk = WEnd | _ => True end))
    by (destruct udp; intuition congruence). clear H4. destruct K as (-> & -> & K1 & K2).
  destruct wk, udp, sw; try discriminate (K1 eq_refl); try discriminate (K2 eq_refl); clear K1 K2; destruct isrv; try discriminate H3; try discriminate E;
  try destruct h; injection E as <- <- <-; cbn [m_udp m_named m_isrv m_wk m_sw m_wh m_sh m_addrs m_ctx andb orb negb Nat.add] in *.
  all: repeat split; auto; try discriminate; try (intros (X & _); discriminate X); try (intros j X; try discriminate X; injection X; auto; fail); try (intros u j X; try discriminate X; injection X; auto; fail).
  all: try (destruct named; auto; fail); try (intros (R1 & R2 & R3) NG U; try discriminate; try (destruct R2 as [R2|R2]; discriminate R2); try (destruct R3 as [R3|R3]; discriminate R3); try (exfalso; eapply NG; reflexivity); repeat split; auto; fail).
  all: exfalso; repeat match goal with H : _ /\ _ |- _ => destruct H | H : _ \/ _ |- _ => destruct H end; try discriminate; match goal with H : forall j, GiveUp true _ <> _ |- _ => exact (H _ eq_refl) end.
Qed.

Lemma sweep_ok i m a b m' : J m -> sweep i m = Some (a, b, m') ->
  J m' /\ (m_udp m' = m_udp m /\ m_named m' = m_named m) /\ ~ dead m /\ (freed m' = freed m + match a with Release _ => 1 | _ => 0 end)%nat /\ b = true /\
  (match a with Tau | Release _ => True | _ => False end) /\ (forall j, a = Release j -> j = i) /\ (m_wk m' = m_wk m) /\ (m_sw m = SEnd -> m_sw m' = SEnd) /\ (running m -> m_udp m = true -> running m').
Proof.
  destruct m as [udp named isrv wk sw wh sh addrs ctx]. unfold J, sweep, dead, freed, running. cbn [m_udp m_named m_isrv m_wk m_sw m_wh m_sh m_addrs m_ctx]. intros (H1 & H2 & H3 & H4) E.
  subst wh addrs.
  assert (K : sh = (if udp then match sw with SEnd => false | _ => true end else false) /\ ctx = (if udp then match sw with SUnset | SEnd => false | _ => true end else match wk with WUnset | WEnd => false | _ => true end) /\ (udp = false -> sw = SEnd) /\ (udp = true -> match sw with SFree | SUnset | SEnd => wk = WEnd | _ => True end))
    by (destruct udp; intuition congruence). clear H4. destruct K as (-> & -> & K1 & K2).
  destruct wk, udp, sw; try discriminate (K1 eq_refl); try discriminate (K2 eq_refl); clear K1 K2; destruct isrv; try discriminate H3; try discriminate E;
  injection E as <- <- <-; cbn [m_udp m_named m_isrv m_wk m_sw m_wh m_sh m_addrs m_ctx andb orb negb Nat.add] in *.
  all: repeat split; auto; try discriminate; try (intros (_ & X); discriminate X); try (intros j X; try discriminate X; injection X; auto; fail).
  all: exfalso; repeat match goal with H : _ /\ _ |- _ => destruct H | H : _ \/ _ |- _ => destruct H end; try discriminate.
Qed.

(** ** The whole *)
Lemma upto_put ms i m m' k : nth_error ms i = Some m -> ~ dead m -> upto ms k -> upto (put ms i m') k /\ (k <= i)%nat.
Proof.
  intros E ND U. assert (L := nth_lt _ _ _ E). assert (K : (k <= i)%nat) by (destruct (Nat.le_gt_cases k i) as [G|G]; [exact G|exfalso; exact (ND (U i m G E))]).
  split; [|exact K]. intros j x Hj Ex. rewrite put_nth in Ex by exact L. destruct (Nat.eqb_spec j i); [lia|]. exact (U j x Hj Ex).
Qed.
Lemma map_put {A B} (f : A -> B) l i x y : nth_error l i = Some x -> f y = f x -> map f (put l i y) = map f l.
Proof.
  intros E F. unfold put. rewrite map_app. cbn [map]. rewrite F. revert i E. induction l as [|z l IH]; intros [|i] E; try discriminate E; cbn [firstn skipn map app] in *; [injection E as ->; reflexivity|]. f_equal. exact (IH i E).
Qed.
Lemma calm_prefix tr l : calm (tr ++ l) -> calm tr.
Proof. intros (A & B). split; [intros pre b post E; apply (A pre b (post ++ l)); rewrite E, <- app_assoc; reflexivity|intros pre i b post E; apply (B pre i b (post ++ l)); rewrite E, <- app_assoc; reflexivity]. Qed.
Lemma thread_ok tr s i m m' a b : inv tr s -> nth_error (s_mods s) i = Some m -> J m' -> m_udp m' = m_udp m /\ m_named m' = m_named m -> ~ dead m ->
  freed m' = (freed m + match a with Release _ => 1 | _ => 0 end)%nat -> match a with Tau | Turn _ | Reports _ | GiveUp _ _ | Release _ => True | _ => False end ->
  (forall j, a = Release j -> j = i) -> (m_wk m = WEnd -> m_wk m' = WEnd) -> (~ In Replace (map fst tr) -> calm (tr ++ [(a, b)]) -> running m -> m_udp m = true -> running m') ->
  inv (tr ++ [(a, b)]) (mk_st (s_phase s) (put (s_mods s) i m') (s_qs s)) /\ (calm tr -> alive (s_phase s) = true).
Proof.
  intros [IG IM IF IP ID] E Jm (Eu & En) ND Fr Ka Rel Wk Run. assert (L := nth_lt _ _ _ E).
  assert (NR : forall x, In x [Replace; Drop] -> In x (map fst (tr ++ [(a, b)])) -> In x (map fst tr)).
  { intros x Hx. rewrite map_app, in_app_iff. intros [X|[X|[]]]; [exact X|]. cbn [fst] in X. subst x. destruct Hx as [<-|[<-|[]]]; destruct Ka. }
  split.
  2:{ intros CA. destruct (s_phase s) eqn:P; try reflexivity. destruct IP as (_ & U). destruct (upto_put _ _ _ m' _ E ND (U (or_introl CA))). lia. }
  constructor; cbn [s_phase s_mods s_qs].
  - rewrite groups_snoc. cbn [fst]. rewrite <- IG. rewrite (map_put _ _ _ m); [|exact E|rewrite Eu, En; reflexivity]. destruct a; try destruct Ka; rewrite app_nil_r; reflexivity.
  - intros j x. rewrite put_nth by exact L. rewrite releases_snoc. cbn [fst]. destruct (Nat.eqb_spec j i) as [->|N]; intros X.
    + injection X as <-. split; [exact Jm|]. rewrite Fr, (proj2 (IM i m E)). f_equal. destruct a; try reflexivity. rewrite (Rel i0 eq_refl), Nat.eqb_refl. reflexivity.
    + destruct (IM j x X) as (Jx & Rx). split; [exact Jx|]. rewrite Rx. destruct a; try lia. rewrite (Rel i0 eq_refl). destruct (Nat.eqb_spec i j); lia.
  - intros j Hj. rewrite put_length in Hj by exact L. rewrite releases_snoc, (IF j Hj). cbn [fst]. destruct a; try reflexivity. rewrite (Rel i0 eq_refl). destruct (Nat.eqb_spec i j); [lia|reflexivity].
  - destruct (s_phase s) eqn:P.
    + destruct IP as (A & B & C). split; [|split; [|exact C]]. { intros X. apply A. apply NR in X; [exact X|left; reflexivity]. }
      intros CA j x X U. specialize (B (calm_prefix _ _ CA)). rewrite put_nth in X by exact L. destruct (Nat.eqb_spec j i) as [->|N]; [injection X as <-; rewrite Eu in U; apply Run; [exact A|exact CA|exact (B i m E U)|exact U]|exact (B j x X U)].
    + destruct IP as (A & B). split. { intros X. apply A. apply NR in X; [exact X|left; reflexivity]. }
      intros CA j x X U. specialize (B (calm_prefix _ _ CA)). rewrite put_nth in X by exact L. destruct (Nat.eqb_spec j i) as [->|N]; [injection X as <-; rewrite Eu in U; apply Run; [exact A|exact CA|exact (B i m E U)|exact U]|exact (B j x X U)].
    + destruct IP as (A & B). split; [exact A|]. destruct c; cbn [cinv] in *; try exact I.
      * intros X. apply (upto_put _ _ m); auto.
      * rewrite put_length by exact L. split; [tauto|]. destruct B as (_ & B). intros X. apply (upto_put _ _ m); auto.
      * rewrite put_length by exact L. split; [tauto|]. destruct B as (_ & B). intros X. destruct (B X) as (B1 & B2). split; [apply (upto_put _ _ m); auto|]. intros x. rewrite put_nth by exact L. destruct (Nat.eqb_spec i0 i) as [->|N]; intros Y; [injection Y as <-; apply Wk; exact (B2 m E)|exact (B2 x Y)].
      * exfalso. destruct (upto_put _ _ _ m' _ E ND B). lia.
    + destruct IP as (A & U). split; [exact A|]. intros X. exfalso. assert (Y : calm tr \/ In Drop (map fst tr)) by (destruct X as [X|X]; [left; exact (calm_prefix _ _ X)|right; apply NR in X; [exact X|right; left; reflexivity]]). destruct (upto_put _ _ _ m' _ E ND (U Y)). lia.
  - intros X. apply ID. apply NR in X; [exact X|right; left; reflexivity].
Qed.


Lemma dead_put ms i m s : nth_error ms i = Some m ->
  let m' := mk_md (m_udp m) (m_named m) s (m_wk m) (m_sw m) (m_wh m) (m_sh m) (m_addrs m) (m_ctx m) in forall k, upto ms k -> upto (put ms i m') k.
Proof.
  intros E m' k U j x Hj Ex. assert (L := nth_lt _ _ _ E). rewrite put_nth in Ex by exact L. destruct (Nat.eqb_spec j i) as [->|N]; [|exact (U j x Hj Ex)]. injection Ex as <-. exact (U i m Hj E).
Qed.
Lemma clean_ok c ms c' ms' : clean c ms = (c', ms') -> c <> CFree -> cinv c ms -> (forall i m, nth_error ms i = Some m -> J m) ->
  cinv c' ms' /\ map (fun m => (m_udp m, negb (m_named m))) ms' = map (fun m => (m_udp m, negb (m_named m))) ms /\ length ms' = length ms /\
  (forall i m', nth_error ms' i = Some m' -> J m' /\ exists m, nth_error ms i = Some m /\ freed m' = freed m).
Proof.
  intros E NF C Js.
  assert (Same : ms' = ms -> map (fun m => (m_udp m, negb (m_named m))) ms' = map (fun m => (m_udp m, negb (m_named m))) ms /\ length ms' = length ms /\ (forall i m', nth_error ms' i = Some m' -> J m' /\ exists m, nth_error ms i = Some m /\ freed m' = freed m)).
  { intros ->. split; [reflexivity|split; [reflexivity|]]. intros i m' X. split; [exact (Js i m' X)|exists m'; auto]. }
  destruct c as [|i u|i u|i u| |]; cbn [clean] in E.
  - injection E as <- <-. split; [|apply Same; reflexivity]. cbn. intros _ j m Hj. lia.
  - destruct (nth_error ms i) as [m|] eqn:M.
    + injection E as <- <-. assert (L := nth_lt _ _ _ M). split; [cbn [cinv] in *; split; [rewrite put_length by exact L; exact L|intros X; apply (dead_put _ _ m); auto]|]. split; [apply (map_put _ _ _ m); [exact M|reflexivity]|]. split; [apply put_length; exact L|].
      intros j x. rewrite put_nth by exact L. destruct (Nat.eqb_spec j i) as [->|N]; intros X; [|split; [exact (Js j x X)|exists x; auto]]. injection X as <-. split; [|exists m; split; [exact M|reflexivity]].
      pose proof (Js i m M) as (A & B & D & F). unfold J. cbn [m_udp m_named m_isrv m_wk m_sw m_wh m_sh m_addrs m_ctx]. repeat split; auto; try (destruct (m_wk m); auto).
    + injection E as <- <-. split; [|apply Same; reflexivity]. destruct u; cbn [cinv] in *; [exact I|]. apply nth_error_None in M. intros j m Hj X. apply (C eq_refl j m); [lia|exact X].
  - destruct (nth_error ms i) as [m|] eqn:M.
    2:{ injection E as <- <-. split; [exact C|apply Same; reflexivity]. }
    pose proof (Js i m M) as (A & B & D & F). injection E as <- <-. split; [|apply Same; reflexivity]. destruct (m_udp m) eqn:U; cbn [cinv] in *; destruct C as (L & C); try (split; [exact L|]); intros X; apply Bool.orb_false_iff in X; destruct X as (X1 & X2); rewrite A in X2.
    + split; [exact (C X1)|]. intros x Y. replace x with m by congruence. destruct (m_wk m); try discriminate X2; reflexivity.
    + intros j x Hj Y. destruct (Nat.eq_dec j i) as [->|N]; [|apply (C X1 j x); [lia|exact Y]]. replace x with m by congruence. split; [destruct (m_wk m); try discriminate X2; reflexivity|tauto].
  - destruct (nth_error ms i) as [m|] eqn:M.
    2:{ injection E as <- <-. split; [exact C|apply Same; reflexivity]. }
    pose proof (Js i m M) as (A & B & D & F). injection E as <- <-. split; [|apply Same; reflexivity]. cbn [cinv] in *. destruct C as (L & C). intros X; apply Bool.orb_false_iff in X; destruct X as (X1 & X2). destruct (C X1) as (C1 & C2).
    intros j x Hj Y. destruct (Nat.eq_dec j i) as [->|N]; [|apply (C1 j x); [lia|exact Y]]. replace x with m by congruence. split; [exact (C2 m M)|].
    destruct (m_udp m); [|tauto]. destruct F as (F & _). rewrite F in X2. destruct (m_sw m); try discriminate X2; reflexivity.
  - injection E as <- <-. split; [|apply Same; reflexivity]. cbn. intros _ j m Hj. lia.
  - destruct (NF eq_refl).
Qed.

Lemma snoc_in (x a : act) b (tr : list label) : In x (map fst (tr ++ [(a, b)])) <-> In x (map fst tr) \/ a = x.
Proof. rewrite map_app, in_app_iff. cbn. tauto. Qed.
Lemma idle_put qs q i : idle qs = true -> nth_error qs q = Some (Some i) -> False.
Proof. intros A B. apply (idle_none _ _ _ A) in B. discriminate B. Qed.
Lemma new_ok u f : J (new_md u f) /\ freed (new_md u f) = 0%nat /\ (u = true -> running (new_md u f)).
Proof. destruct u; unfold new_md, J, freed, running; cbn; repeat split; auto; discriminate. Qed.

Lemma quiet_inv tr s a b p qs : inv tr s -> match a with Tau | Send _ | Publish | Replace | Fail | Drop => True | _ => False end ->
  match p with
  | PBuild => False
  | PCur => ~ In Replace (map fst tr) /\ (calm tr -> forall i m, nth_error (s_mods s) i = Some m -> m_udp m = true -> running m) /\ a <> Replace
  | POld c => idle qs = true /\ cinv c (s_mods s)
  | PGone => idle qs = true /\ (calm (tr ++ [(a, b)]) \/ In Drop (map fst (tr ++ [(a, b)])) -> upto (s_mods s) (length (s_mods s)))
  end -> (In Drop (map fst tr) \/ a = Drop -> p = PGone) ->
  inv (tr ++ [(a, b)]) (mk_st p (s_mods s) qs).
Proof.
  intros [IG IM IF IP ID] Ka Kp Kd.
  assert (NR : forall i, releases i (tr ++ [(a, b)]) = releases i tr) by (intros i; rewrite releases_snoc; cbn [fst]; destruct a; try destruct Ka; lia).
  constructor; cbn [s_phase s_mods s_qs].
  - rewrite groups_snoc. cbn [fst]. rewrite IG. destruct a; try destruct Ka; rewrite app_nil_r; reflexivity.
  - intros i m X. rewrite NR. exact (IM i m X).
  - intros i X. rewrite NR. exact (IF i X).
  - destruct p; try exact Kp; [destruct Kp|]. destruct Kp as (A & B & C). split; [|intros CA; exact (B (calm_prefix _ _ CA))]. rewrite snoc_in. intros [X|X]; [exact (A X)|exact (C X)].
  - rewrite snoc_in. exact Kd.
Qed.

Lemma step_inv tr s e l s' : inv tr s -> step s e = Some (l, s') ->
  inv (tr ++ [l]) s' /\ (calm (tr ++ [l]) -> snd l = true \/ exists i u, fst l = Reports i /\ nth_error (groups tr) i = Some (u, true)).
Proof.
  intros I0 E. pose proof I0 as [IG IM IF IP ID].
  destruct e as [u f| | |i h|i|q i|q| |]; cbn [step] in E.
  - destruct (s_phase s) eqn:P; try discriminate E. injection E as <- <-. split; [|intros _; left; reflexivity]. destruct (new_ok u f) as (N1 & N2 & N3). destruct IP as (A & B & C).
    constructor; cbn [s_phase s_mods s_qs].
    + rewrite map_app, groups_snoc, IG. cbn. rewrite Bool.negb_involutive. reflexivity.
    + intros i m X. rewrite releases_snoc. cbn [fst]. rewrite Nat.add_0_r. destruct (Nat.lt_ge_cases i (length (s_mods s))) as [L|L].
      * rewrite nth_error_app1 in X by exact L. exact (IM i m X).
      * rewrite nth_error_app2 in X by exact L. destruct (i - length (s_mods s))%nat as [|[|k]] eqn:K; try discriminate X. injection X as <-. split; [exact N1|]. rewrite N2. apply IF. exact L.
    + intros i X. rewrite app_length in X. rewrite releases_snoc. cbn [fst]. rewrite (IF i) by lia. reflexivity.
    + split; [|split; [|exact C]]. { rewrite snoc_in. intros [X|X]; [exact (A X)|discriminate X]. }
      intros CA i m X U. specialize (B (calm_prefix _ _ CA)). destruct (Nat.lt_ge_cases i (length (s_mods s))) as [L|L].
      * rewrite nth_error_app1 in X by exact L. exact (B i m X U).
      * rewrite nth_error_app2 in X by exact L. destruct (i - length (s_mods s))%nat as [|[|k]] eqn:K; try discriminate X. injection X as <-. apply N3. exact U.
    + rewrite snoc_in. intros [X|X]; [apply ID in X; discriminate X|discriminate X].
  - destruct (s_phase s) eqn:P; try discriminate E. injection E as <- <-. split; [|intros _; left; reflexivity]. destruct IP as (A & B & C). apply quiet_inv; [exact I0|exact I| |].
    + split; [exact A|split; [exact B|discriminate]].
    + intros [X|X]; [apply ID in X; discriminate X|discriminate X].
  - destruct (s_phase s) eqn:P; try discriminate E. injection E as <- <-. split; [|intros _; left; reflexivity]. destruct IP as (A & B & C). apply quiet_inv; [exact I0|exact I| |reflexivity].
    split; [exact C|]. intros [(CF & _)|X]; [|exfalso; rewrite snoc_in in X; destruct X as [X|X]; [apply ID in X; discriminate X|discriminate X]]. specialize (CF tr true [] eq_refl). rewrite <- IG in CF. destruct (s_mods s); [|discriminate CF]. intros j m Hj. cbn in Hj. lia.
  - destruct (nth_error (s_mods s) i) as [m|] eqn:M; try discriminate E. destruct (work i h m) as [[[a b] m']|] eqn:W; try discriminate E. injection E as <- <-.
    destruct (IM i m M) as (Jm & _). destruct (work_ok _ _ _ _ _ _ Jm W) as (W1 & W2 & W3 & W4 & W5 & W6 & W7 & W8 & W9 & W10 & W11).
    destruct (thread_ok tr s i m m' a (b && alive (s_phase s)) I0 M W1 W2 W3 W4 W6 W7 W9) as (T1 & T2).
    { intros NR (_ & CG) R U. apply W11; [exact R| |exact U]. intros j ->. apply NR. exact (CG tr j _ [] eq_refl). }
    split; [exact T1|]. intros CA. cbn [fst snd]. rewrite (T2 (calm_prefix _ _ CA)), Bool.andb_true_r. destruct W5 as [->|(-> & X)]; [left; reflexivity|right]. exists i, (m_udp m). split; [reflexivity|]. rewrite <- IG. rewrite nth_error_map, M. cbn. rewrite X. reflexivity.
  - destruct (nth_error (s_mods s) i) as [m|] eqn:M; try discriminate E. destruct (sweep i m) as [[[a b] m']|] eqn:W; try discriminate E. injection E as <- <-.
    destruct (IM i m M) as (Jm & _). destruct (sweep_ok _ _ _ _ _ Jm W) as (W1 & W2 & W3 & W4 & W5 & W6 & W7 & W8 & W9 & W10).
    destruct (thread_ok tr s i m m' a (b && alive (s_phase s)) I0 M W1 W2 W3 W4) as (T1 & T2); auto.
    { destruct a; try destruct W6; exact I. }
    { rewrite W8. auto. }
    split; [exact T1|]. intros CA. left. cbn [snd]. rewrite (T2 (calm_prefix _ _ CA)), W5. reflexivity.
  - destruct (s_phase s) eqn:P; try discriminate E. destruct (nth_error (s_qs s) q) as [[x|]|] eqn:Q; try discriminate E. destruct (nth_error (s_mods s) i) as [m|] eqn:M; try discriminate E. injection E as <- <-.
    split; [|intros _; left; reflexivity]. destruct IP as (A & B). apply quiet_inv; [exact I0|exact I| |].
    + split; [exact A|split; [exact B|discriminate]].
    + intros [X|X]; [apply ID in X; discriminate X|discriminate X].
  - destruct (nth_error (s_qs s) q) as [[i|]|] eqn:Q; try discriminate E. destruct (nth_error (s_mods s) i) as [m|] eqn:M; try discriminate E. injection E as <- <-.
    destruct (s_phase s) eqn:P; try (exfalso; destruct IP as (A & B); try destruct B as (B & C); eapply idle_put; eassumption).
    destruct IP as (A & B). split.
    + apply quiet_inv; [exact I0|exact I| |].
      * split; [exact A|split; [exact B|discriminate]].
      * intros [X|X]; [apply ID in X; discriminate X|discriminate X].
    + intros CA. left. cbn [snd alive]. rewrite Bool.andb_true_r. destruct (m_udp m) eqn:U; [|reflexivity]. destruct (B (calm_prefix _ _ CA) i m M U) as (R1 & R2 & R3). destruct (IM i m M) as ((J1 & J2 & J3 & J4) & _). rewrite U in J4. destruct J4 as (J4 & J5 & J6). rewrite J2, J5. destruct R2 as [->| ->], R3 as [->| ->]; reflexivity.
  - destruct (s_phase s) eqn:P; try discriminate E. destruct (idle (s_qs s)) eqn:Q; try discriminate E. injection E as <- <-. split; [|intros _; left; reflexivity]. apply quiet_inv; [exact I0|exact I| |].
    + split; [exact Q|exact I].
    + intros [X|X]; [apply ID in X; discriminate X|discriminate X].
  - destruct (s_phase s) as [| |c|] eqn:P; try discriminate E. destruct IP as (A & B).
    assert (ND : ~ In Drop (map fst tr)) by (intros X; apply ID in X; discriminate X).
    destruct (clean c (s_mods s)) as [c' ms'] eqn:C.
    assert (DC : c = CFree \/ c <> CFree) by (destruct c; auto; right; discriminate).
    destruct DC as [->|NF].
    + injection E as <- <-. split; [|intros _; left; reflexivity]. apply quiet_inv; [exact I0|exact I| |reflexivity]. split; [exact A|intros _; exact B].
    + destruct (clean_ok _ _ _ _ C NF B (fun i m X => proj1 (IM i m X))) as (K1 & K2 & K3 & K4).
      assert (E' : Some (match c with CSet i _ => if (i <? length ms')%nat then Order i else Tau | _ => Tau end, true, mk_st (POld c') ms' (s_qs s)) = Some (l, s')) by (destruct c; try exact E; destruct (NF eq_refl)).
      clear E. injection E' as <- <-. split; [|intros _; left; reflexivity]. set (a := match c with CSet i _ => if (i <? length ms')%nat then Order i else Tau | _ => Tau end).
      assert (Ka : match a with Order _ | Tau => True | _ => False end) by (unfold a; destruct c; try exact I; destruct (i <? length ms')%nat; exact I).
      assert (NR : forall i, releases i (tr ++ [(a, true)]) = releases i tr) by (intros i; rewrite releases_snoc; cbn [fst]; destruct a; try destruct Ka; lia).
      constructor; cbn [s_phase s_mods s_qs].
      * rewrite groups_snoc. cbn [fst]. rewrite K2, IG. destruct a; try destruct Ka; rewrite app_nil_r; reflexivity.
      * intros i m' X. destruct (K4 i m' X) as (X1 & m & X2 & X3). split; [exact X1|]. rewrite NR, X3. exact (proj2 (IM i m X2)).
      * intros i X. rewrite NR. apply IF. rewrite <- K3. exact X.
      * split; [exact A|exact K1].
      * rewrite snoc_in. intros [X|X]; [destruct (ND X)|rewrite X in Ka; destruct Ka].
Qed.

(** ** Executions *)
Lemma run_app es1 : forall s es2, run s (es1 ++ es2) = match run s es1 with None => None | Some (t1, s1) => match run s1 es2 with None => None | Some (t2, s2) => Some (t1 ++ t2, s2) end end.
Proof.
  induction es1 as [|e es1 IH]; intros s es2; cbn [app run].
  - destruct (run s es2) as [[t2 s2]|]; reflexivity.
  - destruct (step s e) as [[l s1]|]; [|reflexivity]. rewrite IH. destruct (run s1 es1) as [[t1 s2]|]; [|reflexivity]. destruct (run s2 es2) as [[t2 s3]|]; reflexivity.
Qed.
Definition fine (tr : list label) (l : label) : Prop := snd l = true \/ exists i u, fst l = Reports i /\ nth_error (groups tr) i = Some (u, true).
Lemma groups_app a b : groups (a ++ b) = groups a ++ groups b.
Proof. apply flat_map_app. Qed.
Lemma fine_app tr tr' l : fine tr l -> fine (tr ++ tr') l.
Proof. intros [H|(i & u & H & K)]; [left; exact H|right; exists i, u; split; [exact H|]]. rewrite groups_app, nth_error_app1 by exact (nth_lt _ _ _ K). exact K. Qed.
Lemma inv0 n : inv [] (st0 n).
Proof.
  constructor; cbn.
  - reflexivity.
  - intros [|i] m X; discriminate X.
  - reflexivity.
  - split; [intros []|split; [intros _ [|i] m X; discriminate X|apply idle_repeat]].
  - intros [].
Qed.
Lemma run_inv n es : forall tr s, run (st0 n) es = Some (tr, s) -> inv tr s /\ (calm tr -> Forall (fine tr) tr).
Proof.
  induction es as [|e es IH] using rev_ind; intros tr s H.
  - injection H as <- <-. split; [apply inv0|constructor].
  - rewrite run_app in H. destruct (run (st0 n) es) as [[t1 s1]|]; [|discriminate H]. cbn [run] in H. destruct (step s1 e) as [[l s2]|] eqn:E; [|discriminate H]. injection H as <- <-.
    destruct (IH t1 s1 eq_refl) as (A & B). destruct (step_inv _ _ _ _ _ A E) as (C & D). split; [exact C|]. intros CA. apply Forall_app. split.
    + eapply Forall_impl; [|exact (B (calm_prefix _ _ CA))]. intros x. apply fine_app.
    + constructor; [|constructor]. apply fine_app. exact (D CA).
Qed.
Lemma freed_dead m : J m -> dead m -> freed m = if m_udp m then 2%nat else 1%nat.
Proof. intros (A & B & C & D) (W & S). unfold freed. rewrite W in B. rewrite B. destruct (m_udp m); [|reflexivity]. destruct D as (_ & D & _). rewrite S in D. rewrite D. reflexivity. Qed.
Lemma freed_le m : (freed m <= if m_udp m then 2 else 1)%nat.
Proof. unfold freed. destruct (m_addrs m), (m_udp m), (m_ctx m); cbn; lia. Qed.
Lemma groups_nth tr s i m : inv tr s -> nth_error (s_mods s) i = Some m -> nth_error (groups tr) i = Some (m_udp m, negb (m_named m)).
Proof. intros I0 H. rewrite <- (i_groups _ _ I0), nth_error_map, H. reflexivity. Qed.
Lemma nth_groups tr s i u f : inv tr s -> nth_error (groups tr) i = Some (u, f) -> exists m, nth_error (s_mods s) i = Some m /\ m_udp m = u.
Proof. intros I0. rewrite <- (i_groups _ _ I0), nth_error_map. destruct (nth_error (s_mods s) i) as [m|]; [|discriminate]. intros H. injection H as H _. exists m. auto. Qed.

(** ** A group that has been told to stop *)
Definition owed (m : md) : nat := match m_wk m with WTurn => 1 | _ => 0 end.
Lemma turns_cons i l tr : turns i (l :: tr) = (match fst l with Turn j | Reports j | GiveUp _ j => if (j =? i)%nat then 1 else 0 | _ => 0 end + turns i tr)%nat.
Proof. unfold turns. cbn [filter]. destruct l as [a b]. destruct a; try reflexivity; cbn [fst]; destruct (i0 =? i)%nat; reflexivity. Qed.
Lemma turns_app i a b : turns i (a ++ b) = (turns i a + turns i b)%nat.
Proof. unfold turns. rewrite filter_app, app_length. reflexivity. Qed.
Lemma work_owed i h m a b m' : work i h m = Some (a, b, m') -> m_isrv m = false ->
  m_isrv m' = false /\ (match a with Turn _ | Reports _ | GiveUp _ _ => 1 | _ => 0 end + owed m' <= owed m)%nat /\ match a with Turn j | Reports j | GiveUp _ j => j = i | _ => True end.
Proof.
  destruct m as [udp named isrv wk sw wh sh addrs ctx]. unfold work, owed. cbn. intros E ->. destruct wk; try discriminate E; try destruct h; injection E as <- <- <-; cbn; repeat split; lia.
Qed.
Lemma work_own i h m a b m' : work i h m = Some (a, b, m') -> match a with Turn j | Reports j | GiveUp _ j => j = i | _ => True end.
Proof. destruct m as [udp named isrv wk sw wh sh addrs ctx]. unfold work. cbn. intros E. destruct wk; try discriminate E; try destruct h; injection E as <- <- <-; cbn; auto. Qed.
Lemma sweep_owed i m a b m' : sweep i m = Some (a, b, m') -> m_isrv m' = m_isrv m /\ m_wk m' = m_wk m /\ match a with Turn _ | Reports _ | GiveUp _ _ => False | _ => True end.
Proof. destruct m as [udp named isrv wk sw wh sh addrs ctx]. unfold sweep. cbn. intros E. destruct sw; try discriminate E; injection E as <- <- <-; cbn; auto. Qed.
Lemma step_owed i s e l s' m : step s e = Some (l, s') -> nth_error (s_mods s) i = Some m -> m_isrv m = false ->
  exists m', nth_error (s_mods s') i = Some m' /\ m_isrv m' = false /\ (match fst l with Turn j | Reports j | GiveUp _ j => if (j =? i)%nat then 1 else 0 | _ => 0 end + owed m' <= owed m)%nat.
Proof.
  intros E M F. assert (L := nth_lt _ _ _ M).
  assert (Same : forall a b, l = (a, b) -> match a with Turn _ | Reports _ | GiveUp _ _ => False | _ => True end -> s_mods s' = s_mods s -> exists m', nth_error (s_mods s') i = Some m' /\ m_isrv m' = false /\ (match fst l with Turn j | Reports j | GiveUp _ j => if (j =? i)%nat then 1 else 0 | _ => 0 end + owed m' <= owed m)%nat).
  { intros a b -> Ka ->. exists m. split; [exact M|split; [exact F|]]. destruct a; try destruct Ka; cbn; lia. }
  destruct e as [u f| | |j h|j|q j|q| |]; cbn [step] in E.
  - destruct (s_phase s); try discriminate E. injection E as <- <-. exists m. cbn [s_mods fst]. rewrite nth_error_app1 by exact L. auto with arith.
  - destruct (s_phase s); try discriminate E. injection E as <- <-. eapply Same; [reflexivity|exact I|reflexivity].
  - destruct (s_phase s); try discriminate E. injection E as <- <-. eapply Same; [reflexivity|exact I|reflexivity].
  - destruct (nth_error (s_mods s) j) as [x|] eqn:X; try discriminate E. destruct (work j h x) as [[[a b] x']|] eqn:W; try discriminate E. injection E as <- <-. cbn [s_mods fst].
    assert (Lj := nth_lt _ _ _ X). destruct (Nat.eq_dec j i) as [->|N].
    + replace x with m in W by congruence. destruct (work_owed _ _ _ _ _ _ W F) as (A & B & C). exists x'. rewrite put_nth, Nat.eqb_refl by exact L. split; [reflexivity|split; [exact A|]]. destruct a; try exact B; subst; rewrite Nat.eqb_refl; exact B.
    + exists m. rewrite put_nth by exact Lj. destruct (Nat.eqb_spec i j); [congruence|]. split; [exact M|split; [exact F|]]. pose proof (work_own _ _ _ _ _ _ W) as C. destruct a; try lia; subst; destruct (Nat.eqb_spec j i); lia.
  - destruct (nth_error (s_mods s) j) as [x|] eqn:X; try discriminate E. destruct (sweep j x) as [[[a b] x']|] eqn:W; try discriminate E. injection E as <- <-. cbn [s_mods fst].
    assert (Lj := nth_lt _ _ _ X). destruct (sweep_owed _ _ _ _ _ W) as (A & B & C).
    assert (Z : (match a with Turn k | Reports k | GiveUp _ k => if k =? i then 1 else 0 | _ => 0 end = 0)%nat) by (destruct a; try destruct C; reflexivity). rewrite Z.
    rewrite put_nth by exact Lj. destruct (Nat.eqb_spec i j) as [<-|N].
    + replace x with m in A, B by congruence. exists x'. split; [reflexivity|split; [congruence|]]. unfold owed. rewrite B. lia.
    + exists m. auto.
  - destruct (s_phase s); try discriminate E. destruct (nth_error (s_qs s) q) as [[x|]|]; try discriminate E. destruct (nth_error (s_mods s) j); try discriminate E. injection E as <- <-. eapply Same; [reflexivity|exact I|reflexivity].
  - destruct (nth_error (s_qs s) q) as [[j|]|]; try discriminate E. destruct (nth_error (s_mods s) j); try discriminate E. injection E as <- <-. eapply Same; [reflexivity|exact I|reflexivity].
  - destruct (s_phase s); try discriminate E. destruct (idle (s_qs s)); try discriminate E. injection E as <- <-. eapply Same; [reflexivity|exact I|reflexivity].
  - destruct (s_phase s) as [| |c|]; try discriminate E. destruct c as [|j u|j u|j u| |]; cbn [clean] in E.
    + injection E as <- <-. eapply Same; [reflexivity|exact I|reflexivity].
    + destruct (nth_error (s_mods s) j) as [x|] eqn:X; injection E as <- <-; [|eapply Same; [reflexivity|destruct (j <? length (s_mods s))%nat; exact I|reflexivity]].
      assert (Lj := nth_lt _ _ _ X). cbn [s_mods fst]. rewrite put_length, put_nth by exact Lj. destruct (Nat.ltb_spec j (length (s_mods s))); [|lia]. destruct (Nat.eqb_spec i j) as [<-|N].
      * eexists. split; [reflexivity|]. split; [reflexivity|]. unfold owed. cbn. replace x with m by congruence. lia.
      * exists m. auto.
    + destruct (nth_error (s_mods s) j) as [x|] eqn:X; injection E as <- <-; (eapply Same; [reflexivity|exact I|reflexivity]).
    + destruct (nth_error (s_mods s) j) as [x|] eqn:X; injection E as <- <-; (eapply Same; [reflexivity|exact I|reflexivity]).
    + injection E as <- <-. eapply Same; [reflexivity|exact I|reflexivity].
    + injection E as <- <-. eapply Same; [reflexivity|exact I|reflexivity].
Qed.
Lemma run_owed i es : forall s tr s' m, run s es = Some (tr, s') -> nth_error (s_mods s) i = Some m -> m_isrv m = false -> (turns i tr <= owed m)%nat.
Proof.
  induction es as [|e es IH]; intros s tr s' m H M F; cbn [run] in H.
  - injection H as <- <-. cbn. lia.
  - destruct (step s e) as [[l s1]|] eqn:E; [|discriminate H]. destruct (run s1 es) as [[ls s2]|] eqn:R; [|discriminate H]. injection H as <- <-.
    destruct (step_owed _ _ _ _ _ _ E M F) as (m' & M' & F' & O). specialize (IH _ _ _ _ R M' F'). rewrite turns_cons. lia.
Qed.
Lemma step_order i s e b s' : step s e = Some ((Order i, b), s') -> exists m, nth_error (s_mods s') i = Some m /\ m_isrv m = false.
Proof.
  intros E. destruct e as [u f| | |j h|j|q j|q| |]; cbn [step] in E.
  - destruct (s_phase s); try discriminate E.
  - destruct (s_phase s); try discriminate E.
  - destruct (s_phase s); try discriminate E.
  - destruct (nth_error (s_mods s) j) as [x|]; try discriminate E. unfold work in E. destruct (m_wk x); try discriminate E. destruct h; discriminate E.
  - destruct (nth_error (s_mods s) j) as [x|]; try discriminate E. unfold sweep in E. destruct (m_sw x); discriminate E.
  - destruct (s_phase s); try discriminate E. destruct (nth_error (s_qs s) q) as [[x|]|]; try discriminate E. destruct (nth_error (s_mods s) j); discriminate E.
  - destruct (nth_error (s_qs s) q) as [[j|]|]; try discriminate E. destruct (nth_error (s_mods s) j); discriminate E.
  - destruct (s_phase s); try discriminate E. destruct (idle (s_qs s)); discriminate E.
  - destruct (s_phase s) as [| |c|]; try discriminate E. destruct c as [|j u|j u|j u| |]; cbn [clean] in E; try discriminate E.
    + destruct (nth_error (s_mods s) j) as [x|] eqn:X.
      * assert (Lj := nth_lt _ _ _ X). rewrite put_length in E by exact Lj. destruct (j <? length (s_mods s))%nat; [|discriminate E]. injection E as -> _ <-. cbn [s_mods]. rewrite put_nth, Nat.eqb_refl by exact Lj. eexists. split; reflexivity.
      * apply nth_error_None in X. destruct (Nat.ltb_spec j (length (s_mods s))); [lia|discriminate E].
    + destruct (nth_error (s_mods s) j); discriminate E.
    + destruct (nth_error (s_mods s) j); discriminate E.
Qed.
Lemma run_split es : forall s tr s' pre l post, run s es = Some (tr, s') -> tr = pre ++ l :: post ->
  exists es1 e es2 s1 s2, es = es1 ++ e :: es2 /\ run s es1 = Some (pre, s1) /\ step s1 e = Some (l, s2) /\ run s2 es2 = Some (post, s').
Proof.
  induction es as [|e es IH]; intros s tr s' pre l post H T; cbn [run] in H.
  - injection H as <- <-. destruct pre; discriminate T.
  - destruct (step s e) as [[l1 s1]|] eqn:E; [|discriminate H]. destruct (run s1 es) as [[ls s2]|] eqn:R; [|discriminate H]. injection H as <- <-. destruct pre as [|x pre]; cbn [app] in T; injection T as -> T.
    + exists [], e, es, s, s1. subst post. auto.
    + destruct (IH _ _ _ pre l post R T) as (es1 & e' & es2 & a & b & -> & A & B & C). exists (e :: es1), e', es2, a, b. split; [reflexivity|]. cbn [run]. rewrite E, A. auto.
Qed.

(** ** The old groups can always be freed *)
Definition reach (s s' : st) : Prop := exists es tr, run s es = Some (tr, s').
Lemma reach_refl s : reach s s.
Proof. exists [], []. reflexivity. Qed.
Lemma reach_trans a b c : reach a b -> reach b c -> reach a c.
Proof. intros (e1 & t1 & A) (e2 & t2 & B). exists (e1 ++ e2), (t1 ++ t2). rewrite run_app, A, B. reflexivity. Qed.
Lemma reach_step s e l s' : step s e = Some (l, s') -> reach s s'.
Proof. intros E. exists [e], [l]. cbn. rewrite E. reflexivity. Qed.
Lemma reach_inv tr s s' : inv tr s -> reach s s' -> exists tr', inv tr' s'.
Proof.
  intros I0 (es & t & H). revert tr s t I0 H. induction es as [|e es IH]; intros tr s t I0 H; cbn [run] in H.
  - injection H as _ <-. exists tr. exact I0.
  - destruct (step s e) as [[l s1]|] eqn:E; [|discriminate H]. destruct (run s1 es) as [[ls s2]|] eqn:R; [|discriminate H]. injection H as _ <-. destruct (step_inv _ _ _ _ _ I0 E) as (K & _). exact (IH _ _ _ K R).
Qed.
Definition told (ms : list md) (i : nat) : Prop := forall j m, (j < i)%nat -> nth_error ms j = Some m -> m_isrv m = false.
Lemma scan k : forall ms qs i u, (length ms - i <= k)%nat -> (i <= length ms)%nat ->
  exists c ms', reach (mk_st (POld (CSet i u)) ms qs) (mk_st (POld c) ms' qs) /\ (c = CPause \/ c = CFree) /\ length ms' = length ms /\ (told ms i -> told ms' (length ms')) /\
  ((forall j m, nth_error ms j = Some m -> dead m) -> (forall j m, nth_error ms' j = Some m -> dead m)).
Proof.
  induction k as [|k IH]; intros ms qs i u Hk Hi.
  - assert (i = length ms) by lia. subst i. exists (if u then CPause else CFree), ms. split; [|split; [destruct u; auto|auto]].
    eapply reach_step with (e := EClean). cbn [step s_phase s_mods s_qs clean]. rewrite (proj2 (nth_error_None ms (length ms)) (le_n _)). reflexivity.
  - destruct (nth_error ms i) as [m|] eqn:M.
    2:{ apply nth_error_None in M. assert (i = length ms) by lia. subst i. exists (if u then CPause else CFree), ms. split; [|split; [destruct u; auto|auto]].
        eapply reach_step with (e := EClean). cbn [step s_phase s_mods s_qs clean]. rewrite (proj2 (nth_error_None ms (length ms)) (le_n _)). reflexivity. }
    assert (L := nth_lt _ _ _ M). set (m' := mk_md (m_udp m) (m_named m) false (m_wk m) (m_sw m) (m_wh m) (m_sh m) (m_addrs m) (m_ctx m)). set (ms1 := put ms i m').
    assert (M1 : nth_error ms1 i = Some m') by (unfold ms1; rewrite put_nth, Nat.eqb_refl by exact L; reflexivity).
    assert (L1 : length ms1 = length ms) by (unfold ms1; apply put_length; exact L).
    assert (R : exists u', reach (mk_st (POld (CSet i u)) ms qs) (mk_st (POld (CSet (S i) u')) ms1 qs)).
    { assert (R1 : reach (mk_st (POld (CSet i u)) ms qs) (mk_st (POld (CWork i u)) ms1 qs)) by (eapply reach_step with (e := EClean); cbn [step s_phase s_mods s_qs clean]; rewrite M; reflexivity).
      assert (Um : m_udp m' = m_udp m) by reflexivity. assert (Wm : m_wh m' = m_wh m) by reflexivity. assert (Sm : m_sh m' = m_sh m) by reflexivity. clearbody ms1 m'. destruct (m_udp m) eqn:U.
      - assert (R2 : reach (mk_st (POld (CWork i u)) ms1 qs) (mk_st (POld (CSweep i (u || m_wh m'))) ms1 qs)) by (eapply reach_step with (e := EClean); cbn [step s_phase s_mods s_qs clean]; rewrite M1; rewrite Um; reflexivity).
        eexists. eapply reach_trans; [exact R1|]. eapply reach_trans; [exact R2|]. eapply reach_step with (e := EClean). cbn [step s_phase s_mods s_qs clean]. rewrite M1. reflexivity.
      - eexists. eapply reach_trans; [exact R1|]. eapply reach_step with (e := EClean). cbn [step s_phase s_mods s_qs clean]. rewrite M1. rewrite Um. reflexivity. }
    destruct R as (u' & R). destruct (IH ms1 qs (S i) u') as (c & ms' & A & B & C & D & F); [lia|lia|]. exists c, ms'. split; [eapply reach_trans; eassumption|]. split; [exact B|]. split; [lia|]. split.
    + intros T. apply D. intros j x Hj X. unfold ms1 in X. rewrite put_nth in X by exact L. destruct (Nat.eqb_spec j i); [injection X as <-; reflexivity|]. apply (T j x); [lia|exact X].
    + intros T. apply F. intros j x X. unfold ms1 in X. rewrite put_nth in X by exact L. destruct (Nat.eqb_spec j i); [injection X as <-; exact (T i m M)|exact (T j x X)].
Qed.
Lemma put_put {A} (l : list A) i x y : (i < length l)%nat -> put (put l i x) i y = put l i y.
Proof.
  intros L. unfold put. rewrite firstn_app, firstn_firstn, firstn_length, Nat.min_id. replace (i - Nat.min i (length l))%nat with 0%nat by lia. cbn [firstn]. rewrite app_nil_r. f_equal. f_equal.
  rewrite skipn_app, firstn_length. replace (S i - Nat.min i (length l))%nat with 1%nat by lia. rewrite (skipn_all2 (firstn i l)) by (rewrite firstn_length; lia). reflexivity.
Qed.
Lemma put_same {A} : forall i (l : list A) x, nth_error l i = Some x -> put l i x = l.
Proof. unfold put. induction i as [|k IH]; intros [|y l] x M; try discriminate M; [injection M as ->; reflexivity|]. cbn [firstn skipn app]. f_equal. exact (IH l x M). Qed.
Lemma works p qs i : forall ms m, nth_error ms i = Some m -> m_isrv m = false ->
  exists m', reach (mk_st p ms qs) (mk_st p (put ms i m') qs) /\ m_isrv m' = false /\ m_wk m' = WEnd /\ m_sw m' = m_sw m.
Proof.
  assert (Go : forall ms m a b m1, nth_error ms i = Some m -> work i Ordinary m = Some (a, b, m1) -> (exists m', reach (mk_st p (put ms i m1) qs) (mk_st p (put (put ms i m1) i m') qs) /\ m_isrv m' = false /\ m_wk m' = WEnd /\ m_sw m' = m_sw m1) -> m_sw m1 = m_sw m ->
    exists m', reach (mk_st p ms qs) (mk_st p (put ms i m') qs) /\ m_isrv m' = false /\ m_wk m' = WEnd /\ m_sw m' = m_sw m).
  { intros ms m a b m1 M W (m' & A & B & C & D) S. exists m'. split; [|split; [exact B|split; [exact C|congruence]]].
    assert (L := nth_lt _ _ _ M). eapply reach_trans; [eapply reach_step with (e := EWork i Ordinary); cbn [step s_mods s_phase s_qs]; rewrite M, W; reflexivity|].
    rewrite put_put in A by exact L. exact A. }
  assert (P : forall (ms : list md) m x, nth_error ms i = Some m -> nth_error (put ms i x) i = Some x) by (intros ms m x M; rewrite put_nth, Nat.eqb_refl by exact (nth_lt _ _ _ M); reflexivity).
  assert (KEnd : forall ms m, nth_error ms i = Some m -> m_isrv m = false -> m_wk m = WEnd -> exists m', reach (mk_st p ms qs) (mk_st p (put ms i m') qs) /\ m_isrv m' = false /\ m_wk m' = WEnd /\ m_sw m' = m_sw m).
  { intros ms m M F W. exists m. rewrite (put_same _ ms m M). split; [apply reach_refl|auto]. }
  assert (KUnset : forall ms m, nth_error ms i = Some m -> m_isrv m = false -> m_wk m = WUnset -> exists m', reach (mk_st p ms qs) (mk_st p (put ms i m') qs) /\ m_isrv m' = false /\ m_wk m' = WEnd /\ m_sw m' = m_sw m).
  { intros ms m M F W. eapply Go; [exact M|unfold work; rewrite W; reflexivity| |reflexivity]. apply KEnd; [eapply P; exact M|exact F|reflexivity]. }
  assert (KFree : forall ms m, nth_error ms i = Some m -> m_isrv m = false -> m_wk m = WFree -> exists m', reach (mk_st p ms qs) (mk_st p (put ms i m') qs) /\ m_isrv m' = false /\ m_wk m' = WEnd /\ m_sw m' = m_sw m).
  { intros ms m M F W. eapply Go; [exact M|unfold work; rewrite W; reflexivity| |reflexivity]. apply KUnset; [eapply P; exact M|exact F|reflexivity]. }
  assert (KStop : forall ms m, nth_error ms i = Some m -> m_isrv m = false -> m_wk m = WStop -> exists m', reach (mk_st p ms qs) (mk_st p (put ms i m') qs) /\ m_isrv m' = false /\ m_wk m' = WEnd /\ m_sw m' = m_sw m).
  { intros ms m M F W. eapply Go; [exact M|unfold work; rewrite W; reflexivity| |reflexivity]. apply KFree; [eapply P; exact M|reflexivity|reflexivity]. }
  assert (KHead : forall ms m, nth_error ms i = Some m -> m_isrv m = false -> m_wk m = WHead -> exists m', reach (mk_st p ms qs) (mk_st p (put ms i m') qs) /\ m_isrv m' = false /\ m_wk m' = WEnd /\ m_sw m' = m_sw m).
  { intros ms m M F W. eapply Go; [exact M|unfold work; rewrite W, F; reflexivity| |reflexivity]. apply KStop; [eapply P; exact M|reflexivity|reflexivity]. }
  intros ms m M F. destruct (m_wk m) eqn:W; auto.
  eapply Go; [exact M|unfold work; rewrite W; reflexivity| |reflexivity]. apply KHead; [eapply P; exact M|exact F|reflexivity].
Qed.
Lemma sweeps p qs i : forall ms m, nth_error ms i = Some m -> m_isrv m = false -> m_wh m = false ->
  exists m', reach (mk_st p ms qs) (mk_st p (put ms i m') qs) /\ m_isrv m' = false /\ m_wk m' = m_wk m /\ m_sw m' = SEnd.
Proof.
  assert (Go : forall ms m a b m1, nth_error ms i = Some m -> sweep i m = Some (a, b, m1) -> (exists m', reach (mk_st p (put ms i m1) qs) (mk_st p (put (put ms i m1) i m') qs) /\ m_isrv m' = false /\ m_wk m' = m_wk m1 /\ m_sw m' = SEnd) -> m_wk m1 = m_wk m ->
    exists m', reach (mk_st p ms qs) (mk_st p (put ms i m') qs) /\ m_isrv m' = false /\ m_wk m' = m_wk m /\ m_sw m' = SEnd).
  { intros ms m a b m1 M W (m' & A & B & C & D) S. exists m'. split; [|split; [exact B|split; [congruence|exact D]]].
    assert (L := nth_lt _ _ _ M). eapply reach_trans; [eapply reach_step with (e := ESweep i); cbn [step s_mods s_phase s_qs]; rewrite M, W; reflexivity|]. rewrite put_put in A by exact L. exact A. }
  assert (P : forall (ms : list md) m x, nth_error ms i = Some m -> nth_error (put ms i x) i = Some x) by (intros ms m x M; rewrite put_nth, Nat.eqb_refl by exact (nth_lt _ _ _ M); reflexivity).
  assert (KEnd : forall ms m, nth_error ms i = Some m -> m_isrv m = false -> m_wh m = false -> m_sw m = SEnd -> exists m', reach (mk_st p ms qs) (mk_st p (put ms i m') qs) /\ m_isrv m' = false /\ m_wk m' = m_wk m /\ m_sw m' = SEnd).
  { intros ms m M F G W. exists m. rewrite (put_same _ ms m M). split; [apply reach_refl|auto]. }
  assert (KUnset : forall ms m, nth_error ms i = Some m -> m_isrv m = false -> m_wh m = false -> m_sw m = SUnset -> exists m', reach (mk_st p ms qs) (mk_st p (put ms i m') qs) /\ m_isrv m' = false /\ m_wk m' = m_wk m /\ m_sw m' = SEnd).
  { intros ms m M F G W. eapply Go; [exact M|unfold sweep; rewrite W; reflexivity| |reflexivity]. apply KEnd; [eapply P; exact M|exact F|exact G|reflexivity]. }
  assert (KFree : forall ms m, nth_error ms i = Some m -> m_isrv m = false -> m_wh m = false -> m_sw m = SFree -> exists m', reach (mk_st p ms qs) (mk_st p (put ms i m') qs) /\ m_isrv m' = false /\ m_wk m' = m_wk m /\ m_sw m' = SEnd).
  { intros ms m M F G W. eapply Go; [exact M|unfold sweep; rewrite W; reflexivity| |reflexivity]. apply KUnset; [eapply P; exact M|exact F|exact G|reflexivity]. }
  assert (KHead2 : forall ms m, nth_error ms i = Some m -> m_isrv m = false -> m_wh m = false -> m_sw m = SHead2 -> exists m', reach (mk_st p ms qs) (mk_st p (put ms i m') qs) /\ m_isrv m' = false /\ m_wk m' = m_wk m /\ m_sw m' = SEnd).
  { intros ms m M F G W. eapply Go; [exact M|unfold sweep; rewrite W, G; reflexivity| |reflexivity]. apply KFree; [eapply P; exact M|exact F|reflexivity|reflexivity]. }
  assert (KHead : forall ms m, nth_error ms i = Some m -> m_isrv m = false -> m_wh m = false -> m_sw m = SHead -> exists m', reach (mk_st p ms qs) (mk_st p (put ms i m') qs) /\ m_isrv m' = false /\ m_wk m' = m_wk m /\ m_sw m' = SEnd).
  { intros ms m M F G W. eapply Go; [exact M|unfold sweep; rewrite W, F; reflexivity| |reflexivity]. apply KHead2; [eapply P; exact M|reflexivity|exact G|reflexivity]. }
  intros ms m M F G. destruct (m_sw m) eqn:W; auto.
  eapply Go; [exact M|unfold sweep; rewrite W; reflexivity| |reflexivity]. apply KHead; [eapply P; exact M|exact F|exact G|reflexivity].
Qed.
Lemma all_end k : forall tr p ms qs, inv tr (mk_st p ms qs) -> told ms (length ms) -> (k <= length ms)%nat -> upto ms (length ms - k) ->
  exists ms', reach (mk_st p ms qs) (mk_st p ms' qs) /\ length ms' = length ms /\ forall j m, nth_error ms' j = Some m -> dead m.
Proof.
  induction k as [|k IH]; intros tr p ms qs I0 T K U.
  - exists ms. split; [apply reach_refl|split; [reflexivity|]]. intros j m X. apply (U j m); [rewrite Nat.sub_0_r; exact (nth_lt _ _ _ X)|exact X].
  - set (i := (length ms - S k)%nat). destruct (nth_error ms i) as [m|] eqn:M; [|apply nth_error_None in M; unfold i in M; lia]. assert (L := nth_lt _ _ _ M).
    destruct (works p qs i ms m M (T i m L M)) as (m1 & R1 & F1 & W1 & S1). destruct (reach_inv _ _ _ I0 R1) as (t1 & I1).
    assert (M1 : nth_error (put ms i m1) i = Some m1) by (rewrite put_nth, Nat.eqb_refl by exact L; reflexivity).
    destruct (i_mods _ _ I1 i m1 M1) as ((J1 & _) & _). rewrite W1 in J1.
    destruct (sweeps p qs i (put ms i m1) m1 M1 F1 J1) as (m2 & R2 & F2 & W2 & S2). rewrite put_put in R2 by exact L. assert (R := reach_trans _ _ _ R1 R2). destruct (reach_inv _ _ _ I0 R) as (t2 & I2).
    destruct (IH t2 p (put ms i m2) qs I2) as (ms' & A & B & C).
    + rewrite put_length by exact L. intros j x Hj X. rewrite put_nth in X by exact L. destruct (Nat.eqb_spec j i); [injection X as <-; exact F2|exact (T j x Hj X)].
    + rewrite put_length by exact L. lia.
    + rewrite put_length by exact L. intros j x Hj X. rewrite put_nth in X by exact L. destruct (Nat.eqb_spec j i); [injection X as <-; split; [congruence|exact S2]|]. apply (U j x); [unfold i in *; lia|exact X].
    + exists ms'. split; [eapply reach_trans; eassumption|]. rewrite put_length in B by exact L. auto.
Qed.
Lemma dead_scan k : forall tr ms qs i, inv tr (mk_st (POld (CSet i false)) ms qs) -> (length ms - i <= k)%nat -> (i <= length ms)%nat -> (forall j m, nth_error ms j = Some m -> dead m) ->
  exists ms', reach (mk_st (POld (CSet i false)) ms qs) (mk_st (POld CFree) ms' qs).
Proof.
  induction k as [|k IH]; intros tr ms qs i I0 Hk Hi D.
  - exists ms. eapply reach_step with (e := EClean). cbn [step s_phase s_mods s_qs clean]. rewrite (proj2 (nth_error_None ms i)) by lia. reflexivity.
  - destruct (nth_error ms i) as [m|] eqn:M.
    2:{ exists ms. eapply reach_step with (e := EClean). cbn [step s_phase s_mods s_qs clean]. rewrite M. reflexivity. }
    assert (L := nth_lt _ _ _ M). set (m' := mk_md (m_udp m) (m_named m) false (m_wk m) (m_sw m) (m_wh m) (m_sh m) (m_addrs m) (m_ctx m)). set (ms1 := put ms i m').
    assert (M1 : nth_error ms1 i = Some m') by (unfold ms1; rewrite put_nth, Nat.eqb_refl by exact L; reflexivity).
    destruct (i_mods _ _ I0 i m M) as ((J1 & J2 & J3 & J4) & _). destruct (D i m M) as (D1 & D2). rewrite D1 in J1.
    assert (J5 : m_udp m = true -> m_sh m = false) by (intros U; rewrite U in J4; destruct J4 as (J4 & _); rewrite D2 in J4; exact J4).
    assert (R : reach (mk_st (POld (CSet i false)) ms qs) (mk_st (POld (CSet (S i) false)) ms1 qs)).
    { assert (R1 : reach (mk_st (POld (CSet i false)) ms qs) (mk_st (POld (CWork i false)) ms1 qs)) by (eapply reach_step with (e := EClean); cbn [step s_phase s_mods s_qs clean]; rewrite M; reflexivity).
      assert (Um : m_udp m' = m_udp m) by reflexivity. assert (Wm : m_wh m' = m_wh m) by reflexivity. assert (Sm : m_sh m' = m_sh m) by reflexivity. clearbody ms1 m'. destruct (m_udp m) eqn:U.
      - assert (R2 : reach (mk_st (POld (CWork i false)) ms1 qs) (mk_st (POld (CSweep i false)) ms1 qs)) by (eapply reach_step with (e := EClean); cbn [step s_phase s_mods s_qs clean]; rewrite M1; rewrite Um, Wm, J1; reflexivity).
        eapply reach_trans; [exact R1|]. eapply reach_trans; [exact R2|]. eapply reach_step with (e := EClean). cbn [step s_phase s_mods s_qs clean]. rewrite M1. rewrite Sm, (J5 eq_refl). reflexivity.
      - eapply reach_trans; [exact R1|]. eapply reach_step with (e := EClean). cbn [step s_phase s_mods s_qs clean]. rewrite M1. rewrite Um, Wm, J1. reflexivity. }
    destruct (reach_inv _ _ _ I0 R) as (t1 & I1).
    assert (L1 : length ms1 = length ms) by (unfold ms1; apply put_length; exact L).
    destruct (IH t1 ms1 qs (S i) I1) as (ms' & A); [lia|lia| |].
    { intros j x X. unfold ms1 in X. rewrite put_nth in X by exact L. destruct (Nat.eqb_spec j i); [injection X as <-; exact (D i m M)|exact (D j x X)]. }
    exists ms'. eapply reach_trans; eassumption.
Qed.
(** From the beginning of a pass over the groups. *)
Lemma pass_ends tr ms qs : inv tr (mk_st (POld (CSet 0 false)) ms qs) -> exists ms', reach (mk_st (POld (CSet 0 false)) ms qs) (mk_st (POld CFree) ms' qs).
Proof.
  intros I0. destruct (scan (length ms) ms qs 0 false) as (c & ms1 & R & [->| ->] & L & T & _); [lia|lia| |eexists; exact R].
  destruct (reach_inv _ _ _ I0 R) as (t1 & I1). assert (T1 : told ms1 (length ms1)) by (apply T; intros j m Hj; lia).
  destruct (all_end (length ms1) t1 _ ms1 qs I1 T1) as (ms2 & R2 & L2 & D2); [lia|intros j m Hj; lia|]. destruct (reach_inv _ _ _ I1 R2) as (t2 & I2).
  assert (R3 : reach (mk_st (POld CPause) ms2 qs) (mk_st (POld (CSet 0 false)) ms2 qs)) by (eapply reach_step with (e := EClean); reflexivity).
  destruct (reach_inv _ _ _ I2 R3) as (t3 & I3). destruct (dead_scan (length ms2) t3 ms2 qs 0 I3) as (ms4 & R4); [lia|lia|exact D2|].
  exists ms4. eapply reach_trans; [exact R|]. eapply reach_trans; [exact R2|]. eapply reach_trans; eassumption.
Qed.
Lemma old_ends tr c ms qs : inv tr (mk_st (POld c) ms qs) -> exists ms', reach (mk_st (POld c) ms qs) (mk_st (POld CFree) ms' qs).
Proof.
  intros I0.
  assert (Pause : forall t ms, inv t (mk_st (POld CPause) ms qs) -> exists ms', reach (mk_st (POld CPause) ms qs) (mk_st (POld CFree) ms' qs)).
  { intros t x I1. assert (R : reach (mk_st (POld CPause) x qs) (mk_st (POld (CSet 0 false)) x qs)) by (eapply reach_step with (e := EClean); reflexivity).
    destruct (reach_inv _ _ _ I1 R) as (t2 & I2). destruct (pass_ends _ _ _ I2) as (y & R2). exists y. eapply reach_trans; eassumption. }
  assert (Set_ : forall i u t ms, inv t (mk_st (POld (CSet i u)) ms qs) -> exists ms', reach (mk_st (POld (CSet i u)) ms qs) (mk_st (POld CFree) ms' qs)).
  { intros i u t x I1. destruct (Nat.le_gt_cases i (length x)) as [L|L].
    - destruct (scan (length x) x qs i u) as (c' & x1 & R & [->| ->] & _); [lia|lia| |exists x1; exact R]. destruct (reach_inv _ _ _ I1 R) as (t2 & I2). destruct (Pause _ _ I2) as (y & R2). exists y. eapply reach_trans; eassumption.
    - assert (R : reach (mk_st (POld (CSet i u)) x qs) (mk_st (POld (if u then CPause else CFree)) x qs)) by (eapply reach_step with (e := EClean); cbn [step s_phase s_mods s_qs clean]; rewrite (proj2 (nth_error_None x i)) by lia; reflexivity).
      destruct u; [|exists x; exact R]. destruct (reach_inv _ _ _ I1 R) as (t2 & I2). destruct (Pause _ _ I2) as (y & R2). exists y. eapply reach_trans; eassumption. }
  assert (Sweep_ : forall i u t ms, inv t (mk_st (POld (CSweep i u)) ms qs) -> exists ms', reach (mk_st (POld (CSweep i u)) ms qs) (mk_st (POld CFree) ms' qs)).
  { intros i u t x I1. pose proof (i_phase _ _ I1) as (_ & C & _). cbn [s_mods] in C. destruct (nth_error x i) as [m|] eqn:M; [|apply nth_error_None in M; lia].
    assert (R : reach (mk_st (POld (CSweep i u)) x qs) (mk_st (POld (CSet (S i) (u || m_sh m))) x qs)) by (eapply reach_step with (e := EClean); cbn [step s_phase s_mods s_qs clean]; rewrite M; reflexivity).
    destruct (reach_inv _ _ _ I1 R) as (t2 & I2). destruct (Set_ _ _ _ _ I2) as (y & R2). exists y. eapply reach_trans; eassumption. }
  destruct c as [|i u|i u|i u| |].
  - assert (R : reach (mk_st (POld CNew) ms qs) (mk_st (POld (CSet 0 false)) ms qs)) by (eapply reach_step with (e := EClean); reflexivity).
    destruct (reach_inv _ _ _ I0 R) as (t2 & I2). destruct (pass_ends _ _ _ I2) as (y & R2). exists y. eapply reach_trans; eassumption.
  - eapply Set_. exact I0.
  - pose proof (i_phase _ _ I0) as (_ & C & _). cbn [s_mods] in C. destruct (nth_error ms i) as [m|] eqn:M; [|apply nth_error_None in M; lia].
    assert (R : reach (mk_st (POld (CWork i u)) ms qs) (mk_st (POld (if m_udp m then CSweep i (u || m_wh m) else CSet (S i) (u || m_wh m))) ms qs)) by (eapply reach_step with (e := EClean); cbn [step s_phase s_mods s_qs clean]; rewrite M; reflexivity).
    destruct (reach_inv _ _ _ I0 R) as (t2 & I2). destruct (m_udp m); [destruct (Sweep_ _ _ _ _ I2) as (y & R2)|destruct (Set_ _ _ _ _ I2) as (y & R2)]; exists y; eapply reach_trans; eassumption.
  - eapply Sweep_. exact I0.
  - eapply Pause. exact I0.
  - exists ms. apply reach_refl.
Qed.
Lemma replaced n es : forall tr s, run (st0 n) es = Some (tr, s) -> In Replace (map fst tr) -> match s_phase s with POld _ => True | PGone => In Drop (map fst tr) | _ => False end.
Proof.
  induction es as [|e es IH] using rev_ind; intros tr s H.
  - injection H as <- <-. intros [].
  - intros R. pose proof (proj1 (run_inv _ _ _ _ H)) as I0. rewrite run_app in H. destruct (run (st0 n) es) as [[t1 s1]|] eqn:R1; [|discriminate H]. cbn [run] in H. destruct (step s1 e) as [[[a b] s2]|] eqn:E; [|discriminate H]. injection H as <- <-.
    pose proof (i_phase _ _ I0) as IP. destruct (s_phase s2) eqn:P2; try (destruct IP as (NR & _); exact (NR R)); [exact I|]. rewrite snoc_in in *. specialize (IH t1 s1 eq_refl).
    pose proof (i_phase _ _ (proj1 (run_inv _ _ _ _ R1))) as IP1.
    assert (K : s_phase s1 = PGone \/ a = Drop \/ (s_phase s1 = PBuild /\ a = Fail)).
    { destruct e as [u f| | |j h|j|q j|q| |]; cbn [step] in E.
      - destruct (s_phase s1); try discriminate E. injection E as _ _ <-. discriminate P2.
      - destruct (s_phase s1); try discriminate E. injection E as _ _ <-. discriminate P2.
      - destruct (s_phase s1); try discriminate E. injection E as <- _ _. auto.
      - destruct (nth_error (s_mods s1) j) as [x|]; try discriminate E. destruct (work j h x) as [[[a1 b1] x1]|]; try discriminate E. injection E as _ _ <-. auto.
      - destruct (nth_error (s_mods s1) j) as [x|]; try discriminate E. destruct (sweep j x) as [[[a1 b1] x1]|]; try discriminate E. injection E as _ _ <-. auto.
      - destruct (s_phase s1); try discriminate E. destruct (nth_error (s_qs s1) q) as [[x|]|]; try discriminate E. destruct (nth_error (s_mods s1) j); try discriminate E. injection E as _ _ <-. discriminate P2.
      - destruct (nth_error (s_qs s1) q) as [[x|]|]; try discriminate E. destruct (nth_error (s_mods s1) x); try discriminate E. injection E as _ _ <-. auto.
      - destruct (s_phase s1); try discriminate E. destruct (idle (s_qs s1)); try discriminate E. injection E as _ _ <-. discriminate P2.
      - destruct (s_phase s1) as [| |c|]; try discriminate E. destruct c; try (injection E as <- _ _; auto; fail); destruct (clean _ (s_mods s1)); injection E as _ _ <-; discriminate P2. }
    destruct K as [K|[K|(K & K2)]]; [|right; exact K|].
    + rewrite K in IH, IP1. destruct R as [R|R]; [left; exact (IH R)|]. subst a.
      destruct e as [u f| | |j h|j|q j|q| |]; cbn [step] in E; rewrite ?K in E; try discriminate E.
      * destruct (nth_error (s_mods s1) j) as [x|]; try discriminate E. unfold work in E. destruct (m_wk x); try discriminate E. destruct h; discriminate E.
      * destruct (nth_error (s_mods s1) j) as [x|]; try discriminate E. unfold sweep in E. destruct (m_sw x); discriminate E.
      * destruct (nth_error (s_qs s1) q) as [[x|]|]; try discriminate E. destruct (nth_error (s_mods s1) x); discriminate E.
    + rewrite K in IP1. destruct IP1 as (NR & _). destruct R as [R|R]; [destruct (NR R)|congruence].
Qed.
