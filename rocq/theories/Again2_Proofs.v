(** For C83: what the cache holds after a response, whatever happened before and whatever concerns other names happens afterwards. *)
From Verif Require Import Base BaseFacts ListFacts List2Facts Hash_Model Sht_Model Name_Spec Cht_Model Cht_Inv Cache_Model Cache_Spec Cache_Proofs Cache2_Proofs Cache3_Proofs Cache4_Proofs Cache_Props
  Alias_Spec Alias_Props Rdata_Model Parser_Spec Rdata_Spec Rdata_Props Fetch_Spec Again_Spec Again_Proofs.
Require Import ZifyBool ZifyNat.
Import Cache_Model.

Definition is_add (o : op) : bool := match o with OAdd _ _ _ => true | OSweep _ => false end.
Definition adds (ops : list op) : nat := length (filter is_add ops).
Lemma adds_app a b : adds (a ++ b) = (adds a + adds b)%nat.
Proof. unfold adds. rewrite filter_app, app_length. reflexivity. Qed.
Lemma events_ops2 raw ignore parallel get es : Forall event_ok es -> exists ops f0,
  Forall (from_event parallel get es) ops /\ map op_time ops = flat_map (event_times parallel) es /\ adds ops = received parallel es /\ (forall t, In (OSweep t) ops -> In (Swept t) es) /\
  forall nf fuel c, (f0 <= nf)%nat -> (f0 <= fuel)%nat -> do_events raw ignore parallel get nf fuel c es = run raw ignore parallel get c ops.
Proof.
  induction es as [|e es IH]; intros HF; [exists [], 0%nat; split; [constructor|]; split; [reflexivity|]; split; [reflexivity|]; split; [intros t []|reflexivity]|]. inversion_clear HF as [|? ? He HF'].
  destruct (IH HF') as (ops & f1 & I1 & I2 & I4 & I5 & I3).
  assert (HE : exists ops1 f2, Forall (from_event parallel get [e]) ops1 /\ map op_time ops1 = event_times parallel e /\ adds ops1 = received parallel [e] /\ (forall t, In (OSweep t) ops1 -> In (Swept t) [e]) /\
     forall nf fuel c, (f2 <= nf)%nat -> (f2 <= fuel)%nat -> do_event raw ignore parallel get nf fuel c e = run raw ignore parallel get c ops1).
  { destruct e as [p|now].
    - cbn [event_ok] in He. pose proof He as (_ & _ & (recs & HR) & _). destruct (C61_stored_partial raw ignore parallel get _ recs p He eq_refl HR) as (f0 & H). cbn [event_times].
      destruct (p_first p || parallel) eqn:E.
      + eexists _, f0. split; [|split; [|split; [|split; [|exact H]]]].
        * apply Forall_forall. intros o Ho. apply in_map_iff in Ho. destruct Ho as ([[[z off] r] rec] & <- & Hi). cbn [from_event fst snd]. exists p, z, off, r. split; [now left|]. split; [exact E|].
          split; [exact (in_combine_l _ _ _ _ Hi)|]. split; [|auto]. clear - HR Hi. revert Hi. induction HR as [|x y l l' Hxy HR IHR]; cbn [combine In]; [tauto|]. intros [Eq|Hi]; [|auto].
          assert (x = (z, off, r) /\ y = rec) as (-> & ->) by (split; congruence). exact Hxy.
        * rewrite map_map. cbn [op_time]. clear - HR. induction HR as [|x y l l' Hxy HR IHR]; cbn [combine map fst]; [reflexivity|]. now rewrite IHR.
        * unfold received. cbn [map list_sum fold_right]. rewrite E. clear - HR. induction HR as [|x y l l' Hxy HR IHR]; cbn [combine map length]; [reflexivity|].
          unfold adds in *. cbn [filter is_add length]. rewrite IHR. lia.
        * intros t Ht. apply in_map_iff in Ht. destruct Ht as (x & X & _). discriminate.
      + exists [], f0. split; [constructor|]. split; [reflexivity|]. split; [|split; [intros t []|exact H]]. unfold received. cbn [map list_sum fold_right]. rewrite E. reflexivity.
    - exists [OSweep now], 0%nat. split; [repeat constructor|]. split; [reflexivity|]. split; [reflexivity|]. split; [intros t [X|[]]; injection X as ->; now left|]. intros nf fuel c _ _. cbn [do_event run run_op]. destruct (cache_sweep c now); reflexivity. }
  destruct HE as (ops1 & f2 & E1 & E2 & E4 & E5 & E3). exists (ops1 ++ ops), (Nat.max f1 f2). split; [|split; [|split; [|split]]].
  - apply Forall_app. split; [|eapply Forall_impl; [intros o; apply from_event_cons|exact I1]]. eapply Forall_impl; [|exact E1]. intros o. destruct o as [inf rec t|]; cbn [from_event]; [|auto].
    intros (p & z & off & r0 & [H|[]] & H'). exists p, z, off, r0. split; [now left|exact H'].
  - rewrite map_app, E2, I2. reflexivity.
  - rewrite adds_app, E4, I4. unfold received, list_sum. cbn [map fold_right]. lia.
  - intros t Ht. apply in_app_or in Ht. destruct Ht as [Ht|Ht]; [destruct (E5 t Ht) as [X|[]]; left; exact X|right; exact (I5 t Ht)].
  - intros nf fuel c Hn Hf. cbn [do_events]. rewrite (E3 nf fuel c ltac:(lia) ltac:(lia)), run_app'. destruct (run raw ignore parallel get c ops1); cbn [bind]; [apply I3; lia|reflexivity..].
Qed.
Lemma do_events_app raw ignore parallel get nf fuel es es' : forall c, do_events raw ignore parallel get nf fuel c (es ++ es') = let! c' := do_events raw ignore parallel get nf fuel c es in do_events raw ignore parallel get nf fuel c' es'.
Proof. induction es as [|e es IH]; intros c; cbn [app do_events bind]; [reflexivity|]. destruct (do_event _ _ _ _ _ _ _ _); cbn [bind]; auto. Qed.
Lemma a_run_app ignore parallel get ops ops' : forall A A1 A2, a_run ignore parallel get A ops A1 -> a_run ignore parallel get A1 ops' A2 -> a_run ignore parallel get A (ops ++ ops') A2.
Proof. induction ops as [|o ops IH]; intros A A1 A2 H H'; inversion H; subst; cbn [app]; [exact H'|econstructor; eauto..]. Qed.

Section Room.
Context (raw : list Z -> list cnode -> nat -> Z) (ignore parallel : bool) (get : list Z -> option ctrl).
Lemma run_small ops : forall k c c', small k c -> run raw ignore parallel get c ops = Ret c' -> small (k + adds ops) c'.
Proof.
  induction ops as [|o ops IH]; intros k c c' Hs E; cbn [run] in E.
  - injection E as <-. unfold adds. cbn [filter length]. now rewrite Nat.add_0_r.
  - destruct (run_op raw ignore parallel get c o) as [c1| | |] eqn:E1; cbn [bind] in E; [|discriminate..]. destruct o as [inf r t|t]; cbn [run_op] in E1.
    + destruct (add_item _ _ _ _ _ _ _ _) as [(code, c2)| | |] eqn:E2; cbn [bind snd] in E1; [|discriminate..]. injection E1 as <-. pose proof (small_add raw ignore parallel get k c inf r t code c2 Hs E2) as H1.
      pose proof (IH _ _ _ H1 E) as H2. unfold adds in *. cbn [filter is_add length]. replace (k + S (length (filter is_add ops)))%nat with (S k + length (filter is_add ops))%nat by lia. exact H2.
    + exact (IH _ _ _ (small_sweep _ _ _ _ Hs E1) E).
Qed.
Lemma small_start k c : small k c -> (start (c_nodes c) <= 128 + 512 * k)%nat.
Proof.
  intros (H1 & H2). unfold start, header_size. enough (list_sum (map n_len (c_nodes c)) <= 512 * length (c_nodes c))%nat by lia.
  clear H1. induction H2 as [|n l Hn Hl IH]; cbn [map list_sum fold_right length]; [lia|]. unfold list_sum in IH. lia.
Qed.

Definition to_entry (inf : option ctrl) (x : crec * Z) : entry :=
  let r := fst x in mk_entry (r_name r) (r_type r) (r_class r) (r_data r) (lifetime (choose_rule get inf (triplet (r_name r) (r_type r) (r_class r))) (r_ttl r)) (snd x).
Definition add_of (inf : option ctrl) (x : crec * Z) : op := OAdd inf (fst x) (snd x).
Lemma level_same inf r t l A : (forall e x, In e A -> In x ((r, t) :: l) -> mates ignore (fst x) (snd x) e = true ->
    (~ prefix (r_data (fst x)) (e_data e) /\ ~ prefix (e_data e) (r_data (fst x))) /\ (parallel = true -> e_ttl e = e_ttl (to_entry inf x) /\ e_time e = snd x)) -> rec_ok r ->
  let life := lifetime (choose_rule get inf (triplet (r_name r) (r_type r) (r_class r))) (r_ttl r) in
  mk_entry (r_name r) (r_type r) (r_class r) (r_data r) (a_min ignore parallel A r t life) t :: a_level ignore parallel A r t (a_min ignore parallel A r t life) = to_entry inf (r, t) :: A.
Proof.
  intros Hno Hr life. assert (Hm : forall e, In e A -> mates ignore r t e = true -> parallel = true -> e_ttl e = life /\ e_time e = t) by (intros e He Hm Hp; exact (proj2 (Hno e (r, t) He (or_introl eq_refl) Hm) Hp)).
  pose proof (lifetime_range (choose_rule get inf (triplet (r_name r) (r_type r) (r_class r))) (r_ttl r) ltac:(apply Hr)) as Hl. fold life in Hl. clear Hno.
  assert (Et : a_min ignore parallel A r t life = life).
  { unfold a_min. destruct parallel; [|reflexivity]. specialize (fun e a b => Hm e a b eq_refl). clear - Hm Hl. induction A as [|e A IH]; [reflexivity|]. cbn [filter]. destruct (mates ignore r t e) eqn:E.
    - cbn [map fold_left]. destruct (Hm e (or_introl eq_refl) E) as (-> & ->). replace (life - (t - t)) with life by lia. unfold u32. rewrite Z.mod_small by exact Hl. rewrite Z.min_id. apply IH. intros; apply Hm; [now right|assumption].
    - apply IH. intros; apply Hm; [now right|assumption]. }
  rewrite Et. unfold to_entry. cbn [fst snd]. fold life. f_equal. unfold a_level. destruct parallel; [|reflexivity]. specialize (fun e a b => Hm e a b eq_refl). clear - Hm. induction A as [|e A IH]; [reflexivity|]. cbn [map]. f_equal.
  - destruct (mates ignore r t e) eqn:E; [|reflexivity]. destruct (Hm e (or_introl eq_refl) E) as (<- & <-). destruct e; reflexivity.
  - apply IH. intros; apply Hm; [now right|assumption].
Qed.
Lemma adds_stored inf (l : list (crec * Z)) : forall c A k, rep c A -> small k c -> (128 <= length (c_slots c))%nat ->
  (128 + 544 * (k + length l) + 4 * length (c_slots c) <= c_size c)%nat ->
  Forall (fun x => rec_ok (fst x) /\ storable (fst x) /\ e_ttl (to_entry inf x) <> 0) l ->
  (forall e x, In e A -> In x l -> mates ignore (fst x) (snd x) e = true -> (~ prefix (r_data (fst x)) (e_data e) /\ ~ prefix (e_data e) (r_data (fst x))) /\ (parallel = true -> e_ttl e = e_ttl (to_entry inf x) /\ e_time e = snd x)) ->
  ForallOrdPairs (fun x y => unlike (fst x) (fst y)) l ->
  (parallel = true -> forall x y, In x l -> In y l -> r_name (fst x) = r_name (fst y) -> r_type (fst x) = r_type (fst y) -> r_class (fst x) = r_class (fst y) ->
     e_ttl (to_entry inf x) = e_ttl (to_entry inf y) /\ snd x = snd y) ->
  exists c', run raw ignore parallel get c (map (add_of inf) l) = Ret c' /\ a_run ignore parallel get A (map (add_of inf) l) (rev (map (to_entry inf) l) ++ A) /\ rep c' (rev (map (to_entry inf) l) ++ A) /\
    c_size c' = c_size c /\ length (c_slots c') = length (c_slots c).
Proof.
  induction l as [|(r, t) l IH]; intros c A k Hrep Hsm Hsl Hroom HF Hno Hun Hlev.
  - exists c. cbn [map run rev app]. split; [reflexivity|]. split; [constructor|]. auto.
  - inversion_clear HF as [|? ? (F1 & F2 & F3) HF']. inversion_clear Hun as [|? ? U1 U2]. cbn [fst snd length] in *. cbn [map run run_op add_of fst snd].
    destruct (add_ok raw ignore parallel get c A inf r t Hrep F1) as [(_ & X & _)|(code & c1 & A1 & E & Ha & H1 & S1 & S2 & S3)]; [unfold slot_size in X; lia|]. rewrite E. cbn [bind snd].
    assert (EA : A1 = to_entry inf (r, t) :: A).
    { destruct Ha as [code Hb _|e H0 He Hm Hp|H0 H0' Hz|H0 H0' Hz|H0 H0' Hz]; [contradiction| | | |].
      - destruct (Hno e (r, t) He (or_introl eq_refl) Hm) as ((N1 & N2) & _). cbn [fst] in *. tauto.
      - exfalso. apply F3. exact Hz.
      - exfalso. apply (S3 eq_refl F2). unfold has_room. rewrite (r_end _ _ Hrep). pose proof (small_start _ _ Hsm). destruct F2 as (_ & F2).
        pose proof (round16_512 (1 + length (triplet (r_name r) (r_type r) (r_class r) ++ 0%Z :: r_data r)) ltac:(rewrite app_length; cbn [length]; lia)) as R. destruct Hsm as (Hsm & _). unfold node_size, slot_size. lia.
      - exact (level_same _ _ _ _ _ Hno F1). }
    subst A1. pose proof (small_add raw ignore parallel get k c inf r t code c1 Hsm E) as Hsm1.
    destruct (IH c1 (to_entry inf (r, t) :: A) (S k) H1 Hsm1 ltac:(lia) ltac:(lia) HF') as (c' & E' & R' & P' & T1 & T2).
    + intros e y [<-|He] Hx Hm; [|exact (Hno e y He (or_intror Hx) Hm)]. unfold mates in Hm. apply andb_true_iff in Hm. destruct Hm as (Hm & _). apply same_key_iff in Hm. cbn [to_entry e_name e_type e_class e_data fst] in *.
      rewrite Forall_forall in U1. destruct Hm as (M1 & M2 & M3). destruct (U1 y Hx M1 M2 M3). split; [auto|]. intros Hp. destruct (Hlev Hp (r, t) y (or_introl eq_refl) (or_intror Hx) M1 M2 M3) as (X1 & X2). cbn [snd to_entry e_ttl e_time fst] in *. auto.
    + exact U2.
    + intros Hp x1 y1 Hx Hy. exact (Hlev Hp x1 y1 (or_intror Hx) (or_intror Hy)).
    + exists c'. split; [exact E'|]. cbn [rev]. rewrite <- app_assoc. cbn [app]. split; [|split; [exact P'|split; congruence]]. econstructor; [exact Ha|]. exact R'.
Qed.
End Room.

(** The records of some names, at the time [now]. *)
Section Own.
Context (ignore : bool) (own : entry -> bool).
Definition view (now : Z) (A : list entry) : list entry := filter (fun e => own e && fresh ignore now e) A.
Lemma view_sweep now t A : ignore = false -> t <= now -> Forall (good now) A -> view now (a_sweep A t) = view now A.
Proof.
  intros Hi Ht HA. unfold view, a_sweep. induction HA as [|e A (G1 & G2) HA IH]; [reflexivity|]. cbn [filter]. unfold expired at 1. destruct ((0 <? e_ttl e) && (e_ttl e <=? t - e_time e)) eqn:E; cbn [negb filter].
  - rewrite IH. assert (fresh ignore now e = false) as -> by (unfold fresh; rewrite Hi; cbn [orb]; lia). rewrite andb_false_r. reflexivity.
  - rewrite IH. reflexivity.
Qed.
Lemma view_add parallel get inf r s A A1 code now : (forall e e', e_name e = e_name e' -> own e = own e') -> own (to_entry get inf (r, s)) = false ->
  a_add ignore parallel (lifetime (choose_rule get inf (triplet (r_name r) (r_type r) (r_class r))) (r_ttl r)) A r s code A1 -> view now A1 = view now A.
Proof.
  intros Hname X Ha. destruct Ha as [code Hb ?|e H0 He Hm Hp|H0 H0' Hz|H0 H0' Hz|H0 H0' Hz]; try reflexivity. unfold view. cbn [filter].
  match goal with |- context [own (mk_entry ?a ?b ?c ?d ?e ?f)] => rewrite (Hname (mk_entry a b c d e f) (to_entry get inf (r, s)) eq_refl), X end. cbn [andb]. unfold a_level. destruct parallel; [|reflexivity].
  clear - Hname X. match goal with |- context [mk_entry _ _ _ _ ?x s] => generalize x end. intros tt. induction A as [|e A IHA]; [reflexivity|]. cbn [map filter]. rewrite IHA. destruct (mates ignore r s e) eqn:E; [|reflexivity]. unfold mates in E. apply andb_true_iff in E. destruct E as (E & _).
  apply same_key_iff in E. destruct E as (E & _). match goal with |- context [own (mk_entry ?a ?b ?c ?d ?e ?f)] => rewrite (Hname (mk_entry a b c d e f) (to_entry get inf (r, s)) E), X end. rewrite (Hname e (to_entry get inf (r, s)) E), X. reflexivity.
Qed.
(** Without removals. *)
Lemma view_adds parallel get ops : (forall e e', e_name e = e_name e' -> own e = own e') -> forall A A' now, a_run ignore parallel get A ops A' -> (forall t, ~ In (OSweep t) ops) ->
  (forall inf r s, In (OAdd inf r s) ops -> own (to_entry get inf (r, s)) = false) -> view now A' = view now A.
Proof.
  intros Hname. induction ops as [|o ops IH]; intros A A' now Hr Hs Hn.
  - inversion Hr; subst. reflexivity.
  - inversion Hr as [|? inf r s code A1 ? ? Ha Hr'|? s ? ? Hr']; subst; [|exfalso; apply (Hs s); now left].
    rewrite (IH A1 A' now Hr'); [exact (view_add parallel get inf r s A A1 code now Hname (Hn inf r s (or_introl eq_refl)) Ha)|intros t Ht; apply (Hs t); now right|intros; apply (Hn inf0 r0 s0); now right].
Qed.
Lemma view_run parallel get ops : ignore = false -> (forall e e', e_name e = e_name e' -> own e = own e') -> forall A A' t now, a_run ignore parallel get A ops A' -> Forall op_ok ops -> clock t ops -> last_time t ops <= now -> Forall (good t) A ->
  (forall inf r s, In (OAdd inf r s) ops -> own (to_entry get inf (r, s)) = false) -> view now A' = view now A.
Proof.
  intros Hi Hname. induction ops as [|o ops IH]; intros A A' t now Hr Ho Hc Hl HA Hn.
  - inversion Hr; subst. reflexivity.
  - cbn [clock] in Hc. destruct Hc as (Hc1 & Hc2). inversion_clear Ho as [|? ? Ho1 Ho2]. cbn [last_time fold_left] in Hl. fold (last_time (op_time o) ops) in Hl.
    assert (Hle : forall l u, clock u l -> u <= last_time u l). { clear. induction l as [|o l IHl]; intros u H; cbn [last_time fold_left clock] in *; [lia|]. destruct H as (H & H'). specialize (IHl _ H'). unfold last_time in IHl. lia. }
    specialize (Hle ops (op_time o) Hc2). inversion Hr as [|? inf r s code A1 ? ? Ha Hr'|? s ? ? Hr']; subst o; cbn [op_time] in *.
    + rewrite (IH A1 A' s now Hr' Ho2 Hc2 Hl); [| |intros; apply (Hn inf0 r0 s0); now right].
      * exact (view_add parallel get inf r s A A1 code now Hname (Hn inf r s (or_introl eq_refl)) Ha).
      * refine (add_good _ _ get _ _ _ _ _ _ t Hi Ha _ Hc1 HA). apply lifetime_range. apply Ho1.
    + assert (HA1 : Forall (good s) (a_sweep A s)) by (eapply sweep_good; eauto).
      rewrite (IH _ A' s now Hr' Ho2 Hc2 Hl HA1); [|intros; apply (Hn inf r s0); now right]. apply view_sweep; [exact Hi|lia|]. eapply Forall_impl; [|exact HA]. intros e (G1 & G2). split; [lia|exact G2].
Qed.
Lemma filter_sub {X} (f g : X -> bool) l : (forall x, f x = true -> g x = true) -> filter f (filter g l) = filter f l.
Proof. intros H. induction l as [|x l IH]; [reflexivity|]. cbn [filter]. destruct (g x) eqn:G; cbn [filter]; [now rewrite IH|]. destruct (f x) eqn:F; [specialize (H x F); congruence|exact IH]. Qed.
Lemma find_hd {X} (f : X -> bool) l : find f l = hd_error (filter f l).
Proof. induction l as [|x l IH]; [reflexivity|]. cbn [find filter]. destruct (f x); [reflexivity|exact IH]. Qed.
Definition owned (name : list Z) : Prop := forall e, e_name e = name -> own e = true.
Lemma lookup_view A B name ty now : view now A = view now B -> owned name -> a_lookup ignore A name ty 1 now = a_lookup ignore B name ty 1 now.
Proof.
  intros E Ho. unfold a_lookup. f_equal.
  assert (HS : forall e, same_key name ty 1 e && fresh ignore now e && negb (e_ttl e =? 0) = true -> own e && fresh ignore now e = true).
  { intros e He. rewrite !andb_true_iff in He. destruct He as ((He & Hf) & _). apply same_key_iff in He. rewrite Hf, andb_true_r. exact (Ho e (proj1 He)). }
  rewrite <- (filter_sub _ _ A HS), <- (filter_sub _ _ B HS). unfold view in E. now rewrite E.
Qed.
Lemma alias_view A B name now : view now A = view now B -> owned name -> alias ignore A name now = alias ignore B name now.
Proof.
  intros E Ho. unfold alias. rewrite !find_hd. f_equal.
  assert (HS : forall e, same_key name 5 1 e && fresh ignore now e = true -> own e && fresh ignore now e = true).
  { intros e He. rewrite !andb_true_iff in He. destruct He as (He & Hf). apply same_key_iff in He. rewrite Hf, andb_true_r. exact (Ho e (proj1 He)). }
  rewrite <- (filter_sub _ _ A HS), <- (filter_sub _ _ B HS). unfold view in E. now rewrite E.
Qed.
Lemma answers_view A B ql ty als rs now : view now A = view now B -> (forall e, In e B -> owned (e_name e)) -> rs <> [] -> answers ignore B now ql ty als rs -> answers ignore A now ql ty als rs.
Proof.
  intros E Ho Hne (n' & H1 & H2).
  assert (Hn' : owned (dotted n')).
  { destruct (a_lookup ignore B (dotted n') ty 1 now) as [|v l] eqn:El; [inversion H2; congruence|]. assert (Hv : In v (a_lookup ignore B (dotted n') ty 1 now)) by (rewrite El; now left).
    unfold a_lookup in Hv. apply in_map_iff in Hv. destruct Hv as (e & _ & He). apply filter_In in He. destruct He as (He & Hk). rewrite !andb_true_iff in Hk. destruct Hk as ((Hk & _) & _). apply same_key_iff in Hk.
    rewrite <- (proj1 Hk). exact (Ho e He). }
  exists n'. rewrite (lookup_view A B (dotted n') ty now E Hn'). split; [|exact H2]. destruct (ty =? 5); [exact H1|]. clear H2 Hne.
  induction H1 as [n Ha|n e c rs' n' Ha Hw Hc He Hr IH].
  - apply al_end. rewrite (alias_view A B (dotted n) now E Hn'). exact Ha.
  - apply al_step with (e := e); auto. rewrite (alias_view A B (dotted n) now E); [exact Ha|]. unfold alias in Ha. apply find_some in Ha. destruct Ha as (Hi & Hk). apply andb_true_iff in Hk. destruct Hk as (Hk & _). apply same_key_iff in Hk.
    rewrite <- (proj1 Hk). exact (Ho e Hi).
Qed.
End Own.
