(** C75: the lists of good addresses. *)
From Coq Require Import Permutation.
From Verif Require Import Base BaseFacts ListFacts List2Facts Hash_Model Sht_Model Chunk_Model Chunk_Spec Chunk_Proofs Chunk_Props Ttl_Model Ttl_Spec Ttl_Proofs Addr_Model Addr_Spec Addr_Proofs Alist_Model Alist_Proofs Good_Model Good_Spec.
Require Import ZifyBool ZifyNat.

(** * Reading the configuration *)
Lemma to_int_id v : 0 <= v < 2147483648 -> to_int v = v.
Proof. intros H. unfold to_int. rewrite Z.mod_small; lia. Qed.
Lemma gap_ends g r : gap g -> ends (g ++ r).
Proof. intros H. right. eauto. Qed.
Lemma gap_skip g s : gap g -> skip_space (g ++ s) = skip_space s.
Proof. intros (_ & H). apply skip_spaces. exact H. Qed.
Lemma scan_gap_dec g ds v r : gap g -> decimal ds v -> stops 10 r -> v < 9223372036854775807 -> scan_d (g ++ ds ++ r) = Some (v, r).
Proof.
  intros Hg HD Hr Hv. pose proof (scan_d_ok ds v r HD Hv Hr) as E. unfold scan_d, scan_num in *. rewrite (gap_skip g _ Hg). exact E.
Qed.
Lemma declare_ok n0 st l text : declares l text ->
  good_declare n0 st text = mk_gs (chunk_add (gs_chunk st) (fst l) (Some (length (gs_store st)))) (gs_store st ++ [mk_gi (snd l) []]).
Proof.
  intros (g & ds & Hw & HL & Hg & HD & Hv & ->). unfold good_declare. pose proof (scan_word_ok [] (fst l) 127 (g ++ ds) ltac:(intros c []) Hw HL (gap_ends g ds Hg)) as E. cbn [app] in E. rewrite E.
  pose proof (scan_gap_dec g ds (snd l) [] Hg HD I ltac:(lia)) as E2. rewrite app_nil_r in E2. rewrite E2. rewrite to_int_id by lia. assert (E3 : snd l <=? 0 = false) by lia. rewrite E3. reflexivity.
Qed.
Lemma gap_nondigit g t v r : gap g -> decimal t v -> skip_nondigit (g ++ t ++ r) = t ++ r.
Proof.
  intros (_ & Hg) HD. pose proof (decimal_facts t v HD) as (N & HC & _ & _). induction g as [|c g IH]; cbn [app].
  - destruct t as [|c t]; [contradiction|]. specialize (HC c (or_introl eq_refl)). cbn [app skip_nondigit]. assert (E : is_digit c = true) by (unfold is_digit; lia). rewrite E. reflexivity.
  - cbn [skip_nondigit]. assert (E : is_digit c = false) by (unfold is_digit; pose proof (Hg c (or_introl eq_refl)); lia). rewrite E. apply IH. intros x Hx. apply Hg. right. exact Hx.
Qed.
Lemma dotted_head a t : dotted a t -> exists t0 v r, decimal t0 v /\ t = t0 ++ r /\ ~ In 58 t.
Proof.
  intros (ts & L & _ & HF & ->). assert (HN : ~ In 58 (join 46 ts)).
  { clear L. induction HF as [|t v ts vs Ht HF IH]; [intros []|]. destruct ts as [|u ts]; [cbn [join]; intros X; pose proof (decimal_digit t v _ Ht X); lia|]. change (join 46 (t :: u :: ts)) with (t ++ 46 :: join 46 (u :: ts)). intros X. apply in_app_or in X. destruct X as [X|[X|X]]; [pose proof (decimal_digit t v _ Ht X); lia|discriminate|contradiction]. }
  inversion HF as [|t v ts' vs Ht HF']; subst; [discriminate|]. destruct ts' as [|u ts']; [exists t, v, []; cbn [join] in *; rewrite app_nil_r; auto|]. exists t, v, (46 :: join 46 (u :: ts')). auto.
Qed.
Lemma scan_ok n0 ip0 port0 x text : adds_ip x text -> exists t, dotted (fst (snd x)) t /\ good_scan n0 ip0 port0 text = (fst x, t, snd (snd x)).
Proof.
  intros (g & t & p & Hw & HL & Hg & Ht & HLt & HD & Hv & ->). exists t. split; [exact Ht|]. unfold good_scan. destruct (dotted_head _ t Ht) as (t0 & v & r & Ht0 & Et & HN).
  pose proof (scan_word_ok [] (fst x) 127 (g ++ t ++ 58 :: p) ltac:(intros c []) Hw HL (gap_ends g _ Hg)) as E. cbn [app] in E. rewrite E. clear E.
  assert (E : skip_nondigit (g ++ t ++ 58 :: p) = t ++ 58 :: p) by (rewrite Et, <- app_assoc; apply (gap_nondigit g t0 v); assumption). rewrite E.
  assert (HG : (0 < length g)%nat) by (destruct Hg as (Hg & _); destruct g; [contradiction|cbn [length]; lia]). destruct (Nat.eqb_spec (length (t ++ 58 :: p)) (length (g ++ t ++ 58 :: p))) as [X|_]; [rewrite (app_length g) in X; lia|].
  rewrite take_until_at by assumption. assert (HT : t <> []). { rewrite Et. pose proof (decimal_facts t0 v Ht0) as (N & _). destruct t0; [contradiction|discriminate]. }
  assert (ES : skipn (length t) (t ++ 58 :: p) = 58 :: p) by (rewrite skipn_app, skipn_all, Nat.sub_diag; reflexivity). destruct t as [|c t']; [contradiction|]. rewrite ES. change (58 =? 58) with true. cbv iota.
  pose proof (scan_d_ok p (snd (snd x)) [] HD ltac:(lia) I) as E2. rewrite app_nil_r in E2. rewrite E2. pose proof (decimal_facts _ _ HD) as (_ & _ & _ & H0). rewrite to_int_id by lia. reflexivity.
Qed.

(** * The names *)
Definition rules_from (k : nat) (ls : list (list Z * Z)) : list (list Z * option nat) := combine (map fst ls) (map Some (seq k (length ls))).
Lemma rules_nth ls : forall k i, nth_error (rules_from k ls) i = match nth_error ls i with Some l => Some (fst l, Some (k + i)%nat) | None => None end.
Proof.
  unfold rules_from. induction ls as [|l ls IH]; intros k i; [destruct i; reflexivity|]. cbn [map length seq combine]. destruct i as [|i]; [cbn [nth_error]; rewrite Nat.add_0_r; reflexivity|]. cbn [nth_error]. rewrite IH. destruct (nth_error ls i); [|reflexivity]. do 3 f_equal. lia.
Qed.
Lemma chunk_of_app rs r : @chunk_of nat (rs ++ [r]) = chunk_add (chunk_of rs) (fst r) (snd r).
Proof. unfold chunk_of. rewrite fold_left_app. reflexivity. Qed.
Lemma declares_ok j texts ls : Forall2 declares ls texts -> forall i rs s,
  good_declares j i (mk_gs (chunk_of rs) s) texts = mk_gs (chunk_of (rs ++ rules_from (length s) ls)) (s ++ map (fun l => mk_gi (snd l) []) ls).
Proof.
  induction 1 as [|l text ls texts H HF IH]; intros i rs s; cbn [good_declares].
  - unfold rules_from. cbn [map combine]. rewrite !app_nil_r. reflexivity.
  - rewrite (declare_ok (j i) _ l text H). cbn [gs_chunk gs_store]. change (fst l) with (fst (fst l, Some (length s))) at 1. change (Some (length s)) with (snd (fst l, Some (length s))) at 2. rewrite <- chunk_of_app, IH. rewrite app_length. cbn [length map]. rewrite <- !app_assoc. unfold rules_from. cbn [app length map seq combine]. rewrite Nat.add_1_r. reflexivity.
Qed.
Lemma find_ok ls n : good_names ls ->
  (exists id l, nth_error ls id = Some l /\ fst l = n /\ match_plain (chunk_of (rules_from 0 ls)) n None (fun _ => true) = Ret (Some (Some id))) \/
  (~ In n (map fst ls) /\ match_plain (chunk_of (rules_from 0 ls)) n None (fun _ => true) = Ret None).
Proof.
  intros (HD & HP). destruct (C25_exact (rules_from 0 ls) (fun _ => true) n None ltac:(auto)) as ([d|] & E & HN); rewrite E; cbn [newest_exact] in HN.
  - left. destruct HN as (_ & rs1 & rs2 & ER & _). assert (X : nth_error (rules_from 0 ls) (length rs1) = Some (n, d)) by (rewrite ER, nth_error_app2, Nat.sub_diag by lia; reflexivity).
    rewrite rules_nth in X. destruct (nth_error ls (length rs1)) as [l|] eqn:El; [|discriminate]. exists (length rs1), l. split; [exact El|]. injection X as X1 X2. split; [exact X1|]. rewrite <- X2. reflexivity.
  - right. split; [|reflexivity]. intros X. apply in_map_iff in X. destruct X as (l & <- & Hl). destruct (In_nth_error _ _ Hl) as (i & Hi). assert (Y : In (fst l, Some i) (rules_from 0 ls)) by (apply (nth_error_In _ i); rewrite rules_nth, Hi; reflexivity).
    specialize (HN _ Y eq_refl (HP l Hl)). discriminate.
Qed.
Lemma find_name ls id l : good_names ls -> nth_error ls id = Some l -> match_plain (chunk_of (rules_from 0 ls)) (fst l) None (fun _ => true) = Ret (Some (Some id)).
Proof.
  intros HG Hl. destruct (find_ok ls (fst l) HG) as [(id' & l' & H1 & H2 & E)|(N & _)]; [|exfalso; apply N, in_map, (nth_error_In _ id), Hl].
  assert (id' = id); [|subst; exact E]. destruct HG as (HD & _). apply (proj1 (NoDup_nth_error _) HD); [rewrite map_length; apply nth_error_Some; congruence|]. rewrite !nth_error_map, H1, Hl. cbn [option_map]. congruence.
Qed.

(** * The state: every list holds some addresses *)
Definition gholds (ls : list (list Z * Z)) (M : list Z -> list (list Z * Z)) (st : gstate) : Prop :=
  gs_chunk st = chunk_of (rules_from 0 ls) /\ gs_store st = map (fun l => mk_gi (snd l) (M (fst l))) ls.
Lemma store_upd ls (f g : list Z * Z -> ginfo) id l y : NoDup (map fst ls) -> nth_error ls id = Some l -> (forall l', In l' ls -> fst l' <> fst l -> g l' = f l') -> g l = y ->
  firstn id (map f ls) ++ y :: skipn (S id) (map f ls) = map g ls.
Proof.
  intros HD Hl HO <-. destruct (nth_error_split _ _ Hl) as (l1 & l2 & -> & <-). rewrite map_app in HD. cbn [map] in HD. rewrite !map_app. cbn [map].
  assert (E1 : map g l1 = map f l1). { apply map_ext_in. intros x Hx. apply HO; [apply in_or_app; left; exact Hx|]. intros X. apply (NoDup_remove_2 _ _ _ HD). apply in_or_app. left. rewrite <- X. apply in_map. exact Hx. }
  assert (E2 : map g l2 = map f l2). { apply map_ext_in. intros x Hx. apply HO; [apply in_or_app; right; right; exact Hx|]. intros X. apply (NoDup_remove_2 _ _ _ HD). apply in_or_app. right. rewrite <- X. apply in_map. exact Hx. }
  rewrite E1, E2. rewrite firstn_app, map_length, Nat.sub_diag. cbn [firstn]. rewrite app_nil_r, firstn_all2 by (rewrite map_length; lia). f_equal. f_equal. rewrite skipn_app, map_length. rewrite skipn_all2 by (rewrite map_length; lia). replace (S (length l1) - length l1)%nat with 1%nat by lia. reflexivity.
Qed.
Definition madd (M : list Z -> list (list Z * Z)) (x : list Z * (list Z * Z)) : list Z -> list (list Z * Z) :=
  fun n => if list_eq_dec Z.eq_dec (fst x) n then M n ++ [snd x] else M n.
Lemma add_ok j ls M st x text : good_names ls -> gholds ls M st -> adds_ip x text -> exists st', good_add j st text = Ret st' /\ gholds ls (madd M x) st'.
Proof.
  intros HG (H1 & H2) HX. unfold good_add. destruct (scan_ok (gt_name j) (gt_ip j) (gt_port j) x text HX) as (t & Ht & ->).
  pose proof (v4_to_num_ok (gt_num j) _ t [] Ht I) as EV. rewrite app_nil_r in EV. rewrite EV. cbn [snd].
  assert (EP : snd (snd x) mod 65536 = snd (snd x)). { destruct HX as (g & t' & p & _ & _ & _ & _ & _ & HD & Hv & _). pose proof (decimal_facts _ _ HD) as (_ & _ & _ & H0). apply Z.mod_small. lia. }
  rewrite EP, H1. destruct (find_ok ls (fst x) HG) as [(id & l & Hl & Hn & ->)|(N & ->)]; cbn [bind].
  - rewrite H2, nth_error_map, Hl. cbn [option_map g_interval g_list]. eexists. split; [reflexivity|]. split; [reflexivity|]. cbn [gs_store].
    apply (store_upd ls (fun l => mk_gi (snd l) (M (fst l))) (fun l => mk_gi (snd l) (madd M x (fst l))) id l); [apply HG|exact Hl| |].
    + intros l' Hl' Hne. unfold madd. destruct (list_eq_dec Z.eq_dec (fst x) (fst l')) as [E|]; [congruence|reflexivity].
    + unfold madd. destruct (list_eq_dec Z.eq_dec (fst x) (fst l)) as [E|]; [|congruence]. destruct x as (n, (a, q)). reflexivity.
  - eexists. split; [reflexivity|]. split; [exact H1|]. rewrite H2. apply map_ext_in. intros l Hl. unfold madd. destruct (list_eq_dec Z.eq_dec (fst x) (fst l)) as [E|]; [|reflexivity]. exfalso. apply N. rewrite E. apply in_map. exact Hl.
Qed.
Lemma adds_ok j ls ips texts : good_names ls -> Forall2 adds_ip ips texts -> forall i M st, gholds ls M st ->
  exists st', good_adds j i st texts = Ret st' /\ gholds ls (fun n => M n ++ members ips n) st'.
Proof.
  intros HG. induction 1 as [|x text ips texts H HF IH]; intros i M st HS; cbn [good_adds].
  - exists st. split; [reflexivity|]. destruct HS as (H1 & H2). split; [exact H1|]. rewrite H2. apply map_ext. intros l. unfold members. cbn [filter map]. rewrite app_nil_r. reflexivity.
  - destruct (add_ok (j i) ls M st x text HG HS H) as (st1 & -> & H1). cbn [bind]. destruct (IH (S i) _ st1 H1) as (st2 & -> & (H2 & H3)). exists st2. split; [reflexivity|]. split; [exact H2|]. rewrite H3. apply map_ext. intros l. f_equal. unfold madd, members. cbn [filter]. destruct (list_eq_dec Z.eq_dec (fst x) (fst l)); [cbn [map]; rewrite <- app_assoc|]; reflexivity.
Qed.
Lemma enum_nil ls (F : entry nat -> list (list Z * Z * nat)) (G : nat -> list Z * Z -> list Z * Z * nat) : good_names ls ->
  (forall k l, nth_error ls k = Some l -> F (mk_entry (fst l) (Some k)) = [G k l]) ->
  flat_map F (chunk_enum (chunk_of (rules_from 0 ls))) = map (fun x => G (fst x) (snd x)) (combine (seq 0 (length ls)) ls).
Proof.
  intros (HD & HP) HF. assert (EE : chunk_enum (chunk_of (rules_from 0 ls)) = map (fun r => mk_entry (fst r) (snd r)) (rules_from 0 ls)).
  { pose proof (C25_enumeration (rules_from 0 ls)) as X. assert (Y : forall (es : list (entry nat)), es = map (fun r => mk_entry (fst r) (snd r)) (map (fun e => (e_str e, e_data e)) es)) by (induction es as [|[s d] es IH]; [reflexivity|]; cbn [map e_str e_data fst snd]; congruence).
    rewrite (Y (chunk_enum _)), X. f_equal. assert (Z : forall rs, (forall r, In r rs -> has_wildcard (fst r) = false) -> filter (fun r : list Z * option nat => negb (has_wildcard (fst r))) rs = rs).
    { induction rs as [|r rs IH]; intros H; [reflexivity|]. cbn [filter]. rewrite (H r (or_introl eq_refl)). cbn [negb]. f_equal. apply IH. intros q Hq. apply H. right. exact Hq. }
    apply Z. intros r Hr. destruct (In_nth_error _ _ Hr) as (i & Hi). rewrite rules_nth in Hi. destruct (nth_error ls i) as [l|] eqn:El; [|discriminate]. injection Hi as <-. cbn [fst].
    destruct (HP l (nth_error_In _ _ El)) as (P1 & P2 & P3). unfold has_wildcard. apply not_true_iff_false. rewrite existsb_exists. intros (c & Hc & E).
    destruct (Z.eqb_spec c 42) as [->|]; [contradiction|]. destruct (Z.eqb_spec c 63) as [->|]; [contradiction|]. destruct (Z.eqb_spec c 91) as [->|]; [contradiction|]. discriminate. }
  rewrite EE. clear EE HD HP. assert (GEN : forall k ls0, (forall i l, nth_error ls0 i = Some l -> F (mk_entry (fst l) (Some (k + i)%nat)) = [G (k + i)%nat l]) ->
    flat_map F (map (fun r => mk_entry (fst r) (snd r)) (rules_from k ls0)) = map (fun x => G (fst x) (snd x)) (combine (seq k (length ls0)) ls0)).
  { intros k ls0. revert k. clear HF ls. unfold rules_from. induction ls0 as [|l ls0 IH]; intros k H; [reflexivity|]. cbn [map length seq combine flat_map fst snd].
    pose proof (H 0%nat l eq_refl) as H0. rewrite Nat.add_0_r in H0. rewrite H0. cbn [app]. f_equal. apply IH. intros i l' Hl'. replace (S k + i)%nat with (k + S i)%nat by lia. apply H. exact Hl'. }
  apply (GEN 0%nat ls). exact HF.
Qed.
Lemma init_ok j1 j2 ls ips lt it : good_names ls -> Forall2 declares ls lt -> Forall2 adds_ip ips it ->
  exists st, good_init j1 j2 lt it = Ret (st, map (fun x => (fst (snd x), snd (snd x), fst x)) (combine (seq 0 (length ls)) ls)) /\ gholds ls (members ips) st.
Proof.
  intros HG HL HI. unfold good_init. change (mk_gs chunk_init []) with (mk_gs (chunk_of []) []). rewrite (declares_ok j1 lt ls HL). cbn [app length].
  destruct (adds_ok j2 ls ips it HG HI 0%nat (fun _ => []) (mk_gs (chunk_of (rules_from 0 ls)) (map (fun l => mk_gi (snd l) []) ls)) ltac:(split; reflexivity)) as (st & -> & H). cbn [bind]. exists st. split; [|exact H]. do 2 f_equal.
  destruct H as (H1 & H2). rewrite H1. rewrite (enum_nil ls _ (fun k l => (fst l, snd l, k)) HG); [reflexivity|]. intros k l Hl. cbn [e_data e_str]. rewrite H2, nth_error_map, Hl. reflexivity.
Qed.

(** * Checks *)
Lemma swap_ok {A} (l : list A) i y : nth_error l i = Some y -> exists l', swap_first l i = y :: l' /\ Permutation (y :: l') l.
Proof.
  intros H. destruct l as [|x l]; [destruct i; discriminate|]. unfold swap_first. rewrite H. destruct i as [|i]; [injection H as <-; exists l; split; reflexivity|]. cbn [nth_error] in H. cbn [firstn app tl]. eexists. split; [reflexivity|].
  change (skipn (S (S i)) (x :: l)) with (skipn (S i) l). destruct (nth_error_split _ _ H) as (l1 & l2 & -> & <-). rewrite firstn_app, firstn_all, Nat.sub_diag. cbn [firstn]. rewrite app_nil_r, skipn_app. rewrite skipn_all2 by lia. replace (S (length l1) - length l1)%nat with 1%nat by lia. cbn [skipn app].
  apply Permutation_trans with (y :: x :: l1 ++ l2); [constructor; symmetry; apply Permutation_middle|]. apply Permutation_trans with (x :: y :: l1 ++ l2); [constructor|]. constructor. apply Permutation_middle.
Qed.
(** One check of one list: who answered first, if somebody did. *)
Record gcheck := mk_gc { gc_list : nat; gc_tried : nat -> tried; gc_sel : option nat }.
Fixpoint good_run (st : gstate) (cs : list gcheck) : outcome (gstate * list Z) :=
  match cs with
  | [] => Ret (st, [])
  | c :: cs' => let! r := good_check st (gc_list c) (gc_tried c) (gc_sel c) in
                let! q := good_run (fst r) cs' in Ret (fst q, snd r ++ snd q)
  end.
Definition mset (M : list Z -> list (list Z * Z)) (n : list Z) (v : list (list Z * Z)) : list Z -> list (list Z * Z) := fun m => if list_eq_dec Z.eq_dec n m then v else M m.
Lemma check_ok ls M st id l t sel : good_names ls -> gholds ls M st -> nth_error ls id = Some l ->
  exists st' lost, good_check st id t sel = Ret (st', lost) /\ ((forall i, match t i with NoNonblock _ => False | _ => True end) -> lost = []) /\
  match fst (fst (check_list t sel (length (M (fst l))))) with
  | None => gholds ls M st'
  | Some i => exists y r, nth_error (M (fst l)) i = Some y /\ Permutation (y :: r) (M (fst l)) /\ gholds ls (mset M (fst l) (y :: r)) st'
  end.
Proof.
  intros HG (H1 & H2) Hl. unfold good_check. rewrite H2, nth_error_map, Hl. cbn [option_map g_list g_interval]. unfold check_list. cbn [fst snd].
  eexists _, _. split; [reflexivity|]. split.
  { intros HT. induction (seq 0 (length (M (fst l)))) as [|i is IH]; cbn [flat_map]; [reflexivity|]. rewrite IH, app_nil_r. specialize (HT i). destruct (t i); [reflexivity|contradiction|reflexivity..]. }
  assert (HW : forall k i, nth_error (filter (fun i => match t i with Connecting _ => true | _ => false end) (seq 0 (length (M (fst l))))) k = Some i -> (i < length (M (fst l)))%nat) by (intros k i Hk; apply nth_error_In, filter_In in Hk; destruct Hk as (Hk & _); apply in_seq in Hk; lia).
  destruct (match sel with Some k => nth_error _ k | None => None end) as [i|] eqn:E; [|split; assumption].
  assert (Hi : (i < length (M (fst l)))%nat) by (destruct sel as [k|]; [apply (HW k), E|discriminate]). destruct (nth_error (M (fst l)) i) as [y|] eqn:Ey; [|apply nth_error_None in Ey; lia].
  destruct (swap_ok (M (fst l)) i y Ey) as (r & Er & HP). exists y, r. split; [reflexivity|]. split; [exact HP|]. split; [exact H1|]. cbn [gs_store]. rewrite Er.
  apply (store_upd ls (fun l => mk_gi (snd l) (M (fst l))) (fun l0 => mk_gi (snd l0) (mset M (fst l) (y :: r) (fst l0))) id l); [apply HG|exact Hl| |].
  - intros l' Hl' Hne. unfold mset. destruct (list_eq_dec Z.eq_dec (fst l) (fst l')); [congruence|reflexivity].
  - unfold mset. destruct (list_eq_dec Z.eq_dec (fst l) (fst l)); [reflexivity|contradiction].
Qed.
Lemma run_ok ls ips cs : good_names ls -> Forall (fun c => (gc_list c < length ls)%nat) cs -> forall M st, gholds ls M st -> (forall n, Permutation (M n) (members ips n)) ->
  exists st' lost M', good_run st cs = Ret (st', lost) /\ gholds ls M' st' /\ (forall n, Permutation (M' n) (members ips n)) /\
    (Forall (fun c => forall i, match gc_tried c i with NoNonblock _ => False | _ => True end) cs -> lost = []).
Proof.
  intros HG. induction 1 as [|c cs Hc HF IH]; intros M st H HP; cbn [good_run]; [exists st, [], M; auto|].
  destruct (nth_error ls (gc_list c)) as [l|] eqn:El; [|apply nth_error_None in El; lia]. destruct (check_ok ls M st (gc_list c) l (gc_tried c) (gc_sel c) HG H El) as (st1 & lost1 & -> & HL1 & HC). cbn [bind fst snd].
  assert (HM : exists M1, gholds ls M1 st1 /\ forall n, Permutation (M1 n) (members ips n)).
  { destruct (fst (fst (check_list _ _ _))) as [i|]; [|exists M; auto]. destruct HC as (y & r & _ & HP1 & HH). exists (mset M (fst l) (y :: r)). split; [exact HH|]. intros n. unfold mset. destruct (list_eq_dec Z.eq_dec (fst l) n) as [<-|]; [rewrite HP1; apply HP|apply HP]. }
  destruct HM as (M1 & HH1 & HP1). destruct (IH M1 st1 HH1 HP1) as (st2 & lost2 & M2 & -> & HH2 & HP2 & HL2). cbn [bind fst snd]. exists st2, (lost1 ++ lost2), M2. split; [reflexivity|]. split; [exact HH2|]. split; [exact HP2|].
  intros HQ. inversion HQ; subst. rewrite HL1, HL2 by assumption. reflexivity.
Qed.
Lemma get_ok ls M st l : good_names ls -> gholds ls M st -> In l ls -> good_get st (fst l) = Ret (match M (fst l) with [] => None | a :: _ => Some (fst a) end).
Proof.
  intros HG (H1 & H2) Hl. destruct (In_nth_error _ _ Hl) as (id & Hid). unfold good_get. rewrite H1, (find_name ls id l HG Hid). cbn [bind]. rewrite H2, nth_error_map, Hid. reflexivity.
Qed.

(** * C75 *)
(** The configuration is read; each list is checked periodically, with its interval. *)
Theorem C75_tasks j1 j2 ls ips lt it : good_names ls -> Forall2 declares ls lt -> Forall2 adds_ip ips it ->
  exists st ts, good_init j1 j2 lt it = Ret (st, ts) /\ map (fun t => (fst (fst t), snd (fst t))) ts = ls /\ map snd ts = seq 0 (length ls).
Proof.
  intros HG HL HI. destruct (init_ok j1 j2 ls ips lt it HG HL HI) as (st & E & _). eexists _, _. split; [exact E|]. rewrite !map_map. cbn [fst snd].
  assert (X : forall k (l : list (list Z * Z)), map (fun x => (fst (snd x), snd (snd x))) (combine (seq k (length l)) l) = l /\ map fst (combine (seq k (length l)) l) = seq k (length l)).
  { intros k l. revert k. induction l as [|(a, b) l IH]; intros k; [split; reflexivity|]. cbn [length seq combine map fst snd]. destruct (IH (S k)) as (-> & ->). split; reflexivity. }
  destruct (X 0%nat ls) as (X1 & X2). split; [exact X1|exact X2].
Qed.
Print Assumptions C75_tasks.
(** After any checks, whatever the answers: a name that refers to a list gets an address configured for it - none only if none is
    configured; other names get none; no socket is left open, as long as sockets can be made non-blocking. *)
Theorem C75_always j1 j2 ls ips lt it cs : good_names ls -> Forall2 declares ls lt -> Forall2 adds_ip ips it -> Forall (fun c => (gc_list c < length ls)%nat) cs ->
  exists st0 ts st lost, good_init j1 j2 lt it = Ret (st0, ts) /\ good_run st0 cs = Ret (st, lost) /\
  (forall l, In l ls -> exists o, good_get st (fst l) = Ret o /\ match o with None => members ips (fst l) = [] | Some b => exists p, In (b, p) (members ips (fst l)) end) /\
  (forall n, ~ In n (map fst ls) -> good_get st n = Ret None) /\
  (Forall (fun c => forall i, match gc_tried c i with NoNonblock _ => False | _ => True end) cs -> lost = []).
Proof.
  intros HG HL HI HC. destruct (init_ok j1 j2 ls ips lt it HG HL HI) as (st0 & E & H0). destruct (run_ok ls ips cs HG HC (members ips) st0 H0 (fun n => Permutation_refl _)) as (st & lost & M & ER & HM & HP & HX).
  eexists _, _, st, lost. split; [exact E|]. split; [exact ER|]. split; [|split; [|exact HX]].
  - intros l Hl. rewrite (get_ok ls M st l HG HM Hl). eexists. split; [reflexivity|]. pose proof (HP (fst l)) as P. destruct (M (fst l)) as [|(b, p) r].
    + apply Permutation_nil in P. exact P.
    + exists p. eapply Permutation_in; [exact P|left; reflexivity].
  - intros n Hn. unfold good_get. destruct HM as (H1 & _). rewrite H1. destruct (find_ok ls n HG) as [(id & l & Hl & <- & _)|(_ & ->)]; [exfalso; apply Hn, in_map, (nth_error_In _ id), Hl|reflexivity].
Qed.
Print Assumptions C75_always.
(** A check in which an address answered makes it the one that is given; one without an answer changes nothing.  The other lists do
    not change. *)
Theorem C75_fastest j1 j2 ls ips lt it cs id l t sel : good_names ls -> Forall2 declares ls lt -> Forall2 adds_ip ips it -> Forall (fun c => (gc_list c < length ls)%nat) cs -> nth_error ls id = Some l ->
  exists st0 ts st lost st' lost', good_init j1 j2 lt it = Ret (st0, ts) /\ good_run st0 cs = Ret (st, lost) /\ good_check st id t sel = Ret (st', lost') /\
  (forall l', In l' ls -> fst l' <> fst l -> good_get st' (fst l') = good_get st (fst l')) /\
  (sel = None -> good_get st' (fst l) = good_get st (fst l)) /\
  (* of the addresses in the order of the moment, the one at position i is the k-th of those that are waited for *)
  exists now, Permutation now (members ips (fst l)) /\ good_get st (fst l) = Ret (match now with [] => None | a :: _ => Some (fst a) end) /\
    forall k i fd, sel = Some k -> t i = Connecting fd -> (i < length now)%nat -> length (filter (fun q => match t q with Connecting _ => true | _ => false end) (seq 0 i)) = k ->
    exists b p, nth_error now i = Some (b, p) /\ good_get st' (fst l) = Ret (Some b).
Proof.
  intros HG HL HI HC Hl. destruct (init_ok j1 j2 ls ips lt it HG HL HI) as (st0 & E & H0). destruct (run_ok ls ips cs HG HC (members ips) st0 H0 (fun n => Permutation_refl _)) as (st & lost & M & ER & HM & HP & _).
  destruct (check_ok ls M st id l t sel HG HM Hl) as (st' & lost' & EC & _ & HK). pose proof (nth_error_In _ _ Hl) as HIn.
  eexists _, _, st, lost, st', lost'. split; [exact E|]. split; [exact ER|]. split; [exact EC|]. split; [|split].
  - intros l' Hl' Hne. rewrite (get_ok ls M st l' HG HM Hl'). destruct (fst (fst (check_list _ _ _))) as [i|]; [|apply (get_ok ls M st' l' HG HK Hl')]. destruct HK as (y & r & _ & _ & HK). rewrite (get_ok ls _ st' l' HG HK Hl'). unfold mset. destruct (list_eq_dec Z.eq_dec (fst l) (fst l')); [congruence|reflexivity].
  - intros ->. cbn [check_list fst] in HK. rewrite (get_ok ls M st' l HG HK HIn), (get_ok ls M st l HG HM HIn). reflexivity.
  - exists (M (fst l)). split; [apply HP|]. split; [apply (get_ok ls M st l HG HM HIn)|]. intros k i fd -> Hti Hi Hk.
    assert (EW : nth_error (filter (fun q => match t q with Connecting _ => true | _ => false end) (seq 0 (length (M (fst l))))) k = Some i).
    { replace (length (M (fst l))) with (i + S (length (M (fst l)) - S i))%nat by lia. rewrite seq_app, filter_app, nth_error_app2 by lia. rewrite Hk, Nat.sub_diag. cbn [Nat.add seq filter]. rewrite Hti. reflexivity. }
    cbn [check_list fst] in HK. rewrite EW in HK. destruct HK as (y & r & Hy & _ & HK). exists (fst y), (snd y). split; [rewrite Hy; destruct y; reflexivity|]. rewrite (get_ok ls _ st' l HG HK HIn). unfold mset. destruct (list_eq_dec Z.eq_dec (fst l) (fst l)); [reflexivity|contradiction].
Qed.
Print Assumptions C75_fastest.

(** "list1 1.2.3.4" without a port: the port that is tried is what the stack holds.  "list1" alone: so is the address. *)
Theorem C75_stale_refuted : let st := mk_gs (chunk_of [([108], Some 0%nat)]) [mk_gi 5 []] in forall ip port num,
  (good_add (mk_gst [] ip port num) st [108; 32; 49; 46; 50; 46; 51; 46; 52] = Ret (mk_gs (gs_chunk st) [mk_gi 5 [([1; 2; 3; 4], port mod 65536)]])) /\
  (good_add (mk_gst [] ip port num) st [108] = Ret (mk_gs (gs_chunk st) [mk_gi 5 [(snd (v4_to_num num ip), port mod 65536)]])).
Proof. cbv zeta. intros ip port num. split; reflexivity. Qed.
Print Assumptions C75_stale_refuted.
(** A socket that cannot be made non-blocking is never closed. *)
Theorem C75_sockets_refuted : let st := mk_gs (chunk_of [([108], Some 0%nat)]) [mk_gi 5 [([1; 2; 3; 4], 80)]] in
  good_check st 0 (fun _ => NoNonblock 7) None = Ret (st, [7]).
Proof. reflexivity. Qed.
Print Assumptions C75_sockets_refuted.
(** Every socket that is opened in a check is closed once, but those that cannot be made non-blocking. *)
Theorem C75_closed t sel count : let '(_, closed, lost) := check_list t sel count in
  Permutation (closed ++ lost) (flat_map (fun i => match t i with NoSock => [] | NoNonblock fd | NoConn fd | Connecting fd => [fd] end) (seq 0 count)) /\
  (forall fd, In fd lost -> exists i, (i < count)%nat /\ t i = NoNonblock fd).
Proof.
  unfold check_list. split.
  - generalize (seq 0 count) as is. induction is as [|i is IH]; [constructor|]. cbn [flat_map]. destruct (t i); cbn [app]; [exact IH| |constructor; exact IH..]. apply Permutation_sym, Permutation_cons_app, Permutation_sym. exact IH.
  - intros fd H. apply in_flat_map in H. destruct H as (i & Hi & H). apply in_seq in Hi. exists i. split; [lia|]. destruct (t i); cbn [In] in H; try contradiction. destruct H as [->|[]]. reflexivity.
Qed.
Print Assumptions C75_closed.
(** The name of a list has at most 127 characters; of a longer one only these are read, and when a digit comes next the address and the port are what the stack held. *)
Theorem C75_long_name_refuted : let n := repeat 108 127 in let st := mk_gs (chunk_of [(n, Some 0%nat)]) [mk_gi 5 []] in forall ip port num,
  good_add (mk_gst [] ip port num) st (n ++ [49; 46; 50; 46; 51; 46; 52; 58; 56; 48]) = Ret (mk_gs (gs_chunk st) [mk_gi 5 [(snd (v4_to_num num ip), port mod 65536)]]).
Proof. cbv zeta. intros ip port num. reflexivity. Qed.
Print Assumptions C75_long_name_refuted.
(** A list whose name has a wildcard in it is accepted but never found. *)
Theorem C75_wildcard_refuted j1 j2 : exists st ts, good_init j1 j2 [[108; 42; 32; 53]] [[108; 42; 32; 49; 46; 50; 46; 51; 46; 52; 58; 56]] = Ret (st, ts) /\ good_get st [108; 42] = Ret None.
Proof. eexists _, _. split; reflexivity. Qed.
Print Assumptions C75_wildcard_refuted.
(** "list 60", "list 1.2.3.4:80", "list 5.6.7.8:80"; the second answers first. *)
Example C75_nonvacuous : let lt := [[108; 105; 115; 116; 32; 54; 48]] in let it := [[108; 105; 115; 116; 32; 49; 46; 50; 46; 51; 46; 52; 58; 56; 48]; [108; 105; 115; 116; 32; 53; 46; 54; 46; 55; 46; 56; 58; 56; 48]] in
  let n := [108; 105; 115; 116] in
  declares (n, 60) [108; 105; 115; 116; 32; 54; 48] /\ adds_ip (n, ([1; 2; 3; 4], 80)) [108; 105; 115; 116; 32; 49; 46; 50; 46; 51; 46; 52; 58; 56; 48] /\ good_names [(n, 60)] /\
  exists st ts st', good_init (fun _ => []) (fun _ => mk_gst [] [] 0 (fun _ => 0)) lt it = Ret (st, ts) /\ good_get st n = Ret (Some [1; 2; 3; 4]) /\
    good_check st 0 (fun i => if Nat.eqb i 0 then NoConn 8 else Connecting 9) (Some 0%nat) = Ret (st', []) /\ good_get st' n = Ret (Some [5; 6; 7; 8]).
Proof.
  cbv zeta. assert (HW : word [108; 105; 115; 116]) by (split; [discriminate|]; intros c Hc; cbn in Hc; lia). assert (HS : gap [32]) by (split; [discriminate|]; intros c [<-|[]]; lia).
  assert (D8 : decimal [56; 48] 80) by (apply (dec_more [56] 8 0); [apply (dec_one 8); lia|lia]).
  split; [|split; [|split]].
  - exists [32], [54; 48]. split; [exact HW|]. split; [cbn [length fst]; lia|]. split; [exact HS|]. split; [apply (dec_more [54] 6 0); [apply (dec_one 6); lia|lia]|]. split; [cbn [snd]; lia|reflexivity].
  - exists [32], [49; 46; 50; 46; 51; 46; 52], [56; 48]. split; [exact HW|]. split; [cbn [length fst]; lia|]. split; [exact HS|]. split; [|split; [cbn [length]; lia|split; [exact D8|split; [cbn [snd]; lia|reflexivity]]]].
    exists [[49]; [50]; [51]; [52]]. split; [reflexivity|]. split; [repeat constructor; unfold is_byte; lia|]. split; [|reflexivity]. constructor; [apply (dec_one 1); lia|]. constructor; [apply (dec_one 2); lia|]. constructor; [apply (dec_one 3); lia|]. constructor; [apply (dec_one 4); lia|]. constructor.
  - split; [repeat constructor; intros []|]. intros l [<-|[]]. cbn [fst]. repeat split; intros X; cbn in X; lia.
  - eexists _, _, _. split; [vm_compute; reflexivity|]. split; [vm_compute; reflexivity|]. split; [vm_compute; reflexivity|]. vm_compute. reflexivity.
Qed.
