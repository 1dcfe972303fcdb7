(** C39, lines that do not fit in the buffer of ConfigRead: a long value of a list option is put together from its parts. *)
From Verif Require Import Hosts_Model Base BaseFacts List2Facts Hash_Model Addr_Model Arr_Model Slist_Model Replace_Props Slist_Proofs Slist_Props Sht_Model Chunk_Model Chunk_Spec Chunk_Proofs Line_Model Line_Props Config_Model Config_Proofs Config_Props.
Require Import ZifyBool ZifyNat.
Open Scope Z_scope.
Import List ListNotations.
Open Scope list_scope.

(** * Specification *)
(** The line without the blanks at its end. *)
Definition no_tail (l : list Z) : list Z := rev (drop_blanks (rev l)).
(** The delimiters for a value: those of the alias, if it has some, else those of the option. *)
Definition delims_of (ds : option (list Z)) (d : dopt) : list Z := match ds with Some e => e | None => d_delims d end.
(** A line [a ++ l] whose first 2047 bytes are [a]: it begins with a visible character; it has no comment, CR or NUL; the part of it that is read last is not empty and begins
    with a visible character; name and the start of the value are in [a]; the name means a list option; no string of the value but the last is empty. *)
Definition long_ok (t : atable) (a l : list Z) : Prop :=
  length a = 2047%nat /\ plain (a ++ l) /\ (exists c r, a = c :: r /\ Hosts_Model.is_space c = false) /\
  (exists q c, (length l < q * 2047 + 2047)%nat /\ nth_error l (q * 2047) = Some c /\ Hosts_Model.is_space c = false) /\
  exists k v n p ds d, split_nv a = Some (k, v) /\ resolve t k = Some (n, p, ds) /\ In (n, AOpt d) t /\ d_type d = TStr /\ ~ In [] (removelast (pieces (delims_of ds d) (v ++ no_tail l))).
(** A file in which every line fits (as in C38), or is such a long line. *)
Inductive readable (t : atable) : list Z -> Prop :=
  | R_end bs : Forall (line_ok 2048) (file_lines bs) -> end_ok bs -> readable t bs
  | R_fit l bs : line_ok 2048 l -> ~ In 10 l -> readable t bs -> readable t (l ++ 10 :: bs)
  | R_long a l bs : long_ok t a l -> readable t bs -> readable t (a ++ l ++ 10 :: bs).
(** No list option has an empty string among its defaults, and no alias prepends one. *)
Definition clean_table (t : atable) : Prop :=
  (forall n d, In (n, AOpt d) t -> d_type d = TStr -> ~ In [] (d_str d)) /\
  (forall n tg p ds d, In (n, AAlias tg (Some p) ds) t -> In (tg, AOpt d) t -> d_type d = TStr -> ~ In [] (pieces (delims_of ds d) p)).

(** * Proofs *)
Lemma npbrk_app g a b h : npbrk g a = Some h -> npbrk g (a ++ b) = Some h /\ (h < length a)%nat.
Proof.
  revert h. induction a as [|c a IH]; intros h; cbn [npbrk app]; [discriminate|]. destruct (memz c g); [|intros [= <-]; cbn [length]; split; [reflexivity|lia]].
  destruct (npbrk g a) as [i|]; [|discriminate]. intros [= <-]. destruct (IH i eq_refl) as (-> & H). cbn [option_map length]. split; [reflexivity|lia].
Qed.
Lemma split_nv_app a b k v : split_nv a = Some (k, v) -> split_nv (a ++ b) = Some (k, v ++ b).
Proof.
  revert k v. induction a as [|c a IH]; intros k v; cbn [split_nv app]; [discriminate|]. destruct (memz c [32; 9; 61]).
  - destruct (npbrk [9; 32] a) as [h|] eqn:E; [|discriminate]. intros [= <- <-]. destruct (npbrk_app _ _ b _ E) as (-> & H). rewrite skipn_app. replace (h - length a)%nat with 0%nat by lia. reflexivity.
  - destruct (split_nv a) as [(k', v')|]; [|discriminate]. intros [= <- <-]. rewrite (IH _ _ eq_refl). reflexivity.
Qed.
Lemma strip_all_clean g l : ~ In [] (strip_all g l).
Proof. unfold strip_all. rewrite in_flat_map. intros (x & _ & H). destruct (strip g x); [destruct H|destruct H as [H|[]]; discriminate]. Qed.
Lemma no_tail_in c l : In c (no_tail l) -> In c l.
Proof. unfold no_tail. rewrite <- in_rev. intros H. apply drop_in in H. rewrite <- in_rev in H. exact H. Qed.
Lemma no_tail_app a l c : In c l -> Hosts_Model.is_space c = false -> no_tail (a ++ l) = a ++ no_tail l.
Proof.
  intros Hc Hs. unfold no_tail. rewrite rev_app_distr, drop_app. destruct (drop_blanks (rev l)) as [|d r] eqn:E; [|rewrite rev_app_distr, rev_involutive; reflexivity].
  apply drop_blank_nil in E. rewrite forallb_forall in E. rewrite (E c) in Hs; [discriminate|]. rewrite <- in_rev. exact Hc.
Qed.
Section S.
Context (junk : nat -> Z) (stale : Z) (expand : list Z -> nat -> list Z).
Context (Hexp : forall x n, ~ In 0 x -> ~ In 0 (expand x n)).
(** The parts that are read are those of the line. *)
Lemma more_parts_parts ds q : forall l rest n c fuel, (q < fuel)%nat -> plain l -> n = (q * 2047)%nat -> (length l < n + 2047)%nat -> nth_error l n = Some c -> Hosts_Model.is_space c = false ->
  exists parts, concat parts = no_tail l /\ Forall nonul parts /\
  forall s, more_parts junk fuel s ds (mkf (l ++ 10 :: rest) false) = let! s' := appends (repeat (junk, junk) (length parts)) s parts (Some ds) in Ret (s', mkf rest false).
Proof.
  induction q as [|q IH]; intros l rest n c fuel Hf Hp En HL Hc Hsp; (destruct fuel as [|fuel]; [lia|]).
  - subst n. destruct l as [|d l]; [discriminate|]. injection Hc as ->. cbn [length] in HL. exists [no_tail (c :: l)]. split; [apply app_nil_r|]. split; [constructor; [|constructor]; intros X; apply no_tail_in in X; apply Hp in X; lia|].
    intros s. cbn [more_parts]. rewrite read_short; [|lia|exact Hp|exact Hsp]. cbn [bind fst snd length repeat appends]. fold (no_tail (c :: l)). destruct (sl_append_last true junk junk s (no_tail (c :: l)) (Some ds)); reflexivity.
  - assert (Hn : (n < length l)%nat) by (apply nth_error_Some; congruence). assert (En' : n = (2047 + q * 2047)%nat) by (rewrite En; reflexivity). clear En. remember (q * 2047)%nat as m eqn:Em.
    assert (El : exists a b, l = a ++ b /\ length a = 2047%nat) by (exists (firstn 2047 l), (skipn 2047 l); split; [symmetry; apply firstn_skipn|rewrite firstn_length; lia]).
    destruct El as (a & b & El & La). rewrite El in Hp. pose proof (plain_app _ _ Hp) as (Hpa & Hpb).
    assert (Hcb : nth_error b m = Some c) by (rewrite El, nth_error_app2 in Hc by lia; rewrite <- Hc; f_equal; lia). rewrite El, app_length in HL.
    destruct (IH b rest m c fuel ltac:(lia) Hpb eq_refl ltac:(lia) Hcb Hsp) as (parts & C & F & E).
    exists (a :: parts). cbn [concat]. split; [rewrite C, El; symmetry; apply (no_tail_app a b c); [eapply nth_error_In, Hcb|exact Hsp]|]. split; [constructor; [apply plain_not; [exact Hpa|lia]|exact F]|].
    intros s. rewrite El, <- app_assoc. cbn [more_parts length repeat appends]. rewrite read_trunc; [|lia|exact Hpa|lia]. cbn [bind fst snd]. destruct (sl_append_last true junk junk s a (Some ds)) as [r| | |]; cbn [bind]; [apply E|reflexivity|reflexivity|reflexivity].
Qed.
Lemma parse_long_ok o d ds v tr l rest q c : orel o d -> ~ In 0 v -> plain l -> (length l < q * 2047 + 2047)%nat -> nth_error l (q * 2047) = Some c -> Hosts_Model.is_space c = false ->
  (d_strat d = StAppend -> ~ In [] (d_str d)) -> ~ In [] (removelast (pieces ds (v ++ no_tail l))) ->
  exists o', parse_string junk o ds v false tr (mkf (l ++ 10 :: rest) false) = Ret (o', mkf rest false) /\ orel o' (a_parse_string d ds (v ++ no_tail l) tr).
Proof.
  intros (H1 & H2 & H3 & H4 & H5 & H6 & ls & H7 & H8) Hv Hp HL Hc Hsp He Hn. unfold parse_string. cbv zeta. match goal with |- context [sl_add true junk ?s v _] => set (s0 := s) end.
  assert (H0 : exists ls0, lholds s0 ls0 /\ concat ls0 = match d_strat d with StAppend => d_str d | _ => [] end) by (unfold s0; rewrite H2; destruct (d_strat d); try (exists []; split; [constructor|reflexivity]); exists ls; auto).
  destruct H0 as (ls0 & L0 & C0). assert (Hne : ~ In [] (concat ls0)) by (rewrite C0; destruct (d_strat d); try (intros []); apply He; reflexivity).
  unfold sl_add. destruct (sbuf_add_str true junk s0 ls0 v L0 Hv) as [(s' & _ & X & _)|(b & o1 & s' & l1 & ls' & E1 & H' & HL' & Hb' & -> & Hcc & _)]; [discriminate|]. rewrite E1. cbn [bind fst snd]. destruct (divide_ok s' ls' b l1 v (Some ds) H' HL' Hb' Hv) as (s2 & -> & L2). cbn [bind fst snd f_bytes].
  assert (Hq : (q < S (length (l ++ 10%Z :: rest)))%nat). { assert (q * 2047 < length l)%nat by (apply nth_error_Some; congruence). rewrite app_length. lia. }
  destruct (more_parts_parts ds q l rest _ c _ Hq Hp eq_refl HL Hc Hsp) as (parts & C & F & E). rewrite E.
  destruct (appends_ok (Some ds) parts (repeat (junk, junk) (length parts)) s2 (concat ls0) v (firstn b ls') l1 (repeat_length _ _) L2 Hcc Hne) as (s3 & ls3 & -> & L3 & C3); [cbn [pieces_opt]; rewrite C; exact Hn|exact F|]. cbn [bind fst snd]. cbn [pieces_opt] in C3. rewrite C, C0 in C3.
  assert (HT : exists s4 ls4, (if tr then trim_all (S (S (total_used s3))) None s3 else Ret s3) = Ret s4 /\ lholds s4 ls4 /\ concat ls4 = if tr then strip_all blanks ((match d_strat d with StAppend => d_str d | _ => [] end) ++ pieces ds (v ++ no_tail l)) else (match d_strat d with StAppend => d_str d | _ => [] end) ++ pieces ds (v ++ no_tail l)).
  { destruct tr; [|exists s3, ls3; auto]. destruct (trim_all_ok None s3 ls3 (S (S (total_used s3))) L3) as (s4 & ls4 & E2 & L4 & C4); [pose proof (total_used_ok _ _ L3); lia|]. exists s4, ls4. split; [exact E2|]. split; [exact L4|]. rewrite C4, C3. reflexivity. }
  destruct HT as (s4 & ls4 & -> & L4 & C4). cbn [bind fst snd]. eexists. split; [reflexivity|].
  unfold a_parse_string, a_discard, discard_step, orel, set_str, set_strat, a_str. rewrite H2. destruct (d_strat d) eqn:Ed; [| | |rewrite H3; destruct (d_special d) eqn:Esp]; cbn [c_type c_strat c_special c_int c_bool c_str c_delims d_type d_strat d_special d_int d_bool d_str d_delims]; do 6 (split; [congruence|]); exists ls4; auto.
Qed.
Lemma config_long_ok g t a l rest : table g t -> good_table t -> clean_table t -> long_ok t a l ->
  exists g', config_line junk stale expand g a false (mkf (l ++ 10 :: rest) false) = Ret (true, g', mkf rest false) /\ counts t (a ++ no_tail l) = true /\ table g' (a_line stale expand t (a ++ no_tail l)) /\ good_table (a_line stale expand t (a ++ no_tail l)).
Proof.
  intros HT HG (HC1 & HC2) (La & Hp & _ & (q & c & HL & Hc & Hsp) & k & v & n & p & ds & d0 & Es & Er & Hd0 & Ht0 & Hn). apply plain_app in Hp. destruct Hp as (Hpa & Hpl). unfold config_line, a_line, counts. rewrite Es, (split_nv_app _ (no_tail l) _ _ Es). pose proof (get_opt_ok g t k HT HG) as HO. rewrite Er in *.
  destruct HO as (i & d & Hi & ->). cbn [bind]. destruct (store_nth g t i n _ HT Hi) as (e & -> & Hrel). destruct e as [o|]; [|destruct Hrel]. cbn [erel] in Hrel.
  assert (d0 = d) as ->. { pose proof (in_assoc t n _ (proj1 HG) (nth_error_In _ _ Hi)) as A1. pose proof (in_assoc t n _ (proj1 HG) Hd0) as A2. congruence. }
  assert (Hpp : match p with Some x => ~ In 0 x /\ ~ In [] (pieces (delims_of ds d) x) | None => True end). { unfold resolve in Er. destruct (assoc t k) as [[dd|tg q0 e]|] eqn:Ea; [injection Er as <- <- <-; exact I| |discriminate]. injection Er as <- <- <-. apply assoc_in in Ea. destruct HG as (_ & _ & _ & G4). pose proof (G4 _ _ _ _ Ea) as X. destruct q0; [|exact I]. split; [exact X|]. eapply HC2; eassumption. }
  assert (Hpz : match p with Some x => ~ In 0 x | None => True end) by (destruct p; [apply Hpp|exact I]).
  destruct (prepend_ok junk stale expand Hexp o d p ds (mkf (l ++ 10 :: rest) false) Hrel Hpz) as (o1 & -> & Hr1). cbn [bind].
  assert (HD : d_type (a_prepend stale d p ds) = TStr /\ d_delims (a_prepend stale d p ds) = d_delims d /\ (d_strat (a_prepend stale d p ds) = StAppend -> ~ In [] (d_str (a_prepend stale d p ds)))).
  { unfold a_prepend. rewrite Ht0. destruct p as [x|]; [|split; [exact Ht0|]; split; [reflexivity|]; intros _; apply (HC1 n d Hd0 Ht0)]. destruct (a_parse_string_type d (delims_of ds d) x false) as (T1 & T2). fold (delims_of ds d). split; [congruence|]. split; [exact T2|]. intros HS.
    assert (ES : d_str (a_parse_string d (delims_of ds d) x false) = (match d_strat d with StAppend => d_str d | _ => [] end) ++ pieces (delims_of ds d) x) by reflexivity. rewrite ES. rewrite in_app_iff. intros [X|X]; [|apply (proj2 Hpp X)]. destruct (d_strat d); try destruct X; apply (HC1 n d Hd0 Ht0 X). }
  destruct HD as (D1 & D2 & D3). unfold set_value. pose proof Hr1 as (R1 & _ & _ & _ & _ & R6 & _). rewrite R1, D1, R6, D2. fold (delims_of ds d).
  assert (Hv : ~ In 0 v) by (apply (split_nv_nonul _ _ _ Es); apply plain_not; [exact Hpa|lia]).
  destruct (parse_long_ok o1 _ (delims_of ds d) v true l rest q c Hr1 Hv Hpl HL Hc Hsp D3 Hn) as (o2 & -> & Hr2). cbn [bind fst snd].
  eexists. split; [reflexivity|]. split; [reflexivity|]. split; [|apply a_update_good, HG]. eapply set_entry_ok; [exact HT|apply HG|exact Hi|]. unfold a_set, a_value. rewrite D1, D2. exact Hr2.
Qed.
(** What an abstract step keeps. *)
Lemma a_set_kind d x : d_type (a_set stale expand d x) = d_type d /\ d_delims (a_set stale expand d x) = d_delims d.
Proof. apply (fold_set_type stale expand [x] d). Qed.
Lemma a_line_in t line n e : In (n, e) (a_line stale expand t line) -> exists e0, In (n, e0) t /\ match e0 with AAlias _ _ _ => e = e0 | AOpt d0 => exists d, e = AOpt d /\ d_type d = d_type d0 /\ d_delims d = d_delims d0 /\ (d_type d0 = TStr -> d = d0 \/ ~ In [] (d_str d)) end.
Proof.
  unfold a_line. intros H. assert (HK : In (n, e) t -> exists e0, In (n, e0) t /\ match e0 with AAlias _ _ _ => e = e0 | AOpt d0 => exists d, e = AOpt d /\ d_type d = d_type d0 /\ d_delims d = d_delims d0 /\ (d_type d0 = TStr -> d = d0 \/ ~ In [] (d_str d)) end).
  { intros X. exists e. split; [exact X|]. destruct e as [d|]; [exists d; auto|reflexivity]. }
  destruct (split_nv line) as [(k, v)|]; [|apply HK, H]. destruct (resolve t k) as [((m, p), ds)|]; [|apply HK, H]. apply a_update_in in H. destruct H as (e0 & H & E). destruct (str_eqb n m); [|subst e; apply HK, H]. exists e0. split; [exact H|]. destruct e0 as [d0|]; [|exact E].
  eexists. split; [exact E|]. match goal with |- context [a_set stale expand d0 ?x] => destruct (a_set_kind d0 x) as (T1 & T2) end. split; [exact T1|]. split; [exact T2|]. intros Ht. right. unfold a_set, a_value.
  assert (HP : d_type (a_prepend stale d0 p ds) = TStr) by (unfold a_prepend; destruct p; [rewrite Ht; rewrite (proj1 (a_parse_string_type _ _ _ _)); exact Ht|exact Ht]). rewrite HP. unfold a_parse_string. cbn [a_str d_str]. apply strip_all_clean.
Qed.
Lemma a_line_opt t line n d : good_table t -> In (n, AOpt d) t -> exists d', In (n, AOpt d') (a_line stale expand t line) /\ d_type d' = d_type d /\ d_delims d' = d_delims d.
Proof.
  intros HG Hi. pose proof (fold_option stale expand [line] t n d (proj1 HG) Hi) as X. cbn [fold_left] in X. eexists. split; [exact X|]. apply fold_set_type.
Qed.
Lemma a_line_clean t line : good_table t -> clean_table t -> clean_table (a_line stale expand t line).
Proof.
  intros HG (H1 & H2). split.
  - intros n d Hi Ht. apply a_line_in in Hi. destruct Hi as ([d0|tg p ds] & Hi & HE); [|discriminate]. destruct HE as (d' & [= <-] & T1 & T2 & HS). rewrite T1 in Ht. destruct (HS Ht) as [->|X]; [apply (H1 n d0 Hi Ht)|exact X].
  - intros n tg p ds d Ha Ho Ht. apply a_line_in in Ha. destruct Ha as ([d0|tg0 p0 ds0] & Ha & HE); [destruct HE as (? & X & _); discriminate|]. injection HE as <- <- <-. apply a_line_in in Ho. destruct Ho as ([d0|tg0 p0 ds0] & Ho & HE); [|discriminate]. destruct HE as (d' & [= <-] & T1 & T2 & _). unfold delims_of. rewrite T2. apply (H2 n tg p ds d0 Ha Ho). congruence.
Qed.
Lemma a_line_resolve t line k : good_table t -> resolve (a_line stale expand t line) k = resolve t k.
Proof. intros (HN & _). unfold a_line. destruct (split_nv line) as [(k', v)|]; [|reflexivity]. destruct (resolve t k') as [((m, p), ds)|]; [|reflexivity]. apply resolve_update, HN. Qed.
Lemma a_line_long t line a l : good_table t -> long_ok t a l -> long_ok (a_line stale expand t line) a l.
Proof.
  intros HG (A1 & A2 & A3 & A4 & k & v & n & p & ds & d & B1 & B2 & B3 & B4 & B5). do 4 (split; [assumption|]). destruct (a_line_opt t line n d HG B3) as (d' & I' & T1 & T2). exists k, v, n, p, ds, d'. split; [exact B1|]. split; [rewrite a_line_resolve; assumption|]. split; [exact I'|]. split; [congruence|]. unfold delims_of. rewrite T2. exact B5.
Qed.
Lemma a_line_readable t line bs : good_table t -> readable t bs -> readable (a_line stale expand t line) bs.
Proof. intros HG. induction 1; [apply R_end; assumption|apply R_fit; assumption|apply R_long; [apply a_line_long; assumption|assumption]]. Qed.
Lemma read_line_mono size k : forall k' f x, read_line k size f = Ret x -> (k <= k')%nat -> read_line k' size f = Ret x.
Proof.
  induction k as [|k IH]; intros k' f x E Hk; [discriminate|]. destruct k' as [|k']; [lia|]. cbn [read_line] in *. destruct (fgets size f) as ([s|], f1); [|exact E]. cbv zeta in *. destruct (match clear_ann s 35 with Some b => Some b | None => clear_ann s 59 end) as [b|].
  - destruct (if reached_end f1 s then _ else _) as [(o, f2)| | |]; cbn [bind] in *; try discriminate. destruct o as [f3|]; [|exact E]. destruct (elim_foot b) as [b1| | |]; cbn [bind] in *; try discriminate. destruct (elim_head b1); [apply IH; [exact E|lia]|exact E].
  - destruct (reached_end f1 s); [|exact E]. destruct (elim_foot (elim_crlf s)) as [b1| | |]; cbn [bind] in *; try discriminate. destruct (elim_head b1); [apply IH; [exact E|lia]|exact E].
Qed.
Lemma content_long t a l bs : long_ok t a l -> content (a ++ l ++ 10 :: bs) = (a ++ no_tail l) :: content bs.
Proof.
  intros (La & Hp & (c & r & Ea & Hc) & (q & c2 & _ & Hq & Hs2) & _). rewrite app_assoc, content_lf by (apply plain_not; [exact Hp|lia]). unfold visible. rewrite uncomment_none by (apply plain_not; [exact Hp|lia]).
  assert (ET : Line_Props.trim (a ++ l) = a ++ no_tail l). { unfold Line_Props.trim. rewrite <- (no_tail_app a l c2) by (auto; eapply nth_error_In, Hq). unfold no_tail. rewrite Ea. cbn [app drop_blanks]. rewrite Hc. reflexivity. }
  rewrite ET, Ea. reflexivity.
Qed.
Lemma read_step t bs : readable t bs -> forall e, (e = true -> bs = []) ->
  match content bs with
  | [] => exists f', read_line1 2048 (mkf bs e) = Ret (RlEnd, f')
  | v :: vs => (exists f', read_line1 2048 (mkf bs e) = Ret (RlDone v, f') /\ ~ In 0 v /\ fgood f' /\ content (f_bytes f') = vs /\ (length (f_bytes f') < length bs)%nat /\ readable t (f_bytes f')) \/
               (exists a l bs', read_line1 2048 (mkf bs e) = Ret (RlTrunc a, mkf (l ++ 10 :: bs') false) /\ v = a ++ no_tail l /\ long_ok t a l /\ content bs' = vs /\ (length bs' < length bs)%nat /\ readable t bs')
  end.
Proof.
  induction 1 as [bs HF HE|l bs Hl H10 HR IH|a l bs HO HR IH]; intros e He.
  - pose proof (read_line_ok 2048 ltac:(lia) (length bs) bs e (S (length bs)) (le_n _) ltac:(lia) He HF HE) as X. pose proof (content_nonul _ _ HF) as HNU. unfold read_line1. cbn [f_bytes]. destruct (content bs) as [|v vs]; [exact X|]. left. destruct X as (f' & X & G1 & G2 & G3 & G4 & G5). exists f'. split; [exact X|]. split; [apply (Forall_inv HNU)|]. do 3 (split; [assumption|]). apply R_end; assumption.
  - assert (e = false) as -> by (destruct e; [destruct l; discriminate (He eq_refl)|reflexivity]). specialize (IH false ltac:(discriminate)). rewrite content_lf by exact H10. unfold read_line1 in *. cbn [f_bytes] in *.
    rewrite (step_line l [10] (mkf bs false)); [|exact Hl|left; reflexivity|exact H10|apply fgets_lf; [exact H10|apply Hl|apply Hl]]. pose proof (visible_nonul l (proj1 (proj2 Hl))) as HV. destruct (visible l) as [|x vl].
    + assert (HLe : (S (length bs) <= length (l ++ 10%Z :: bs))%nat) by (rewrite app_length; cbn [length]; lia). destruct (content bs) as [|v vs]; [destruct IH as (f' & E); exists f'; apply (read_line_mono _ _ _ _ _ E HLe)|].
      destruct IH as [(f' & E & G)|(a' & l' & bs' & E & G)].
      * left. exists f'. split; [apply (read_line_mono _ _ _ _ _ E HLe)|]. destruct G as (G0 & G1 & G2 & G3 & G4). do 3 (split; [assumption|]). split; [lia|assumption].
      * right. exists a', l', bs'. split; [apply (read_line_mono _ _ _ _ _ E HLe)|]. destruct G as (G0 & G1 & G2 & G3 & G4). do 3 (split; [assumption|]). split; [lia|assumption].
    + left. exists (mkf bs false). split; [reflexivity|]. split; [exact HV|]. split; [discriminate|]. split; [reflexivity|]. split; [cbn [f_bytes]; rewrite app_length; cbn [length]; lia|exact HR].
  - assert (e = false) as ->. { destruct e; [|reflexivity]. destruct HO as (_ & _ & (c & r & -> & _) & _). discriminate (He eq_refl). } rewrite (content_long t a l bs HO). right. exists a, l, bs. pose proof HO as (La & Hp & _). apply plain_app in Hp. split; [apply read_trunc; [lia|apply Hp|lia]|]. split; [reflexivity|]. split; [exact HO|]. split; [reflexivity|]. split; [rewrite !app_length; cbn [length]; lia|exact HR].
Qed.
Lemma config_read_long fuel : forall g t bs e n, table g t -> good_table t -> clean_table t -> (e = true -> bs = []) -> readable t bs -> (length bs < fuel)%nat ->
  exists g', config_read junk stale expand fuel g (mkf bs e) n = Ret (n + Z.of_nat (length (filter (counts t) (content bs))), g') /\ table g' (fold_left (a_line stale expand) (content bs) t) /\ good_table (fold_left (a_line stale expand) (content bs) t).
Proof.
  induction fuel as [|fuel IH]; intros g t bs e n HT HG HC He HR Hf; [lia|]. cbn [config_read]. pose proof (read_step t bs HR e He) as HS. destruct (content bs) as [|v vs]; [destruct HS as (f' & ->); cbn [bind fst snd filter length]; rewrite Z.add_0_r; exists g; cbn [fold_left]; auto|].
  destruct HS as [(f' & -> & G0 & G1 & G2 & G3 & G4)|(a & l & bs' & -> & -> & G1 & G2 & G3 & G4)]; cbn [bind fst snd].
  - destruct (config_line_ok junk stale expand Hexp g t v f' HT HG G0) as (g1 & -> & HT1 & HG1). cbn [bind fst snd]. destruct f' as [bs' e']. cbn [f_bytes] in *.
    destruct (IH g1 (a_line stale expand t v) bs' e' (if counts t v then n + 1 else n) HT1 HG1 (a_line_clean t v HG HC) G1 (a_line_readable t v bs' HG G4) ltac:(lia)) as (g' & -> & HT' & HG'). rewrite G2 in *. exists g'. split; [|cbn [fold_left]; auto].
    do 2 f_equal. rewrite (filter_ext _ (counts t)) by (intros x; apply a_line_counts, HG). cbn [filter]. destruct (counts t v); cbn [length]; lia.
  - destruct (config_long_ok g t a l bs' HT HG HC G1) as (g1 & -> & HCn & HT1 & HG1). cbn [bind fst snd].
    destruct (IH g1 (a_line stale expand t (a ++ no_tail l)) bs' false (n + 1) HT1 HG1 (a_line_clean t _ HG HC) ltac:(discriminate) (a_line_readable t _ bs' HG G4) ltac:(lia)) as (g' & -> & HT' & HG'). rewrite G2 in *. exists g'. split; [|cbn [fold_left]; auto].
    do 2 f_equal. rewrite (filter_ext _ (counts t)) by (intros x; apply a_line_counts, HG). cbn [filter]. rewrite HCn. cbn [length]. lia.
Qed.
End S.

(** The values of the options after reading a file, as in C39_values_partial, but with lines of any length for list options.  What is still missing: long lines for other
    options or for none (C39_long_refuted), with comments, with empty strings (C37_parts_refuted), or cut right at a blank (C38_long_refuted); prepended texts for path options. *)
Theorem C39_long_values_partial junk stale expand os bs fuel : (forall x room, ~ In 0 x -> ~ In 0 (expand x room)) -> setups_ok [] os -> let t := fold_left spec_setup os [] in
  clean_table t -> readable t bs -> (length bs < fuel)%nat ->
  exists g0 g, run_setups junk cfg_init os = Ret g0 /\ config_read junk stale expand fuel g0 (mkf bs false) 0 = Ret (Z.of_nat (length (filter (counts t) (content bs))), g) /\
    (forall name, resolve t name = None -> config_get g name = Ret None) /\
    (forall name n p ds, resolve t name = Some (n, p, ds) -> config_get g name = config_get g n) /\
    forall name d, In (name, AOpt d) t -> exists o, config_get g name = Ret (Some o) /\ c_type o = d_type d /\
      let gs := given t name (content bs) in
      match d_type d with
      | TInt => c_int o = final_int stale (d_strat d) (d_int d) (flat_map texts gs)
      | TBool => c_bool o = final_bool (d_strat d) (d_bool d) (flat_map texts gs)
      | TStr => exists m, forall w, (m < w)%nat -> sl_walk w (c_str o) None = Ret (final_strings (d_strat d) (d_str d) (d_delims d) gs)
      | TPath => Forall (fun q => fst (fst (fst q)) = None) gs -> exists m, forall w, (m < w)%nat -> sl_walk w (c_str o) None = Ret (final_paths (d_strat d) (d_str d) (flat_map (paths expand) gs))
      end.
Proof.
  intros HX HS t HCl HRd Hf. destruct (setups_table junk os cfg_init [] table_init HS) as (g0 & E0 & HT & HG). fold t in HT, HG. destruct (config_read_long junk stale expand HX fuel g0 t bs false 0 HT HG HCl ltac:(discriminate) HRd Hf) as (g & E1 & HT' & HG').
  exists g0, g. split; [exact E0|]. split; [exact E1|]. set (t' := fold_left (a_line stale expand) (content bs) t) in *.
  assert (HR : forall k, resolve t' k = resolve t k) by (intros k; apply resolve_fold, HG). split; [|split].
  - intros name Hn. unfold config_get. pose proof (get_opt_ok g t' name HT' HG') as X. rewrite HR, Hn in X. rewrite X. reflexivity.
  - intros name n p ds Hn. assert (Hn2 : resolve t n = Some (n, None, None)).
    { apply C39_names in Hn; [|exact HG]. apply C39_names; [exact HG|]. left. destruct Hn as [(Hd & -> & _)|Hi]; [auto|]. destruct HG as (_ & _ & HA & _). split; [exact (HA _ _ _ _ Hi)|auto]. }
    unfold config_get. pose proof (get_opt_ok g t' name HT' HG') as X. rewrite HR, Hn in X. pose proof (get_opt_ok g t' n HT' HG') as Y. rewrite HR, Hn2 in Y. destruct X as (i & d & Hi & ->). destruct Y as (j & e & Hj & ->). cbn [bind].
    assert (i = j) as ->; [|reflexivity]. destruct HG' as (HN & _). assert (H1 : nth_error (map fst t') i = Some n) by (rewrite nth_error_map, Hi; reflexivity). assert (H2 : nth_error (map fst t') j = Some n) by (rewrite nth_error_map, Hj; reflexivity). pose proof (str_index_nth _ _ _ HN H1). pose proof (str_index_nth _ _ _ HN H2). congruence.
  - intros name d Hi. pose proof (fold_option stale expand (content bs) t name d ltac:(apply HG) Hi) as Hi'. fold t' in Hi'. set (gs := given t name (content bs)) in *. assert (Hn : resolve t' name = Some (name, None, None)) by (apply C39_names; [exact HG'|]; left; eauto).
    pose proof (get_opt_ok g t' name HT' HG') as X. rewrite Hn in X. destruct X as (i & e & Hj & X). unfold config_get. rewrite X. cbn [bind]. destruct (store_nth g t' i name _ HT' Hj) as (c & -> & Hr). destruct c as [o|]; [|destruct Hr]. cbn [erel] in Hr.
    assert (Ee : e = fold_left (a_set stale expand) gs d). { destruct HG' as (HN & _). pose proof (in_assoc t' name _ HN (nth_error_In _ _ Hj)) as A1. pose proof (in_assoc t' name _ HN Hi') as A2. congruence. }
    exists o. split; [reflexivity|]. destruct Hr as (R1 & R2 & R3 & R4 & R5 & R6 & ls & R7 & R8). subst e. destruct (fold_set_type stale expand gs d) as (T1 & T2). split; [congruence|]. cbv zeta. assert (Hs : d_special d = false) by (apply (setup_fresh os [] ltac:(intros ? ? []) name d Hi)).
    destruct (d_type d) eqn:Ed.
    + rewrite R4. apply fold_ints; assumption.
    + rewrite R5. apply fold_bools; assumption.
    + intros HP. rewrite <- (fold_paths stale expand d gs Ed Hs HP), <- R8. exists (length (concat ls)). intros w Hw. apply walk_ok; assumption.
    + destruct (fold_strings stale expand d gs Ed Hs) as (E & _). rewrite <- E, <- R8. exists (length (concat ls)). intros w Hw. apply walk_ok; assumption.
Qed.
Print Assumptions C39_long_values_partial.

Require Import Ascii String.
Import List ListNotations.
Open Scope list_scope.
Open Scope Z_scope.
(** A list of 301 addresses on a line of 4515 bytes, read in three parts; the second cut is inside an address. *)
Definition lv_one : list Z := bytes "127.0.0.1:5353,"%string.
Definition lv_line : list Z := bytes "UDPLocal "%string ++ concat (repeat lv_one 300) ++ bytes "[::1]:5"%string.
Definition lv_a : list Z := firstn 2047 lv_line.
Definition lv_l : list Z := skipn 2047 lv_line.
Definition lv_file : list Z := bytes "# addresses"%string ++ 10 :: lv_a ++ lv_l ++ 10 :: bytes "LogOn 1"%string.
Definition lv_table : atable := fold_left spec_setup ex_setup [].
Definition lv_name : list Z := bytes "UDPLocal"%string.
Definition lv_expected : list (list Z) := repeat (bytes "127.0.0.1:5353"%string) 300 ++ [bytes "[::1]:5"%string].
Example C39_long_values_nonvacuous : clean_table lv_table /\ readable lv_table lv_file /\
  match run_setups (fun _ => 1) cfg_init ex_setup with
  | Ret g0 => match config_read (fun _ => 1) 5 (fun x _ => x) 6000 g0 (mkf lv_file false) 0 with
              | Ret (n, g) => n = 2 /\ match config_get g lv_name with Ret (Some o) => sl_walk 400 (c_str o) None = Ret lv_expected | _ => False end
              | _ => False end
  | _ => False end.
Proof.
  split; [|split].
  - split.
    + intros n d Hi Ht. assert (HB : forallb (fun x : list Z * aentry => match snd x with AOpt d => negb (existsb (fun y => match y with [] => true | _ => false end) (d_str d)) | _ => true end) lv_table = true) by (vm_compute; reflexivity).
      rewrite forallb_forall in HB. specialize (HB _ Hi). cbn [snd] in HB. apply negb_true_iff in HB. intros X. assert (existsb (fun y : list Z => match y with [] => true | _ => false end) (d_str d) = true) by (apply existsb_exists; exists []; split; [exact X|reflexivity]). congruence.
    + intros n tg p ds d Ha Ho Ht. assert (HB : forallb (fun x : list Z * aentry => match snd x with AAlias tg (Some p) ds => forallb (fun y : list Z * aentry => match snd y with AOpt d => negb (existsb (fun y => match y with [] => true | _ => false end) (pieces (delims_of ds d) p)) | _ => true end) lv_table | _ => true end) lv_table = true) by (vm_compute; reflexivity).
      rewrite forallb_forall in HB. specialize (HB _ Ha). cbn [snd] in HB. rewrite forallb_forall in HB. specialize (HB _ Ho). cbn [snd] in HB. apply negb_true_iff in HB. intros X. assert (existsb (fun y : list Z => match y with [] => true | _ => false end) (pieces (delims_of ds d) p) = true) by (apply existsb_exists; exists []; split; [exact X|reflexivity]). congruence.
  - assert (HL : forall l, ((List.length l + 2 <=? 2048)%nat && nonulb l && negb (existsb (Z.eqb 59) l) && negb (existsb (Z.eqb 13) l))%bool = true -> line_ok 2048 l).
    { intros l H. apply andb_prop in H. destruct H as (H & H4). apply andb_prop in H. destruct H as (H & H3). apply andb_prop in H. destruct H as (H1 & H2). apply Nat.leb_le in H1. apply nonulb_ok in H2. apply negb_true_iff in H3, H4.
      assert (HN : forall c, existsb (Z.eqb c) l = false -> forall a b, l <> (a ++ c :: b)%list) by (intros c Hc a b E; assert (existsb (Z.eqb c) l = true) by (apply existsb_exists; exists c; split; [rewrite E; apply in_or_app; right; left; reflexivity|apply Z.eqb_refl]); congruence).
      split; [exact H1|]. split; [exact H2|]. split; [intros a b E; destruct (HN 59 H3 a b E)|intros a b E; destruct (HN 13 H4 a b E)]. }
    unfold lv_file. apply R_fit; [apply HL; vm_compute; reflexivity|intros X; repeat (destruct X as [X|X]; [discriminate|]); destruct X|]. apply R_long.
    + split; [vm_compute; reflexivity|]. split; [|split; [|split]].
      * assert (HB : forallb (fun c => negb (existsb (Z.eqb c) [0; 10; 13; 35; 59])) (lv_a ++ lv_l) = true) by (vm_compute; reflexivity). rewrite forallb_forall in HB. intros c Hc. specialize (HB c Hc). cbn [existsb] in HB. lia.
      * eexists _, _. split; [vm_compute; reflexivity|reflexivity].
      * exists 1%nat, 46. split; [apply Nat.ltb_lt; vm_compute; reflexivity|]. split; vm_compute; reflexivity.
      * eexists lv_name, (skipn 9 lv_a), lv_name, None, None, _. split; [vm_compute; reflexivity|]. split; [vm_compute; reflexivity|]. split; [do 3 right; left; vm_compute; reflexivity|]. split; [reflexivity|].
        match goal with |- ~ In [] ?l => assert (HB : existsb (fun y => match y with [] => true | _ => false end) l = false) by (vm_compute; reflexivity); intros X; assert (existsb (fun y : list Z => match y with [] => true | _ => false end) l = true) by (apply existsb_exists; exists []; split; [exact X|reflexivity]); congruence end.
    + apply R_end; [constructor; [apply HL; vm_compute; reflexivity|constructor]|]. right. exists 49. split; [vm_compute; tauto|reflexivity].
  - vm_compute. split; reflexivity.
Qed.
