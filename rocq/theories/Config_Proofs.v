(** Reading a configuration file: the concrete table follows an abstract one in which a string option holds a plain list of strings. *)
From Verif Require Import Base BaseFacts List2Facts Hash_Model Addr_Model Arr_Model Slist_Model Slist_Proofs Sht_Model Chunk_Model Chunk_Spec Chunk_Proofs Line_Model Line_Props Config_Model.
Require Import ZifyBool ZifyNat.

(** * The abstract table *)
Record dopt := mk_dopt { d_type : otype; d_strat : strategy; d_special : bool; d_int : Z; d_bool : bool; d_str : list (list Z); d_delims : list Z }.
Inductive aentry := AOpt (d : dopt) | AAlias (target : list Z) (prep delims : option (list Z)).
Definition atable := list (list Z * aentry).
Definition blanks : list Z := [9; 32; 13; 10].

Definition orel (o : copt) (d : dopt) : Prop :=
  c_type o = d_type d /\ c_strat o = d_strat d /\ c_special o = d_special d /\ c_int o = d_int d /\ c_bool o = d_bool d /\ c_delims o = d_delims d /\
  exists ls, lholds (c_str o) ls /\ concat ls = d_str d.
Definition erel (e : centry) (a : aentry) : Prop :=
  match e, a with EOpt o, AOpt d => orel o d | EAlias t p d, AAlias t' p' d' => t = t' /\ p = p' /\ d = d' | _, _ => False end.
Definition krules (t : atable) : list (list Z * option nat) := combine (map fst t) (map Some (seq 0 (length t))).
Definition table (g : cfg) (t : atable) : Prop := kinv (g_keys g) (krules t) /\ Forall2 erel (g_store g) (map snd t).
(** The names are different and have no wildcard character; an alias leads to an option; prepended texts have no NUL. *)
Definition good_table (t : atable) : Prop :=
  NoDup (map fst t) /\ (forall n e, In (n, e) t -> Chunk_Spec.plain n) /\
  (forall n tg p d, In (n, AAlias tg p d) t -> exists o, In (tg, AOpt o) t) /\
  (forall n tg p d, In (n, AAlias tg p d) t -> match p with Some x => ~ In 0 x | None => True end).

Lemma str_eqb_refl k : str_eqb k k = true.
Proof. apply str_eqb_eq. reflexivity. Qed.
Fixpoint str_index (k : list Z) (l : list (list Z)) : option nat := match l with [] => None | x :: l' => if str_eqb x k then Some 0%nat else option_map S (str_index k l') end.
Lemma str_index_some k l i : str_index k l = Some i -> nth_error l i = Some k.
Proof.
  revert i. induction l as [|x l IH]; intros i; cbn [str_index]; [discriminate|]. destruct (str_eqb x k) eqn:E; [intros [= <-]; apply str_eqb_eq in E; subst; reflexivity|]. destruct (str_index k l) as [j|]; [|discriminate]. intros [= <-]. apply IH. reflexivity.
Qed.
Lemma str_index_none k l : str_index k l = None -> ~ In k l.
Proof.
  induction l as [|x l IH]; cbn [str_index]; [intros _ []|]. destruct (str_eqb x k) eqn:E; [discriminate|]. destruct (str_index k l); [discriminate|]. intros _ [X|X]; [subst; rewrite str_eqb_refl in E; discriminate|]. apply IH; [reflexivity|exact X].
Qed.
Lemma str_index_nth k l i : NoDup l -> nth_error l i = Some k -> str_index k l = Some i.
Proof.
  intros HN H. destruct (str_index k l) as [j|] eqn:E; [|exfalso; apply (str_index_none _ _ E); eapply nth_error_In, H]. apply str_index_some in E. f_equal. eapply NoDup_nth_error; [exact HN|apply nth_error_Some; congruence|congruence].
Qed.
Lemma krules_nth t i : nth_error (krules t) i = match nth_error t i with Some (n, _) => Some (n, Some i) | None => None end.
Proof.
  unfold krules. enough (G : forall (t : atable) k i, nth_error (combine (map fst t) (map Some (seq k (length t)))) i = match nth_error t i with Some (n, _) => Some (n, Some (k + i)%nat) | None => None end) by apply (G t 0%nat).
  clear. induction t as [|(n, e) t IH]; intros k i; cbn [length seq map combine fst]; [destruct i; reflexivity|]. destruct i as [|i]; cbn [nth_error]; [rewrite Nat.add_0_r; reflexivity|]. rewrite IH. destruct (nth_error t i) as [(m, f)|]; [|reflexivity]. do 3 f_equal. lia.
Qed.
Lemma lookup_ok g t k : table g t -> good_table t -> match_plain (g_keys g) k None (fun _ => true) = Ret (option_map Some (str_index k (map fst t))).
Proof.
  intros (HK & _) (HN & HP & _). rewrite (match_plain_ok (g_keys g) (krules t) k None _ HK) by (left; reflexivity). f_equal.
  destruct (find _ (rev (krules t))) as [(n, d)|] eqn:E.
  - apply find_some in E. destruct E as (Hi & Hf). cbn [fst snd] in *. apply andb_prop in Hf. destruct Hf as (_ & Hf). rewrite andb_true_r in Hf. apply str_eqb_eq in Hf. subst n. apply in_rev in Hi. apply In_nth_error in Hi. destruct Hi as (i & Hi). rewrite krules_nth in Hi. destruct (nth_error t i) as [(m, e)|] eqn:Et; [|discriminate]. injection Hi as -> <-. cbn [option_map snd]. rewrite (str_index_nth k _ i HN); [reflexivity|]. rewrite nth_error_map, Et. reflexivity.
  - destruct (str_index k (map fst t)) as [i|] eqn:Ei; [|reflexivity]. exfalso. apply str_index_some in Ei. rewrite nth_error_map in Ei. destruct (nth_error t i) as [(m, e)|] eqn:Et; [|discriminate]. injection Ei as ->. assert (Hin : In (k, Some i) (rev (krules t))) by (apply -> in_rev; apply (nth_error_In _ i); rewrite krules_nth, Et; reflexivity). apply (find_none _ _ E) in Hin. cbn [fst snd] in Hin. rewrite str_eqb_refl, !andb_true_r in Hin.
    assert (Hpl : Chunk_Spec.plain k) by (eapply HP, nth_error_In, Et). apply has_wildcard_plain in Hpl. rewrite Hpl in Hin. discriminate.
Qed.
(** Which option a name means, and what an alias adds. *)
Definition assoc (t : atable) (k : list Z) : option aentry := match str_index k (map fst t) with Some i => option_map snd (nth_error t i) | None => None end.
Definition resolve (t : atable) (k : list Z) : option (list Z * option (list Z) * option (list Z)) :=
  match assoc t k with None => None | Some (AOpt _) => Some (k, None, None) | Some (AAlias tg p d) => Some (tg, p, d) end.
Lemma assoc_in t k e : assoc t k = Some e -> In (k, e) t.
Proof. unfold assoc. destruct (str_index k (map fst t)) as [i|] eqn:E; [|discriminate]. apply str_index_some in E. rewrite nth_error_map in E. destruct (nth_error t i) as [(n, f)|] eqn:Et; [|discriminate]. injection E as ->. intros [= <-]. eapply nth_error_In, Et. Qed.
Lemma in_assoc t k e : NoDup (map fst t) -> In (k, e) t -> assoc t k = Some e.
Proof. intros HN H. apply In_nth_error in H. destruct H as (i & H). unfold assoc. rewrite (str_index_nth k _ i HN) by (rewrite nth_error_map, H; reflexivity). rewrite H. reflexivity. Qed.
Lemma store_nth g t i n a : table g t -> nth_error t i = Some (n, a) -> exists e, nth_error (g_store g) i = Some e /\ erel e a.
Proof.
  intros (_ & HF) H. assert (H2 : nth_error (map snd t) i = Some a) by (rewrite nth_error_map, H; reflexivity). clear H. revert i H2. induction HF as [|e b l m Hr HF IH]; intros i H2; [destruct i; discriminate|]. destruct i as [|i]; cbn [nth_error] in *; [injection H2 as ->; eauto|]. apply IH, H2.
Qed.
Lemma get_opt_ok g t k : table g t -> good_table t ->
  match resolve t k with
  | None => get_opt g k = Ret None
  | Some (n, p, ds) => exists i d, nth_error t i = Some (n, AOpt d) /\ get_opt g k = Ret (Some (i, p, ds))
  end.
Proof.
  intros HT HG. pose proof HG as (HN & HP & HA & HX). unfold get_opt, resolve, assoc. cbn [get_option]. rewrite (lookup_ok g t k HT HG). cbn [bind]. destruct (str_index k (map fst t)) as [i|] eqn:Ei; cbn [option_map]; [|reflexivity].
  pose proof (str_index_some _ _ _ Ei) as Hn. rewrite nth_error_map in Hn. destruct (nth_error t i) as [(n, e)|] eqn:Et; [|discriminate]. injection Hn as ->. cbn [option_map snd]. destruct (store_nth g t i k e HT Et) as (c & Ec & Er). rewrite Ec. destruct c as [o|tg p d], e as [dd|tg' p' d']; cbn [erel] in Er; try contradiction.
  - exists i, dd. auto.
  - destruct Er as (<- & <- & <-). destruct (HA k tg p d) as (o & Ho); [eapply nth_error_In, Et|]. apply In_nth_error in Ho. destruct Ho as (j & Hj). exists j, o. split; [exact Hj|]. pose proof (store_nth g t j tg _ HT Hj) as (c2 & Ec2 & Er2). destruct c2 as [o2|]; [|destruct Er2].
    assert (HL : length (g_store g) <> 0%nat) by (destruct (g_store g); [destruct i; discriminate|discriminate]). destruct (length (g_store g)) as [|m] eqn:EL; [contradiction|]. cbn [get_option]. rewrite (lookup_ok g t tg HT HG). rewrite (str_index_nth tg _ j HN) by (rewrite nth_error_map, Hj; reflexivity). cbn [bind option_map]. rewrite Ec2. reflexivity.
Qed.

(** * The abstract step *)
Section S.
Context (junk : nat -> Z) (stale : Z) (expand : list Z -> nat -> list Z).
Context (Hexp : forall x n, ~ In 0 x -> ~ In 0 (expand x n)).
Definition a_discard (d : dopt) : dopt := if d_special d then d else mk_dopt (d_type d) StAppend (d_special d) (d_int d) (d_bool d) (d_str d) (d_delims d).
Definition a_int (d : dopt) (v : Z) := mk_dopt (d_type d) (d_strat d) true v (d_bool d) (d_str d) (d_delims d).
Definition a_bool (d : dopt) (v : bool) := mk_dopt (d_type d) (d_strat d) true (d_int d) v (d_str d) (d_delims d).
Definition a_str (d : dopt) (v : list (list Z)) := mk_dopt (d_type d) (d_strat d) true (d_int d) (d_bool d) v (d_delims d).
Definition a_parse_boolean (d : dopt) (v : list Z) : dopt :=
  match d_strat d with
  | StDiscard => a_bool (a_discard d) (bool_of v)
  | StDefault | StReplace => a_bool d (bool_of v)
  | StAppend => a_bool d (d_bool d || bool_of v)
  end.
Definition a_parse_int (d : dopt) (v : list Z) : dopt :=
  match d_strat d with
  | StDiscard => a_int (a_discard d) (match scan_d v with Some (x, _) => to_int32 x | None => d_int d end)
  | StDefault | StReplace => a_int d (match scan_d v with Some (x, _) => to_int32 x | None => d_int d end)
  | StAppend => a_int d (to_int32 (d_int d + match scan_d v with Some (x, _) => to_int32 x | None => stale end))
  end.
Definition a_parse_string (d : dopt) (ds v : list Z) (tr : bool) : dopt :=
  let d1 := match d_strat d with StDiscard => a_discard d | _ => d end in
  let s := (match d_strat d with StAppend => d_str d | _ => [] end) ++ pieces ds v in
  a_str d1 (if tr then strip_all blanks s else s).
Definition a_prepend (d : dopt) (p ds : option (list Z)) : dopt :=
  match p with
  | None => d
  | Some x => match d_type d with
              | TInt => a_parse_int d x
              | TBool => a_parse_boolean d x
              | TPath => a_parse_string d [] x false
              | TStr => a_parse_string d (match ds with Some e => e | None => d_delims d end) x false
              end
  end.
Definition a_value (d : dopt) (ds : option (list Z)) (v : list Z) (room : nat) : dopt :=
  match d_type d with
  | TInt => a_parse_int d v
  | TBool => a_parse_boolean d v
  | TPath => match trim_path v with None => d | Some x => a_parse_string d [] (expand x room) true end
  | TStr => a_parse_string d (match ds with Some e => e | None => d_delims d end) v true
  end.
Definition a_set (d : dopt) (q : option (list Z) * option (list Z) * list Z * nat) : dopt :=
  let '(p, ds, v, room) := q in a_value (a_prepend d p ds) ds v room.

Lemma total_used_ok s ls : lholds s ls -> (length (concat ls) <= total_used s)%nat.
Proof.
  induction 1 as [|k l s ls Hb HF IH]; [cbn; lia|]. cbn [concat total_used fold_right]. rewrite app_length. apply bholds_len in Hb. rewrite Hb. assert (HZ : forall l : list (list Z), (length l <= length (zs l))%nat) by (clear; induction l as [|x l IH]; [cbn; lia|]; unfold zs in *; cbn [map concat length]; rewrite !app_length; cbn [length]; lia). specialize (HZ l). unfold total_used in IH. lia.
Qed.
Lemma parse_string_ok o d ds v tr f : orel o d -> ~ In 0 v -> exists o', parse_string junk o ds v true tr f = Ret (o', f) /\ orel o' (a_parse_string d ds v tr).
Proof.
  intros (H1 & H2 & H3 & H4 & H5 & H6 & ls & H7 & H8) Hv. unfold parse_string. cbv zeta. match goal with |- context [sl_add true junk ?s v _] => set (s0 := s) end.
  assert (H0 : exists ls0, lholds s0 ls0 /\ concat ls0 = match d_strat d with StAppend => d_str d | _ => [] end) by (unfold s0; rewrite H2; destruct (d_strat d); try (exists []; split; [constructor|reflexivity]); exists ls; auto).
  destruct H0 as (ls0 & L0 & C0). destruct (sl_add_ok true junk _ ls0 v (Some ds) L0 Hv) as (r & s' & ls' & -> & L' & Hr & C'). rewrite (Hr eq_refl) in C'. cbn [bind fst snd]. rewrite C0 in C'. cbn [pieces_opt] in C'.
  assert (HT : exists s2 ls2, (if tr then trim_all (S (S (total_used s'))) None s' else Ret s') = Ret s2 /\ lholds s2 ls2 /\ concat ls2 = if tr then strip_all blanks ((match d_strat d with StAppend => d_str d | _ => [] end) ++ pieces ds v) else (match d_strat d with StAppend => d_str d | _ => [] end) ++ pieces ds v).
  { destruct tr; [|exists s', ls'; auto]. destruct (trim_all_ok None s' ls' (S (S (total_used s'))) L') as (s2 & ls2 & E2 & L2 & C2); [pose proof (total_used_ok _ _ L'); lia|]. exists s2, ls2. split; [exact E2|]. split; [exact L2|]. rewrite C2, C'. reflexivity. }
  destruct HT as (s2 & ls2 & -> & L2 & C2). cbn [bind fst snd]. eexists. split; [reflexivity|].
  unfold a_parse_string, a_discard, discard_step, orel, set_str, set_strat, a_str. rewrite H2. destruct (d_strat d) eqn:Ed; [| | |rewrite H3; destruct (d_special d) eqn:Esp]; cbn [c_type c_strat c_special c_int c_bool c_str c_delims d_type d_strat d_special d_int d_bool d_str d_delims]; do 6 (split; [congruence|]); exists ls2; auto.
Qed.
Lemma parse_int_ok o d v : orel o d -> orel (parse_int32 stale o v) (a_parse_int d v).
Proof.
  intros (H1 & H2 & H3 & H4 & H5 & H6 & ls & H7 & H8). unfold parse_int32, a_parse_int, a_discard, discard_step, set_strat, set_int, a_int, orel. rewrite H2. destruct (d_strat d) eqn:Ed; [| | |rewrite H3; destruct (d_special d) eqn:Esp]; cbn [c_type c_strat c_special c_int c_bool c_str c_delims d_type d_strat d_special d_int d_bool d_str d_delims]; rewrite ?H4; do 6 (split; [congruence|]); exists ls; auto.
Qed.
Lemma parse_bool_ok o d v : orel o d -> orel (parse_boolean o v) (a_parse_boolean d v).
Proof.
  intros (H1 & H2 & H3 & H4 & H5 & H6 & ls & H7 & H8). unfold parse_boolean, a_parse_boolean, a_discard, discard_step, set_strat, set_bool, a_bool, orel. rewrite H2. destruct (d_strat d) eqn:Ed; [| | |rewrite H3; destruct (d_special d) eqn:Esp]; cbn [c_type c_strat c_special c_int c_bool c_str c_delims d_type d_strat d_special d_int d_bool d_str d_delims]; rewrite ?H5; do 6 (split; [congruence|]); exists ls; auto.
Qed.
Lemma a_parse_int_type d v : d_type (a_parse_int d v) = d_type d /\ d_delims (a_parse_int d v) = d_delims d.
Proof. unfold a_parse_int, a_int, a_discard. destruct (d_strat d); [| | |destruct (d_special d)]; auto. Qed.
Lemma a_parse_bool_type d v : d_type (a_parse_boolean d v) = d_type d /\ d_delims (a_parse_boolean d v) = d_delims d.
Proof. unfold a_parse_boolean, a_bool, a_discard. destruct (d_strat d); [| | |destruct (d_special d)]; auto. Qed.
Lemma a_parse_string_type d ds v tr : d_type (a_parse_string d ds v tr) = d_type d /\ d_delims (a_parse_string d ds v tr) = d_delims d.
Proof. unfold a_parse_string, a_str, a_discard. destruct (d_strat d); [| | |destruct (d_special d)]; auto. Qed.
Lemma prepend_ok o d p ds f : orel o d -> match p with Some x => ~ In 0 x | None => True end -> exists o', prepend junk stale o p ds f = Ret o' /\ orel o' (a_prepend d p ds).
Proof.
  intros H Hp. unfold prepend, a_prepend. destruct p as [x|]; [|eauto]. pose proof H as (H1 & _ & _ & _ & _ & H6 & _). rewrite H1. destruct (d_type d); [eexists; split; [reflexivity|apply parse_int_ok, H]|eexists; split; [reflexivity|apply parse_bool_ok, H]| |].
  - destruct (parse_string_ok o d [] x false f H Hp) as (o' & -> & H'). cbn [bind fst]. eauto.
  - rewrite H6. destruct (parse_string_ok o d (match ds with Some e => e | None => d_delims d end) x false f H Hp) as (o' & -> & H'). cbn [bind fst]. eauto.
Qed.
Lemma trim_path_nonul v x : trim_path v = Some x -> ~ In 0 v -> ~ In 0 x.
Proof.
  unfold trim_path. destruct (rnpbrk [34] v) as [t|]; [|discriminate]. destruct (npbrk _ _) as [h|]; [|discriminate]. intros [= <-] H X. apply H. rewrite <- (firstn_skipn (S t) v). apply in_app_iff. left. rewrite <- (firstn_skipn h (firstn (S t) v)). apply in_app_iff. right. exact X.
Qed.
Lemma set_value_ok o d p ds v room f : orel o d -> ~ In 0 v -> exists o', set_value junk stale expand o p ds v room true f = Ret (o', f) /\ orel o' (a_value d ds v room).
Proof.
  intros H Hv. unfold set_value, a_value. pose proof H as (H1 & _ & _ & _ & _ & H6 & _). rewrite H1. destruct (d_type d); [eexists; split; [reflexivity|apply parse_int_ok, H]|eexists; split; [reflexivity|apply parse_bool_ok, H]| |].
  - destruct (trim_path v) as [x|] eqn:Et; [|eauto]. apply parse_string_ok; [exact H|]. apply Hexp. eapply trim_path_nonul; [exact Et|exact Hv].
  - rewrite H6. apply parse_string_ok; assumption.
Qed.
(** The table after a line. *)
Fixpoint a_update (t : atable) (n : list Z) (h : dopt -> dopt) : atable :=
  match t with [] => [] | (m, e) :: t' => (m, if str_eqb m n then match e with AOpt d => AOpt (h d) | _ => e end else e) :: a_update t' n h end.
Definition a_line (t : atable) (line : list Z) : atable :=
  match split_nv line with
  | None => t
  | Some (k, v) => match resolve t k with None => t | Some (n, p, ds) => a_update t n (fun d => a_set d (p, ds, v, (2048 - (length line - length v))%nat)) end
  end.
Lemma a_update_fst t n h : map fst (a_update t n h) = map fst t.
Proof. induction t as [|(m, e) t IH]; [reflexivity|]. cbn [a_update map fst]. rewrite IH. reflexivity. Qed.
Lemma a_update_in t n h m e : In (m, e) (a_update t n h) <-> exists e0, In (m, e0) t /\ e = if str_eqb m n then match e0 with AOpt d => AOpt (h d) | _ => e0 end else e0.
Proof.
  induction t as [|(m', e') t IH]; cbn [a_update In]; [split; [intros []|intros (? & [] & _)]|]. rewrite IH. split.
  - intros [[= <- <-]|(e0 & H & E)]; [exists e'; auto|exists e0; auto].
  - intros (e0 & [[= <- <-]|H] & ->); [left; reflexivity|right; eauto].
Qed.
Lemma a_update_good t n h : good_table t -> good_table (a_update t n h).
Proof.
  intros (G1 & G2 & G3 & G4). split; [rewrite a_update_fst; exact G1|]. split; [|split].
  - intros m e H. apply a_update_in in H. destruct H as (e0 & H & _). eapply G2, H.
  - intros m tg p d H. apply a_update_in in H. destruct H as (e0 & H & E). assert (e0 = AAlias tg p d) as -> by (destruct (str_eqb m n); [destruct e0; [discriminate|symmetry; exact E]|symmetry; exact E]). destruct (G3 _ _ _ _ H) as (o & Ho). destruct (str_eqb tg n) eqn:Et; [exists (h o)|exists o]; apply a_update_in; exists (AOpt o); rewrite Et; auto.
  - intros m tg p d H. apply a_update_in in H. destruct H as (e0 & H & E). assert (e0 = AAlias tg p d) as -> by (destruct (str_eqb m n); [destruct e0; [discriminate|symmetry; exact E]|symmetry; exact E]). eapply G4, H.
Qed.
Lemma krules_fst t t' : map fst t = map fst t' -> krules t = krules t'.
Proof. intros E. unfold krules. rewrite E. f_equal. f_equal. f_equal. rewrite <- (map_length fst t), E, map_length. reflexivity. Qed.
Lemma set_entry_ok g t i n d h o' : table g t -> NoDup (map fst t) -> nth_error t i = Some (n, AOpt d) -> orel o' (h d) -> table (set_entry g i o') (a_update t n h).
Proof.
  intros (HK & HF) HN Hi Ho. split; [cbn [set_entry g_keys]; rewrite (krules_fst _ t (a_update_fst t n h)); exact HK|]. cbn [set_entry g_store]. clear HK. revert i Hi. generalize (g_store g) as st, HF. clear HF. induction t as [|(m, e) t IH]; intros st HF i Hi; [destruct i; discriminate|].
  cbn [map snd] in HF. inversion HF as [|c ? st' ? Hr HF']; subst. cbn [map fst] in HN. inversion HN as [|? ? Hx HN']; subst. destruct i as [|i]; cbn [nth_error firstn skipn app a_update map snd] in *.
  - injection Hi as -> ->. rewrite str_eqb_refl. constructor; [exact Ho|]. assert (EU : a_update t n h = t). { clear -Hx. induction t as [|(m, e) t IH]; [reflexivity|]. cbn [a_update]. rewrite IH by (intros X; apply Hx; right; exact X). destruct (str_eqb m n) eqn:E; [|reflexivity]. apply str_eqb_eq in E. subst. exfalso. apply Hx. left. reflexivity. } rewrite EU. exact HF'.
  - assert (En : str_eqb m n = false) by (apply not_true_iff_false; intros E; apply str_eqb_eq in E; subst; apply Hx; apply (in_map fst) in Hi || idtac; change n with (fst (n, AOpt d)); apply in_map; eapply nth_error_In, Hi). rewrite En. constructor; [exact Hr|]. apply IH; assumption.
Qed.
Lemma split_nv_nonul l k v : split_nv l = Some (k, v) -> ~ In 0 l -> ~ In 0 v.
Proof.
  revert k v. induction l as [|c l IH]; intros k v; cbn [split_nv]; [discriminate|]. destruct (memz c [32; 9; 61]).
  - destruct (npbrk [9; 32] l) as [h|]; [|discriminate]. intros [= <- <-] H X. apply H. right. rewrite <- (firstn_skipn h l). apply in_app_iff. right. exact X.
  - destruct (split_nv l) as [(k', v')|]; [|discriminate]. intros [= <- <-] H. apply (IH k' v' eq_refl). intros X. apply H. right. exact X.
Qed.
Definition counts (t : atable) (line : list Z) : bool := match split_nv line with None => false | Some (k, _) => match resolve t k with None => false | Some _ => true end end.
Lemma config_line_ok g t line f : table g t -> good_table t -> ~ In 0 line -> exists g', config_line junk stale expand g line true f = Ret (counts t line, g', f) /\ table g' (a_line t line) /\ good_table (a_line t line).
Proof.
  intros HT HG H0. unfold config_line, a_line, counts. destruct (split_nv line) as [(k, v)|] eqn:Es; [|exists g; auto]. pose proof (get_opt_ok g t k HT HG) as HO. destruct (resolve t k) as [((n, p), ds)|] eqn:Er; [|rewrite HO; cbn [bind]; exists g; auto].
  destruct HO as (i & d & Hi & ->). cbn [bind]. destruct (store_nth g t i n _ HT Hi) as (e & -> & Hrel). destruct e as [o|]; [|destruct Hrel]. cbn [erel] in Hrel.
  assert (Hp : match p with Some x => ~ In 0 x | None => True end). { unfold resolve in Er. destruct (assoc t k) as [[dd|tg q e]|] eqn:Ea; [injection Er as <- <- <-; exact I| |discriminate]. injection Er as <- <- <-. apply assoc_in in Ea. destruct HG as (_ & _ & _ & G4). eapply G4, Ea. }
  destruct (prepend_ok o d p ds f Hrel Hp) as (o1 & -> & Hr1). cbn [bind]. destruct (set_value_ok o1 _ p ds v (2048 - (length line - length v)) f Hr1 (split_nv_nonul _ _ _ Es H0)) as (o2 & -> & Hr2). cbn [bind fst snd].
  eexists. split; [reflexivity|]. split; [|apply a_update_good, HG]. eapply set_entry_ok; [exact HT|apply HG|exact Hi|]. exact Hr2.
Qed.
Lemma drop_in c l : In c (drop_blanks l) -> In c l.
Proof. induction l as [|d l IH]; cbn [drop_blanks]; [auto|]. destruct (Hosts_Model.is_space d); [right; auto|auto]. Qed.
Lemma uncomment_in c l : In c (uncomment l) -> In c l.
Proof. induction l as [|d l IH]; cbn [uncomment]; [auto|]. destruct ((d =? 35) || (d =? 59)); [intros []|]. intros [X|X]; [left; exact X|right; auto]. Qed.
Lemma visible_nonul l : ~ In 0 l -> ~ In 0 (visible l).
Proof. intros H X. apply H. unfold visible, trim in X. rewrite <- in_rev in X. apply drop_in in X. rewrite <- in_rev in X. apply drop_in in X. apply uncomment_in, X. Qed.
Lemma content_nonul size bs : Forall (line_ok size) (file_lines bs) -> Forall (fun l => ~ In 0 l) (content bs).
Proof. unfold content. induction 1 as [|l ls Hl HF IH]; cbn [map filter]; [constructor|]. destruct (nonempty (visible l)); [|exact IH]. constructor; [|exact IH]. apply visible_nonul. apply Hl. Qed.
Lemma a_line_counts t line l2 : good_table t -> counts (a_line t line) l2 = counts t l2.
Proof.
  intros (HN & _). unfold counts. destruct (split_nv l2) as [(k, v)|]; [|reflexivity]. unfold a_line. destruct (split_nv line) as [(k', v')|]; [|reflexivity]. destruct (resolve t k') as [((n, p), ds)|]; [|reflexivity].
  set (t' := a_update t n _). assert (E : resolve t' k = resolve t k). { unfold resolve. destruct (assoc t k) as [e|] eqn:Ea.
    - pose proof (assoc_in _ _ _ Ea) as Hi. assert (Hn' : NoDup (map fst t')) by (unfold t'; rewrite a_update_fst; exact HN). destruct e as [d|tg q r].
      + destruct (str_eqb k n) eqn:En.
        * rewrite (in_assoc t' k (AOpt (a_set d (p, ds, v', (2048 - (length line - length v'))%nat))) Hn'); [reflexivity|]. apply a_update_in. exists (AOpt d). rewrite En. auto.
        * rewrite (in_assoc t' k (AOpt d) Hn'); [reflexivity|]. apply a_update_in. exists (AOpt d). rewrite En. auto.
      + rewrite (in_assoc t' k (AAlias tg q r) Hn'); [reflexivity|]. apply a_update_in. exists (AAlias tg q r). destruct (str_eqb k n); auto.
    - destruct (assoc t' k) as [e|] eqn:Ea'; [|reflexivity]. exfalso. apply assoc_in in Ea'. apply a_update_in in Ea'. destruct Ea' as (e0 & Hi & _). rewrite (in_assoc _ _ _ HN Hi) in Ea. discriminate. }
  rewrite E. reflexivity.
Qed.
Lemma config_read_ok fuel : forall g t bs e n, table g t -> good_table t -> (e = true -> bs = []) -> Forall (line_ok 2048) (file_lines bs) -> end_ok bs -> (length bs < fuel)%nat ->
  exists g', config_read junk stale expand fuel g (mkf bs e) n = Ret (n + Z.of_nat (length (filter (counts t) (content bs))), g') /\ table g' (fold_left a_line (content bs) t) /\ good_table (fold_left a_line (content bs) t).
Proof.
  induction fuel as [|fuel IH]; intros g t bs e n HT HG He HF HE Hf; [lia|]. cbn [config_read]. unfold read_line1. cbn [f_bytes].
  pose proof (read_line_ok 2048 ltac:(lia) (length bs) bs e (S (length bs)) (le_n _) ltac:(lia) He HF HE) as HR. pose proof (content_nonul _ _ HF) as HNU. destruct (content bs) as [|v vs]; [destruct HR as (f' & ->); cbn [bind fst snd filter length]; rewrite Z.add_0_r; exists g; cbn [fold_left]; auto|].
  destruct HR as (f' & -> & G1 & G2 & G3 & G4 & G5). cbn [bind fst snd]. destruct (config_line_ok g t v f' HT HG (Forall_inv HNU)) as (g1 & -> & HT1 & HG1). cbn [bind fst snd]. destruct f' as [bs' e']. cbn [f_bytes] in *.
  destruct (IH g1 (a_line t v) bs' e' (if counts t v then n + 1 else n) HT1 HG1 G1 G4 G5 ltac:(lia)) as (g' & -> & HT' & HG'). rewrite G2 in *. exists g'. split; [|cbn [fold_left]; auto].
  do 2 f_equal. rewrite (filter_ext _ (counts t)) by (intros l; apply a_line_counts, HG). cbn [filter]. destruct (counts t v); cbn [length]; lia.
Qed.
(** What a sequence of lines does to one option. *)
Definition given (t : atable) (n : list Z) (lines : list (list Z)) : list (option (list Z) * option (list Z) * list Z * nat) :=
  flat_map (fun line => match split_nv line with
                        | None => []
                        | Some (k, v) => match resolve t k with
                                         | Some (m, p, ds) => if str_eqb n m then [(p, ds, v, (2048 - (length line - length v))%nat)] else []
                                         | None => []
                                         end
                        end) lines.
Lemma resolve_update t n h k : NoDup (map fst t) -> resolve (a_update t n h) k = resolve t k.
Proof.
  intros HN. assert (Hn' : NoDup (map fst (a_update t n h))) by (rewrite a_update_fst; exact HN). unfold resolve. destruct (assoc t k) as [e|] eqn:Ea.
  - pose proof (assoc_in _ _ _ Ea) as Hi. destruct e as [d|tg q r].
    + destruct (str_eqb k n) eqn:En; [rewrite (in_assoc _ k (AOpt (h d)) Hn')|rewrite (in_assoc _ k (AOpt d) Hn')]; try reflexivity; apply a_update_in; exists (AOpt d); rewrite En; auto.
    + rewrite (in_assoc _ k (AAlias tg q r) Hn'); [reflexivity|]. apply a_update_in. exists (AAlias tg q r). destruct (str_eqb k n); auto.
  - destruct (assoc (a_update t n h) k) as [e|] eqn:Ea'; [|reflexivity]. exfalso. apply assoc_in in Ea'. apply a_update_in in Ea'. destruct Ea' as (e0 & Hi & _). rewrite (in_assoc _ _ _ HN Hi) in Ea. discriminate.
Qed.
Lemma fold_option lines : forall t n d, NoDup (map fst t) -> In (n, AOpt d) t -> In (n, AOpt (fold_left a_set (given t n lines) d)) (fold_left a_line lines t).
Proof.
  induction lines as [|line lines IH]; intros t n d HN Hi; [exact Hi|]. cbn [fold_left given flat_map]. fold (given t n lines). rewrite fold_left_app.
  assert (HL : NoDup (map fst (a_line t line)) /\ (forall k, resolve (a_line t line) k = resolve t k)). { unfold a_line. destruct (split_nv line) as [(k, v)|]; [|auto]. destruct (resolve t k) as [((m, p), ds)|]; [|auto]. split; [rewrite a_update_fst; exact HN|intros q; apply resolve_update, HN]. }
  destruct HL as (HN' & HR). assert (EG : given t n lines = given (a_line t line) n lines). { unfold given. apply flat_map_ext. intros l. destruct (split_nv l) as [(k, v)|]; [|reflexivity]. rewrite HR. reflexivity. }
  rewrite EG. apply IH; [exact HN'|]. unfold a_line. destruct (split_nv line) as [(k, v)|]; [|exact Hi]. destruct (resolve t k) as [((m, p), ds)|]; [|exact Hi]. apply a_update_in. exists (AOpt d). split; [exact Hi|]. destruct (str_eqb n m); reflexivity.
Qed.
End S.
