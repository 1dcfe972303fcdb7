(** Proofs about the hosts tables. *)
From Verif Require Import Base BaseFacts List2Facts Hash_Model Sht_Model Sht_Proofs Chunk_Model Chunk_Spec Chunk_Proofs Hosts_Model Hosts_Spec.
Require Import ZifyBool ZifyNat.

Lemma nth_error_Some_lt {A} (l : list A) i x : nth_error l i = Some x -> (i < length l)%nat.
Proof. intros H. apply nth_error_Some. congruence. Qed.

(** ** Words *)
Lemma is_space_blank c : is_space c = true <-> blank c.
Proof. unfold is_space, blank. lia. Qed.
Lemma is_digit_digit c : is_digit c = true <-> digit c.
Proof. unfold is_digit, digit. lia. Qed.
Lemma is_alpha_letter c : is_alpha c = true <-> letter c.
Proof. unfold is_alpha, letter. lia. Qed.
Lemma is_xdigit_hex c : is_xdigit c = true <-> hexdigit c.
Proof. unfold is_xdigit, is_digit, hexdigit, digit. lia. Qed.
Lemma bool_false_iff b P : (b = true <-> P) -> (b = false <-> ~ P).
Proof. destruct b; intuition congruence. Qed.

Lemma skip_space_app b l : (forall c, In c b -> blank c) -> skip_space (b ++ l) = skip_space l.
Proof.
  induction b as [|c b IH]; intros H; cbn [app skip_space]; [reflexivity|].
  rewrite (proj2 (is_space_blank c)) by (apply H; cbn; auto). apply IH. intros; apply H; cbn; auto.
Qed.
Lemma skip_space_word w l : w <> [] -> (forall c, In c w -> ~ blank c) -> skip_space (w ++ l) = w ++ l.
Proof. destruct w as [|c w]; intros H1 H2; [congruence|]. cbn [app skip_space]. destruct (is_space c) eqn:E; [|reflexivity]. apply is_space_blank in E. exfalso. apply (H2 c); cbn; auto. Qed.
Lemma take_token_word w l : forall n, (length w <= n)%nat -> (forall c, In c w -> ~ blank c) -> match l with [] => True | c :: _ => blank c end ->
  take_token n (w ++ l) = (w, l).
Proof.
  induction w as [|c w IH]; intros n Hn Hw Hl; cbn [app].
  - destruct n; [reflexivity|]. destruct l as [|c l]; [reflexivity|]. cbn [take_token]. rewrite (proj2 (is_space_blank c) Hl). reflexivity.
  - destruct n as [|n]; [cbn in Hn; lia|]. cbn [take_token]. destruct (is_space c) eqn:E.
    + apply is_space_blank in E. exfalso. apply (Hw c); cbn; auto.
    + rewrite IH; [reflexivity|cbn in Hn; lia| |exact Hl]. intros; apply Hw; cbn; auto.
Qed.
Lemma scan_token_word b w l : (forall c, In c b -> blank c) -> word w -> match l with [] => True | c :: _ => blank c end ->
  scan_token 128 (b ++ w ++ l) = Some (w, l).
Proof.
  intros Hb (Hw & Hn & Hc) Hl. unfold scan_token. rewrite skip_space_app by exact Hb. rewrite skip_space_word by assumption.
  rewrite take_token_word by assumption. destruct w; [congruence|reflexivity].
Qed.
Lemma scan_token_blank b : (forall c, In c b -> blank c) -> scan_token 128 b = None.
Proof. intros Hb. unfold scan_token. rewrite <- (app_nil_r b), skip_space_app by exact Hb. reflexivity. Qed.

Lemma existsb_in (f : Z -> bool) l x : In x l -> f x = true -> existsb f l = true.
Proof. intros. apply existsb_exists. eauto. Qed.
Lemma existsb_none (f : Z -> bool) l : (forall x, In x l -> f x = false) -> existsb f l = false.
Proof. intros H. destruct (existsb f l) eqn:E; [|reflexivity]. apply existsb_exists in E. destruct E as (x & Hx & E). rewrite (H x Hx) in E. discriminate. Qed.
Lemma not_list c w : c <> 60 -> (match c :: w with 60 :: _ => last (c :: w) 0 =? 62 | _ => false end) = false.
Proof. intros H. destruct c as [|p|p]; try reflexivity. do 6 (destruct p as [p|p|]; try reflexivity). congruence. Qed.
Lemma not_excl c w : c <> 64 -> (match c :: w with 64 :: 64 :: _ => true | _ => false end) = false.
Proof. intros H. destruct c as [|p|p]; try reflexivity. do 7 (destruct p as [p|p|]; try reflexivity). congruence. Qed.
Lemma until_gt_ok x y n : ~ In 62 x -> (length x <= n)%nat -> until_gt n (x ++ 62 :: y) = x.
Proof.
  revert n. induction x as [|c x IH]; intros n H1 H2; cbn [app].
  - destruct n; reflexivity.
  - destruct n as [|n]; [cbn in H2; lia|]. cbn [until_gt]. destruct (Z.eqb_spec c 62) as [->|Hc]; [exfalso; apply H1; cbn; auto|]. rewrite IH; [reflexivity| |cbn in H2; lia]. intros HI. apply H1; cbn; auto.
Qed.
Lemma last_app_cons {A} (a : list A) x b d : last (a ++ x :: b) d = last (x :: b) d.
Proof. induction a as [|y a IH]; [reflexivity|]. cbn [app]. change (last (y :: (a ++ x :: b)) d = last (x :: b) d). rewrite <- IH. destruct (a ++ x :: b) eqn:E; [destruct a; discriminate|reflexivity]. Qed.

Section P.
Context (parse : list Z -> ipaddr).

Lemma load_two h line w1 w2 : two_words line w1 w2 -> hosts_load parse h line = hosts_add parse h w1 w2.
Proof.
  intros (b1 & b2 & rest & -> & Hw1 & Hw2 & Hb1 & Hb2n & Hb2 & Hr). unfold hosts_load. rewrite (scan_token_word b1 w1 (b2 ++ w2 ++ rest)); auto.
  - rewrite (scan_token_word b2 w2 rest); auto.
  - destruct b2 as [|c b2]; [congruence|]. apply Hb2; cbn; auto.
Qed.
Lemma load_short h line : incomplete line -> hosts_load parse h line = Ret (HT_unknown, h).
Proof.
  intros [H|(b1 & w & b2 & -> & Hw & Hb1 & Hb2)]; unfold hosts_load.
  - rewrite scan_token_blank by exact H. reflexivity.
  - rewrite (scan_token_word b1 w b2); auto; [rewrite scan_token_blank by exact Hb2; reflexivity|]. destruct b2 as [|c b2]; [exact I|]. apply Hb2; cbn; auto.
Qed.

(** ** Reading the first word *)
Definition kind (t : target) : htype :=
  match t with V4 _ => HT_a | V6 _ => HT_aaaa | Alias _ => HT_cname | Excluded => HT_exclude | IpList _ => HT_good end.
Definition arg (t : target) : harg :=
  match t with V4 a | V6 a => HA_addr a | Alias s | IpList s => HA_text s | Excluded => HA_null end.

Lemma reads_type w t : reads parse w t -> determine_type w = kind t.
Proof.
  intros H. destruct H as [x y Hx Hl Hy|w|c w Hc H58|c w Hc H58 Hw|c w x Hc H58 Hx Hxl|c w Hc Hw]; cbn [kind]; unfold determine_type.
  - replace (last (60 :: x ++ 62 :: y) 0) with 62; [reflexivity|]. change (62 = last ((60 :: x) ++ 62 :: y) 0). rewrite last_app_cons. destruct Hy as [->|Hy]; [reflexivity|]. destruct y; [reflexivity|]. symmetry. exact Hy.
  - reflexivity.
  - rewrite not_list by (destruct Hc as [Hc| ->]; [unfold hexdigit, digit in Hc; lia|lia]). rewrite not_excl by (destruct Hc as [Hc| ->]; [unfold hexdigit, digit in Hc; lia|lia]).
    destruct (is_xdigit c) eqn:E; [rewrite (existsb_in _ _ 58) by auto; reflexivity|].
    destruct Hc as [Hc| ->]; [apply is_xdigit_hex in Hc; congruence|reflexivity].
  - unfold digit in Hc. rewrite not_list, not_excl by lia. replace (is_xdigit c) with true by (unfold is_xdigit, is_digit; lia).
    rewrite existsb_none. 2:{ intros x [<-|Hx]; [lia|]. destruct (Z.eqb_spec x 58); [subst; tauto|reflexivity]. }
    rewrite existsb_none. 2:{ intros x [<-|Hx]; [unfold is_alpha; lia|]. destruct (Hw x Hx) as [A B]. rewrite <- is_alpha_letter in A. destruct (is_alpha x); [congruence|lia]. }
    rewrite (existsb_in _ _ c); [reflexivity|cbn; auto|unfold is_digit; lia].
  - rewrite not_list, not_excl by (unfold hexdigit, digit in Hc; lia). rewrite (proj2 (is_xdigit_hex c) Hc).
    rewrite existsb_none. 2:{ intros z [<-|Hz]; [unfold hexdigit, digit in Hc; lia|]. destruct (Z.eqb_spec z 58); [subst; tauto|reflexivity]. }
    rewrite (existsb_in _ _ x); [reflexivity|exact Hx|]. destruct Hxl as [Hl| ->]; [apply is_alpha_letter in Hl; rewrite Hl; reflexivity|apply orb_true_r].
  - pose proof (Hw c (or_introl eq_refl)) as Hc2. unfold letter, digit in Hc2. rewrite not_list, not_excl by lia.
    destruct (is_xdigit c) eqn:E; [apply is_xdigit_hex in E; tauto|]. destruct (Z.eqb_spec c 58); [lia|].
    rewrite existsb_none; [reflexivity|]. intros x Hx. specialize (Hw x Hx). unfold letter, digit in Hw. unfold is_alnum, is_digit, is_alpha. lia.
Qed.
Lemma reads_add w t h d : reads parse w t -> hosts_add parse h w d = (let! h' := add_node h d (kind t) (arg t) in Ret (kind t, h')).
Proof.
  intros H. unfold hosts_add. rewrite (reads_type w t H). destruct H; cbn [kind arg]; try reflexivity.
  cbn [tl]. rewrite until_gt_ok by (auto; lia). destruct x; [cbn in *; lia|reflexivity].
Qed.
Lemma unreadable_add w h d : unreadable w -> hosts_add parse h w d = Ret (HT_unknown, h).
Proof.
  intros (c & w' & -> & Hc & Hc58 & (x & Hx & X1 & X2 & X3 & X4) & HL & HX). unfold hosts_add.
  replace (determine_type (c :: w')) with HT_unknown; [reflexivity|]. unfold determine_type. symmetry.
  destruct (Z.eq_dec c 60) as [->|N60].
  - assert (HL' : last (60 :: w') 0 <> 62) by tauto. destruct (Z.eqb_spec (last (60 :: w') 0) 62); [congruence|].
    change (is_xdigit 60) with false. cbv iota. rewrite (existsb_in _ _ x); [reflexivity|exact Hx|]. unfold letter, digit in *. unfold is_alnum, is_digit, is_alpha. lia.
  - rewrite not_list by exact N60. assert (E : match c :: w' with 64 :: 64 :: _ => true | _ => false end = false).
    { destruct (Z.eq_dec c 64) as [->|N64]; [|apply not_excl; exact N64]. destruct w' as [|c2 w2]; [reflexivity|]. destruct (Z.eq_dec c2 64) as [->|N2]; [exfalso; eauto|].
      destruct c2 as [|p|p]; try reflexivity. do 7 (destruct p as [p|p|]; try reflexivity). congruence. }
    rewrite E. destruct (is_xdigit c) eqn:E2; [apply is_xdigit_hex in E2; tauto|]. destruct (Z.eqb_spec c 58); [congruence|].
    rewrite (existsb_in _ _ x); [reflexivity|exact Hx|]. unfold letter, digit in *. unfold is_alnum, is_digit, is_alpha. lia.
Qed.

End P.

(** ** The table *)
Section T.
Implicit Types (its : list (list Z * target)).
Definition idx its (k : list Z) : list nat :=
  filter (fun j => match nth_error its j with Some i => str_eqb (fst i) k | None => false end) (seq 0 (length its)).
Definition arr {A} (l : list A) : list A := match l with [] => [] | x :: r => x :: rev r end.
Definition mem (k : list Z) (l : list (list Z)) : bool := existsb (fun x => str_eqb x k) l.
Definition keys its : list (list Z) := fold_left (fun l i => if mem (fst i) l then l else l ++ [fst i]) its [].

Fixpoint hchain (ns : list hnode) (o : option nat) (l : list nat) : Prop :=
  match l with
  | [] => o = None
  | i :: l' => o = Some i /\ exists n, nth_error ns i = Some n /\ hchain ns (hn_next n) l'
  end.
Definition node_is (ips : list ipaddr) (n : hnode) (t : target) : Prop :=
  hn_type n = kind t /\
  match t with
  | V4 a | V6 a => exists i, hn_data n = HD_addr i /\ nth_error ips i = Some a
  | Alias s | IpList s => hn_data n = HD_text s
  | Excluded => hn_data n = HD_null
  end.
Record hinv (h : hosts) its : Prop := {
  hi_map : kinv (h_map h) (map (fun k => (k, hd_error (idx its k))) (keys its));
  hi_len : length (h_nodes h) = length its;
  hi_nodes : forall j i, nth_error its j = Some i -> exists n, nth_error (h_nodes h) j = Some n /\ node_is (h_ips h) n (snd i);
  hi_chain : forall k, hchain (h_nodes h) (hd_error (idx its k)) (arr (idx its k)) }.

Lemma str_eqb_refl k : str_eqb k k = true.
Proof. apply str_eqb_eq. reflexivity. Qed.
Lemma mem_in k l : mem k l = true <-> In k l.
Proof. unfold mem. rewrite existsb_exists. split; [intros (x & Hx & E); apply str_eqb_eq in E; subst; exact Hx|intros H; exists k; split; [exact H|apply str_eqb_refl]]. Qed.
Lemma keys_snoc its i : keys (its ++ [i]) = if mem (fst i) (keys its) then keys its else keys its ++ [fst i].
Proof. unfold keys. rewrite fold_left_app. reflexivity. Qed.
Lemma keys_in its k : In k (keys its) <-> exists t, In (k, t) its.
Proof.
  induction its as [|[k2 t2] its IH] using rev_ind.
  - split; [intros []|intros (t & [])].
  - rewrite keys_snoc. cbn [fst]. destruct (mem k2 (keys its)) eqn:E; rewrite ?in_app_iff, IH.
    + split; [intros (t & H); exists t; apply in_or_app; auto|]. intros (t & H). apply in_app_or in H. destruct H as [H|[[= <- <-]|[]]]; [eauto|]. apply IH, mem_in. exact E.
    + split; [intros [(t & H)|[<-|[]]]; [exists t|exists t2]; apply in_or_app; cbn; auto|]. intros (t & H). apply in_app_or in H. destruct H as [H|[[= <- <-]|[]]]; [eauto|]. right. left. reflexivity.
Qed.
Lemma keys_nodup its : NoDup (keys its).
Proof.
  induction its as [|i its IH] using rev_ind; [constructor|]. rewrite keys_snoc. destruct (mem (fst i) (keys its)) eqn:E; [exact IH|].
  apply NoDup_rev in IH. rewrite <- (rev_involutive (keys its ++ _)). apply NoDup_rev. rewrite rev_app_distr. cbn [rev app]. constructor; [|exact IH].
  intros H. apply in_rev in H. apply mem_in in H. congruence.
Qed.
Lemma idx_snoc its i k : idx (its ++ [i]) k = idx its k ++ (if str_eqb (fst i) k then [length its] else []).
Proof.
  unfold idx. rewrite app_length. cbn [length]. rewrite Nat.add_1_r, seq_S, filter_app. cbn [plus filter]. f_equal.
  - apply filter_ext_in. intros j Hj. apply in_seq in Hj. rewrite nth_error_app1 by lia. reflexivity.
  - rewrite nth_error_app2, Nat.sub_diag by lia. cbn [nth_error]. reflexivity.
Qed.
Lemma idx_in its k j : In j (idx its k) <-> exists t, nth_error its j = Some (k, t).
Proof.
  unfold idx. rewrite filter_In, in_seq. split.
  - intros (_ & H). destruct (nth_error its j) as [[k2 t]|]; [|discriminate]. cbn [fst] in H. apply str_eqb_eq in H. subst. eauto.
  - intros (t & H). rewrite H. cbn [fst]. rewrite str_eqb_refl. split; [|reflexivity]. apply nth_error_Some_lt in H. lia.
Qed.
Lemma idx_hd its k : In k (keys its) -> exists x r, idx its k = x :: r.
Proof.
  intros H. apply keys_in in H. destruct H as (t & H). apply In_nth_error in H. destruct H as (j & H).
  assert (HI : In j (idx its k)) by (apply idx_in; eauto). destruct (idx its k) as [|x r]; [destruct HI|eauto].
Qed.
Lemma idx_nil its k : ~ In k (keys its) -> idx its k = [].
Proof. intros H. destruct (idx its k) as [|x r] eqn:E; [reflexivity|]. exfalso. apply H, keys_in. assert (HI : In x (idx its k)) by (rewrite E; cbn; auto). apply idx_in in HI. destruct HI as (t & HI). exists t. eapply nth_error_In. exact HI. Qed.

Lemma map_find its h (f : list Z -> bool) : find (fun r => f (fst r)) (map (fun k => (k, h k)) (keys its)) = option_map (fun k => (k, h k : option nat)) (find f (keys its)).
Proof. rewrite find_map. reflexivity. Qed.
Lemma find_key l k : NoDup l -> In k l -> forall f, (forall x, In x l -> f x = str_eqb x k) -> find f l = Some k.
Proof.
  induction l as [|x l IH]; intros HN HI f Hf; [destruct HI|]. destruct HI as [->|HI].
  - cbn [find]. rewrite (Hf k) by (cbn; auto). rewrite str_eqb_refl. reflexivity.
  - apply NoDup_cons_iff in HN. destruct HN as [Hx HN]. cbn [find]. rewrite (Hf x) by (cbn; auto).
    destruct (str_eqb x k) eqn:E; [apply str_eqb_eq in E; subst; tauto|]. apply IH; auto. intros; apply Hf; cbn; auto.
Qed.
Lemma find_nokey {A} (l : list A) f : (forall x, In x l -> f x = false) -> find f l = None.
Proof. intros H. destruct (find f l) eqn:E; [|reflexivity]. apply find_some in E. destruct E as [E1 E2]. rewrite (H _ E1) in E2. discriminate. Qed.

Lemma plain_lookup h its name : hinv h its ->
  match_plain (h_map h) name None any_data = Ret (if negb (has_wildcard name) && mem name (keys its) then Some (hd_error (idx its name)) else None).
Proof.
  intros HI. rewrite (match_plain_ok _ _ name None any_data (hi_map _ _ HI) (or_introl eq_refl)). f_equal.
  rewrite <- map_rev. rewrite find_map. cbn [fst snd]. unfold any_data.
  destruct (has_wildcard name) eqn:EW; cbn [negb andb].
  - rewrite find_nokey; [reflexivity|]. intros x Hx. destruct (str_eqb x name) eqn:E; [|rewrite andb_false_r; reflexivity]. apply str_eqb_eq in E. subst. rewrite EW. reflexivity.
  - destruct (mem name (keys its)) eqn:EM.
    + rewrite (find_key (rev (keys its)) name); [reflexivity|apply NoDup_rev, keys_nodup|apply -> in_rev; apply mem_in; exact EM|].
      intros x Hx. rewrite andb_true_r. destruct (str_eqb x name) eqn:E; [|rewrite andb_false_r; reflexivity]. apply str_eqb_eq in E. subst. rewrite EW. reflexivity.
    + rewrite find_nokey; [reflexivity|]. intros x Hx. rewrite andb_true_r. destruct (str_eqb x name) eqn:E; [|apply andb_false_r]. apply str_eqb_eq in E. subst. apply in_rev, mem_in in Hx. congruence.
Qed.
Lemma wild_exact_find (l : list (entry nat)) s : wild_exact_loop l s any_data = option_map (fun e => e_data e) (find (fun e => str_eqb s (e_str e)) l).
Proof. induction l as [|e l IH]; cbn [wild_exact_loop find]; [reflexivity|]. unfold any_data at 1. rewrite andb_true_r. destruct (str_eqb s (e_str e)); [reflexivity|exact IH]. Qed.
Lemma str_eqb_sym a b : str_eqb a b = str_eqb b a.
Proof. destruct (str_eqb a b) eqn:E, (str_eqb b a) eqn:E2; try reflexivity; [apply str_eqb_eq in E; subst; rewrite str_eqb_refl in E2|apply str_eqb_eq in E2; subst; rewrite str_eqb_refl in E]; discriminate. Qed.
Lemma find_exist_ok h its name : hinv h its -> find_exist h name = Ret (hd_error (idx its name)).
Proof.
  intros HI. unfold find_exist, chunk_match_exactly, orelse. rewrite (plain_lookup h its name HI). cbn [bind].
  destruct (mem name (keys its)) eqn:EM.
  - apply mem_in in EM. destruct (idx_hd its name EM) as (x & r & Ex). rewrite Ex. cbn [hd_error].
    destruct (has_wildcard name) eqn:EW; cbn [negb andb]; [|reflexivity].
    rewrite wild_exact_find, (ki_wild _ _ (hi_map _ _ HI)), find_map. cbn [e_str ent].
    rewrite find_filter by (intros y _ Hy; apply str_eqb_eq in Hy; rewrite <- Hy; exact EW).
    rewrite (map_find its (fun k => hd_error (idx its k)) (fun k => str_eqb name k)).
    rewrite (find_key (keys its) name (keys_nodup its) EM) by (intros; apply str_eqb_sym). cbn [option_map e_data ent snd]. rewrite Ex. reflexivity.
  - rewrite andb_false_r. rewrite wild_exact_find, find_nokey; [cbn [option_map]|].
    + rewrite idx_nil; [reflexivity|]. intros H. apply mem_in in H. congruence.
    + rewrite (ki_wild _ _ (hi_map _ _ HI)). intros x Hx. apply in_map_iff in Hx. destruct Hx as (r & <- & Hr). apply filter_In in Hr. destruct Hr as [Hr _].
      apply in_map_iff in Hr. destruct Hr as (k & <- & Hk). cbn [ent e_str fst]. destruct (str_eqb name k) eqn:E; [|reflexivity]. apply str_eqb_eq in E. subst. apply mem_in in Hk. congruence.
Qed.

Lemma hinv_init : hinv hosts_init [].
Proof. constructor; [apply kinv_init|reflexivity|intros [|j] i H; discriminate|reflexivity]. Qed.

Lemma hchain_app ns ns2 l : forall o, hchain ns o l -> hchain (ns ++ ns2) o l.
Proof.
  induction l as [|i l IH]; intros o H; [exact H|]. destruct H as (-> & n & Hn & Hc). split; [reflexivity|]. exists n. split; [|apply IH; exact Hc].
  rewrite nth_error_app1; [exact Hn|]. apply nth_error_Some_lt in Hn. exact Hn.
Qed.
Lemma hchain_lset ns x v l : forall o, ~ In x l -> hchain ns o l -> hchain (lset ns x v) o l.
Proof.
  induction l as [|i l IH]; intros o HN H; [exact H|]. destruct H as (-> & n & Hn & Hc). split; [reflexivity|]. exists n. split; [|apply IH; [|exact Hc]].
  - rewrite lset_nth. destruct (Nat.eqb_spec x i) as [->|Hne]; [exfalso; apply HN; cbn; auto|exact Hn].
  - intros HI. apply HN. cbn; auto.
Qed.
Lemma node_is_app ips ips2 n t : node_is ips n t -> node_is (ips ++ ips2) n t.
Proof. intros [H1 H2]. split; [exact H1|]. destruct t; auto; destruct H2 as (i & H2 & H3); exists i; (split; [exact H2|]); rewrite nth_error_app1; auto; apply nth_error_Some_lt in H3; exact H3. Qed.

Lemma ip_eqb_eq a b : ip_eqb a b = true <-> a = b.
Proof. unfold ip_eqb. rewrite andb_true_iff, str_eqb_eq, Z.eqb_eq. destruct a, b; cbn. split; [intros [-> ->]; reflexivity|intros [= -> ->]; auto]. Qed.
Lemma ip_index_some l a : forall i, ip_index l a = Some i -> nth_error l i = Some a.
Proof.
  induction l as [|b l IH]; intros i H; cbn [ip_index] in H; [discriminate|]. destruct (ip_eqb b a) eqn:E.
  - injection H as <-. apply ip_eqb_eq in E. subst. reflexivity.
  - destruct (ip_index l a) as [j|]; [|discriminate]. injection H as <-. cbn. auto.
Qed.

Lemma add_node_ok h its k t : hinv h its -> exists h', add_node h k (kind t) (arg t) = Ret h' /\ hinv h' (its ++ [(k, t)]).
Proof.
  intros HI. unfold add_node.
  set (dp := match arg t with HA_addr a => _ | HA_text s => _ | HA_null => _ end).
  assert (HD : exists d ips2, dp = (d, h_ips h ++ ips2) /\ forall nx, node_is (h_ips h ++ ips2) (mk_hn nx (kind t) d) t).
  { unfold dp. destruct t as [a|a|s| |s]; cbn [arg kind]; try (eexists _, []; rewrite app_nil_r; split; [reflexivity|]; intros; split; reflexivity);
    (destruct (ip_index (h_ips h) a) as [i|] eqn:E; [exists (HD_addr i), []|eexists _, [a]]); rewrite ?app_nil_r; (split; [reflexivity|]); intros nx; (split; [reflexivity|]); cbn [hn_data];
      eexists; (split; [reflexivity|]); [apply ip_index_some; exact E|rewrite nth_error_app2, Nat.sub_diag by lia; reflexivity|apply ip_index_some; exact E|rewrite nth_error_app2, Nat.sub_diag by lia; reflexivity]. }
  clearbody dp. destruct HD as (d & ips2 & -> & HD). rewrite (find_exist_ok h its k HI). cbn [bind].
  destruct HI as [HM HL HN HC]. rewrite HL. destruct (idx its k) as [|x r] eqn:EI; cbn [hd_error].
  - (* a new domain *)
    eexists. split; [reflexivity|].
    assert (HK : mem k (keys its) = false) by (destruct (mem k (keys its)) eqn:E; [apply mem_in, idx_hd in E; destruct E as (? & ? & E); congruence|reflexivity]).
    split; cbn [h_map h_nodes h_ips].
    + rewrite keys_snoc. cbn [fst]. rewrite HK, map_app. cbn [map]. rewrite idx_snoc. cbn [fst]. rewrite str_eqb_refl, EI. cbn [app hd_error].
      replace (map (fun k0 => (k0, hd_error (idx (its ++ [(k, t)]) k0))) (keys its)) with (map (fun k0 => (k0, hd_error (idx its k0))) (keys its)); [apply kinv_add; exact HM|].
      apply map_ext_in. intros k2 Hk2. rewrite idx_snoc. cbn [fst]. destruct (str_eqb k k2) eqn:E; [apply str_eqb_eq in E; subst; apply mem_in in Hk2; congruence|]. rewrite app_nil_r. reflexivity.
    + rewrite !app_length, HL. reflexivity.
    + intros j i Hj. destruct (Nat.eq_dec j (length its)) as [->|Hne].
      * rewrite nth_error_app2, Nat.sub_diag in Hj by lia. cbn in Hj. injection Hj as <-. eexists. rewrite nth_error_app2 by lia. rewrite HL, Nat.sub_diag. split; [reflexivity|]. apply HD.
      * assert (j < length its)%nat by (apply nth_error_Some_lt in Hj; rewrite app_length in Hj; cbn in Hj; lia). rewrite nth_error_app1 in Hj by lia.
        destruct (HN j i Hj) as (n & Hn & Hi). exists n. rewrite nth_error_app1 by lia. split; [exact Hn|]. apply node_is_app. exact Hi.
    + intros k2. rewrite idx_snoc. cbn [fst]. destruct (str_eqb k k2) eqn:E.
      * apply str_eqb_eq in E. subst k2. rewrite EI. cbn [app hd_error arr rev hchain]. split; [reflexivity|]. eexists. rewrite nth_error_app2 by lia. rewrite HL, Nat.sub_diag. split; reflexivity.
      * rewrite app_nil_r. apply hchain_app. apply HC.
  - (* after the head *)
    pose proof (HC k) as HCk. rewrite EI in HCk. cbn [hd_error arr hchain] in HCk. destruct HCk as (_ & n & Hn & Hr). rewrite Hn.
    eexists. split; [reflexivity|].
    assert (HK : mem k (keys its) = true) by (destruct (mem k (keys its)) eqn:E; [reflexivity|]; rewrite idx_nil in EI; [discriminate|intros H; apply mem_in in H; congruence]).
    assert (Hx : exists tx, nth_error its x = Some (k, tx)) by (apply idx_in; rewrite EI; cbn; auto). destruct Hx as (tx & Hx).
    assert (Hxl : (x < length its)%nat) by (apply nth_error_Some_lt in Hx; exact Hx).
    set (ns' := lset (h_nodes h) x (mk_hn (Some (length its)) (hn_type n) (hn_data n))).
    assert (HL' : length ns' = length its) by (unfold ns'; rewrite lset_length; exact HL).
    assert (Hx' : nth_error ns' x = Some (mk_hn (Some (length its)) (hn_type n) (hn_data n))).
    { unfold ns'. rewrite lset_nth. rewrite Nat.eqb_refl. destruct (Nat.ltb_spec x (length (h_nodes h))); [reflexivity|lia]. }
    assert (Hy' : forall j, j <> x -> nth_error ns' j = nth_error (h_nodes h) j).
    { intros j Hj. unfold ns'. rewrite lset_nth. destruct (Nat.eqb_spec x j); [congruence|reflexivity]. }
    split; cbn [h_map h_nodes h_ips].
    + rewrite keys_snoc. cbn [fst]. rewrite HK.
      replace (map (fun k0 => (k0, hd_error (idx (its ++ [(k, t)]) k0))) (keys its)) with (map (fun k0 => (k0, hd_error (idx its k0))) (keys its)); [exact HM|].
      apply map_ext_in. intros k2 Hk2. rewrite idx_snoc. apply idx_hd in Hk2. destruct Hk2 as (x2 & r2 & ->). reflexivity.
    + rewrite !app_length. cbn [length]. lia.
    + intros j i Hj. destruct (Nat.eq_dec j (length its)) as [->|Hne].
      * rewrite nth_error_app2, Nat.sub_diag in Hj by lia. cbn in Hj. injection Hj as <-. eexists. rewrite nth_error_app2 by lia. rewrite HL', Nat.sub_diag. split; [reflexivity|]. apply HD.
      * assert (j < length its)%nat by (apply nth_error_Some_lt in Hj; rewrite app_length in Hj; cbn in Hj; lia). rewrite nth_error_app1 in Hj by lia.
        destruct (HN j i Hj) as (n2 & Hn2 & Hi). rewrite nth_error_app1 by lia. destruct (Nat.eq_dec j x) as [->|Hjx].
        -- rewrite Hx'. eexists. split; [reflexivity|]. assert (n2 = n) by congruence. subst n2. apply node_is_app. destruct Hi as [Hi1 Hi2]. split; [exact Hi1|]. exact Hi2.
        -- rewrite Hy' by exact Hjx. exists n2. split; [exact Hn2|]. apply node_is_app. exact Hi.
    + intros k2. rewrite idx_snoc. cbn [fst]. destruct (str_eqb k k2) eqn:E.
      * apply str_eqb_eq in E. subst k2. rewrite EI. cbn [app hd_error arr]. rewrite rev_app_distr. cbn [rev app hchain]. split; [reflexivity|].
        exists (mk_hn (Some (length its)) (hn_type n) (hn_data n)). rewrite nth_error_app1 by lia. split; [exact Hx'|]. cbn [hn_next]. split; [reflexivity|].
        eexists. rewrite nth_error_app2 by lia. rewrite HL', Nat.sub_diag. split; [reflexivity|]. cbn [hn_next]. apply hchain_app. apply hchain_lset; [|exact Hr].
        intros H. apply in_rev in H. assert (HND : NoDup (idx its k)) by (apply NoDup_filter, seq_NoDup). rewrite EI in HND. apply NoDup_cons_iff in HND. tauto.
      * rewrite app_nil_r. apply hchain_app. apply hchain_lset; [|apply HC]. intros H.
        assert (HI2 : In x (idx its k2)) by (destruct (idx its k2) as [|a b]; [destruct H|]; destruct H as [->|H]; cbn; [auto|right; apply in_rev; exact H]).
        apply idx_in in HI2. destruct HI2 as (t2 & HI2). rewrite Hx in HI2. injection HI2 as E2 _. subst. rewrite str_eqb_refl in E. discriminate.
Qed.

Lemma hosts_of_ok parse lines its : listed parse lines its -> forall h pre, hinv h pre -> exists h', hosts_of parse h lines = Ret h' /\ hinv h' (pre ++ its).
Proof.
  intros HLs. induction HLs as [|line w1 w2 t ls its HT HR HLs IH|line w1 w2 ls its HT HU HLs IH|line ls its HS HLs IH]; intros h pre HI; cbn [hosts_of].
  - exists h. rewrite app_nil_r. auto.
  - rewrite (load_two parse h line w1 w2 HT), (reads_add parse w1 t h w2 HR). destruct (add_node_ok h pre w2 t HI) as (h' & -> & HI'). cbn [bind snd].
    destruct (IH h' _ HI') as (h2 & E2 & HI2). exists h2. split; [exact E2|]. rewrite <- app_assoc in HI2. exact HI2.
  - rewrite (load_two parse h line w1 w2 HT), (unreadable_add parse w1 h w2 HU). cbn [bind snd]. apply IH. exact HI.
  - rewrite (load_short parse h line HS). cbn [bind snd]. apply IH. exact HI.
Qed.

(** ** Lookup *)
Section L.
Context (fn : list Z -> list Z -> bool).
Lemma wild_find (l : list (entry nat)) s : wild_loop fn l s any_data = option_map (fun e => e_data e) (find (fun e => fn (e_str e) s) l).
Proof. induction l as [|e l IH]; cbn [wild_loop find]; [reflexivity|]. unfold any_data at 1. rewrite andb_true_r. destruct (fn (e_str e) s); [reflexivity|exact IH]. Qed.

Definition firstj its (f : target -> bool) (l : list nat) : option nat :=
  find (fun j => match nth_error its j with Some i => f (snd i) | None => false end) l.

Lemma find_loop_ok h its : hinv h its -> forall l o ty m46 fuel, hchain (h_nodes h) o l -> (forall j, In j l -> (j < length its)%nat) -> (length l <= fuel)%nat -> ty <> HT_unknown ->
  find_loop fuel h o ty m46 =
  Ret (match firstj its (fun t => ht_eqb (kind t) ty) l with
       | Some j => (Some j, ty)
       | None => (match m46 with Some j => Some j | None => if ht_eqb ty HT_aaaa then firstj its (fun t => ht_eqb (kind t) HT_a) l else None end, ty)
       end).
Proof.
  intros HI. induction l as [|j l IH]; intros o ty m46 fuel HC HB HF Hty.
  - cbn in HC. subst o. destruct fuel; cbn [find_loop firstj find]; destruct m46, ty; reflexivity.
  - destruct HC as (-> & n & Hn & Hc). destruct fuel as [|fuel]; [cbn in HF; lia|]. cbn [find_loop]. rewrite Hn.
    assert (Hj : exists i, nth_error its j = Some i). { destruct (nth_error its j) eqn:E; [eauto|]. apply nth_error_None in E. specialize (HB j (or_introl eq_refl)). lia. }
    destruct Hj as (i & Hj). destruct (hi_nodes _ _ HI j i Hj) as (n2 & Hn2 & Hk & _). assert (n2 = n) by congruence. subst n2.
    replace (ht_eqb ty HT_unknown) with false by (destruct ty; try reflexivity; congruence). cbn [orb]. unfold firstj. cbn [find]. rewrite Hj, Hk.
    destruct (ht_eqb (kind (snd i)) ty) eqn:E.
    + f_equal. f_equal. destruct (kind (snd i)), ty; try discriminate; reflexivity.
    + rewrite IH; [|exact Hc|intros; apply HB; cbn; auto|cbn in HF; lia|exact Hty]. unfold firstj. destruct (find _ l) as [j2|]; [reflexivity|].
      destruct m46 as [j3|]; [rewrite andb_false_r; reflexivity|]. rewrite andb_true_r. destruct (ht_eqb ty HT_aaaa); cbn [andb]; [|reflexivity].
      destruct (ht_eqb (kind (snd i)) HT_a); reflexivity.
Qed.

(** The domain used. *)
Definition key_for its name : option (list Z) :=
  if negb (has_wildcard name) && mem name (keys its) then Some name
  else find (fun k => has_wildcard k && fn k name) (keys its).

Lemma match_key h its name : hinv h its -> chunk_match fn (h_map h) name None any_data = Ret (option_map (fun k => hd_error (idx its k)) (key_for its name)).
Proof.
  intros HI. unfold chunk_match, orelse. rewrite (plain_lookup h its name HI). cbn [bind]. unfold key_for.
  destruct (negb (has_wildcard name) && mem name (keys its)); [reflexivity|].
  unfold match_wild. rewrite wild_find, (ki_wild _ _ (hi_map _ _ HI)), find_map. cbn [ent e_str]. f_equal.
  transitivity (option_map (fun r : list Z * option nat => snd r) (find (fun r => has_wildcard (fst r) && fn (fst r) name) (map (fun k => (k, hd_error (idx its k))) (keys its)))).
  - match goal with |- option_map ?g (option_map ?h ?a) = option_map ?g2 ?b => assert (E : a = b) end.
    { generalize (map (fun k => (k, hd_error (idx its k))) (keys its)) as l. induction l as [|r l IH]; [reflexivity|]. cbn [filter find]. destruct (has_wildcard (fst r)); cbn [find andb]; [destruct (fn (fst r) name); [reflexivity|exact IH]|exact IH]. }
    rewrite E. match goal with |- context [option_map _ (option_map _ ?a)] => destruct a end; reflexivity.
  - rewrite (map_find its (fun k => hd_error (idx its k)) (fun k => has_wildcard k && fn k name)). destruct (find _ (keys its)); reflexivity.
Qed.

Lemma keys_find its f : find f (keys its) = option_map fst (find (fun i => f (fst i)) its).
Proof.
  induction its as [|i its IH] using rev_ind; [reflexivity|]. rewrite keys_snoc.
  assert (FA : forall {A} (g : A -> bool) l x, find g (l ++ [x]) = match find g l with Some y => Some y | None => if g x then Some x else None end).
  { intros A g l x. induction l as [|y l IH2]; cbn [app find]; [reflexivity|]. destruct (g y); [reflexivity|exact IH2]. }
  rewrite FA. destruct (mem (fst i) (keys its)) eqn:E.
  - rewrite IH. destruct (find (fun i0 => f (fst i0)) its) as [i2|] eqn:E2; cbn [option_map] in *; [reflexivity|].
    destruct (f (fst i)) eqn:E3; [|reflexivity]. exfalso. apply mem_in in E. apply (find_none _ _ IH) in E. congruence.
  - rewrite FA, IH. destruct (find (fun i0 => f (fst i0)) its); cbn [option_map]; [reflexivity|]. destruct (f (fst i)); reflexivity.
Qed.
Lemma key_applies its name : applies fn its name (key_for its name).
Proof.
  unfold key_for. destruct (negb (has_wildcard name) && mem name (keys its)) eqn:E.
  - apply andb_prop in E. destruct E as [E1 E2]. left. split; [reflexivity|]. split; [apply has_wildcard_plain; destruct (has_wildcard name); [discriminate|reflexivity]|]. apply keys_in, mem_in, E2.
  - assert (HP : plain name -> forall t, ~ In (name, t) its).
    { intros HP t Ht. apply has_wildcard_plain in HP. rewrite HP in E. cbn [negb andb] in E. assert (In name (keys its)) by (apply keys_in; eauto). apply mem_in in H. congruence. }
    rewrite keys_find. destruct (find _ its) as [[k t]|] eqn:EF; cbn [option_map applies fst].
    + right. apply find_split in EF. destruct EF as (l1 & l2 & -> & Hf & Hn). cbn [fst] in Hf. apply andb_prop in Hf. destruct Hf as [Hf1 Hf2]. split; [exact HP|].
      split; [apply has_wildcard_wild; exact Hf1|]. split; [exact Hf2|]. exists l1, t, l2. split; [reflexivity|]. intros i Hi Hw. specialize (Hn i Hi). apply has_wildcard_wild in Hw. rewrite Hw in Hn. exact Hn.
    + split; [exact HP|]. intros i Hi Hw. apply (find_none _ _ EF) in Hi. apply has_wildcard_wild in Hw. rewrite Hw in Hi. exact Hi.
Qed.
Lemma applies_unique its name o : applies fn its name o -> o = key_for its name.
Proof.
  intros H. pose proof (key_applies its name) as H2. destruct o as [k|], (key_for its name) as [k2|]; [f_equal|exfalso|exfalso|reflexivity].
  - destruct H as [(-> & HP & t & Ht)|(HP & Hw & Hf & i1 & t & i2 & E & Hn)], H2 as [(-> & HP2 & t2 & Ht2)|(HP2 & Hw2 & Hf2 & j1 & t2 & j2 & E2 & Hn2)]; auto.
    + exfalso. apply (HP2 HP t Ht).
    + exfalso. apply (HP HP2 t2 Ht2).
    + rewrite E in E2. clear - E2 Hn Hn2 Hw Hw2 Hf Hf2. revert j1 E2 Hn2. induction i1 as [|i i1 IH]; intros [|j j1] E2 Hn2; cbn [app] in E2; injection E2; intros; subst; auto.
      * specialize (Hn2 _ (or_introl eq_refl) Hw). cbn [fst] in Hn2. congruence.
      * specialize (Hn _ (or_introl eq_refl) Hw2). cbn [fst] in Hn. congruence.
      * apply (IH (fun i Hi => Hn i (or_intror Hi)) j1); auto. intros i Hi. apply Hn2. cbn; auto.
  - destruct H2 as [HP2 Hn2]. destruct H as [(-> & HP & t & Ht)|(HP & Hw & Hf & i1 & t & i2 & E & Hn)].
    + apply (HP2 HP t Ht).
    + assert (HI : In (k, t) its) by (rewrite E; apply in_or_app; cbn; auto). specialize (Hn2 _ HI Hw). cbn [fst] in Hn2. congruence.
  - destruct H as [HP Hn]. destruct H2 as [(-> & HP2 & t & Ht)|(HP2 & Hw & Hf & i1 & t & i2 & E & Hn2)].
    + apply (HP HP2 t Ht).
    + assert (HI : In (k2, t) its) by (rewrite E; apply in_or_app; cbn; auto). specialize (Hn _ HI Hw). cbn [fst] in Hn. congruence.
Qed.

(** Numbers of the items of a domain and the items. *)
Lemma idx_targets its k : map (fun j => option_map snd (nth_error its j)) (idx its k) = map Some (targets its k).
Proof.
  unfold targets. induction its as [|i its IH] using rev_ind; [reflexivity|]. rewrite idx_snoc, filter_app, !map_app. f_equal.
  - rewrite <- IH. apply map_ext_in. intros j Hj. apply idx_in in Hj. destruct Hj as (t & Hj). rewrite nth_error_app1; [reflexivity|]. apply nth_error_Some_lt in Hj. exact Hj.
  - cbn [filter]. destruct (str_eqb (fst i) k); [|reflexivity]. cbn [map]. rewrite nth_error_app2, Nat.sub_diag by lia. reflexivity.
Qed.
Lemma arr_map {A B} (f : A -> B) l : map f (arr l) = arr (map f l).
Proof. destruct l as [|x l]; [reflexivity|]. cbn [arr map]. rewrite map_rev. reflexivity. Qed.
Lemma considered_arr ts : considered ts = arr ts.
Proof. reflexivity. Qed.
Lemma firstj_ok its (f : target -> bool) l ts : map (fun j => option_map snd (nth_error its j)) l = map Some ts ->
  match firstj its f l with
  | Some j => exists i, nth_error its j = Some i /\ find f ts = Some (snd i)
  | None => find f ts = None
  end.
Proof.
  unfold firstj. revert ts. induction l as [|j l IH]; intros [|t ts] H; cbn [map] in H; try discriminate; cbn [find]; [reflexivity|].
  injection H as Hj H. destruct (nth_error its j) as [i|] eqn:E; [|discriminate]. cbn [option_map] in Hj. injection Hj as <-.
  destruct (f (snd i)); [exists i; auto|apply IH; exact H].
Qed.
Lemma arr_incl {A} (l : list A) x : In x (arr l) -> In x l.
Proof. destruct l as [|y l]; [auto|]. intros [->|H]; cbn; [auto|]. right. apply in_rev. exact H. Qed.
Lemma arr_length {A} (l : list A) : length (arr l) = length l.
Proof. destruct l; [reflexivity|]. cbn. rewrite rev_length. reflexivity. Qed.

Lemma filter_length {A} (f : A -> bool) l : (length (filter f l) <= length l)%nat.
Proof. induction l as [|x l IH]; cbn [filter length]; [lia|]. destruct (f x); cbn [length]; lia. Qed.
Definition for_name_f its name : list target := match key_for its name with Some k => considered (targets its k) | None => [] end.
Lemma find_ok h its name ty : hinv h its -> ty <> HT_unknown ->
  exists r, hosts_find fn h name ty = Ret r /\
    match r with
    | Some (ty', d) => ty' = ty /\ exists t n, node_is (h_ips h) n t /\ hn_data n = d /\
        (find (fun t => ht_eqb (kind t) ty) (for_name_f its name) = Some t \/
         find (fun t => ht_eqb (kind t) ty) (for_name_f its name) = None /\ ty = HT_aaaa /\ find (fun t => ht_eqb (kind t) HT_a) (for_name_f its name) = Some t)
    | None => find (fun t => ht_eqb (kind t) ty) (for_name_f its name) = None /\
              (ty = HT_aaaa -> find (fun t => ht_eqb (kind t) HT_a) (for_name_f its name) = None)
    end.
Proof.
  intros HI Hty. unfold hosts_find, for_name_f. rewrite (match_key h its name HI). cbn [bind]. destruct (key_for its name) as [k|]; cbn [option_map].
  - rewrite (find_loop_ok h its HI (arr (idx its k)) (hd_error (idx its k)) ty None).
    2:apply hi_chain; exact HI. 2:{ intros j Hj. apply arr_incl, idx_in in Hj. destruct Hj as (t & Hj). apply nth_error_Some_lt in Hj. exact Hj. }
    2:{ rewrite arr_length, (hi_len _ _ HI). unfold idx. etransitivity; [apply filter_length|]. rewrite seq_length. lia. } 2:exact Hty.
    cbn [bind fst snd].
    assert (HM : map (fun j => option_map snd (nth_error its j)) (arr (idx its k)) = map Some (considered (targets its k))) by (rewrite considered_arr, !arr_map, idx_targets; reflexivity).
    pose proof (firstj_ok its (fun t => ht_eqb (kind t) ty) _ _ HM) as F1. pose proof (firstj_ok its (fun t => ht_eqb (kind t) HT_a) _ _ HM) as F2.
    destruct (firstj its (fun t => ht_eqb (kind t) ty) (arr (idx its k))) as [j|].
    + cbn [fst snd]. destruct F1 as (i & Hj & HF). destruct (hi_nodes _ _ HI j i Hj) as (n & Hn & Hi). rewrite Hn. eexists. split; [reflexivity|]. cbn beta iota. split; [reflexivity|]. exists (snd i), n. auto.
    + cbn [fst snd]. destruct (ht_eqb ty HT_aaaa) eqn:E6.
      * assert (ty = HT_aaaa) by (destruct ty; try discriminate; reflexivity).
        destruct (firstj its (fun t => ht_eqb (kind t) HT_a) (arr (idx its k))) as [j|].
        -- destruct F2 as (i & Hj & HF). destruct (hi_nodes _ _ HI j i Hj) as (n & Hn & Hi). rewrite Hn. eexists. split; [reflexivity|]. cbn beta iota. split; [reflexivity|]. exists (snd i), n. auto 7.
        -- eexists. split; [reflexivity|]. cbn beta iota. auto.
      * eexists. split; [reflexivity|]. cbn beta iota. split; [exact F1|]. intros ->. discriminate.
  - eexists. split; [reflexivity|]. cbn beta iota. auto.
Qed.

Lemma first_find {A} (f : target -> option A) (g : target -> bool) ts : (forall t, g t = match f t with Some _ => true | None => false end) ->
  first f ts = match find g ts with Some t => f t | None => None end.
Proof. intros H. induction ts as [|t ts IH]; cbn [first find]; [reflexivity|]. rewrite H. destruct (f t) eqn:E; [rewrite E; reflexivity|exact IH]. Qed.

Definition sel (ty : htype) (t : target) : option target := if ht_eqb (kind t) ty then Some t else None.

Lemma type_existing_ok h its name ty : hinv h its -> ty <> HT_unknown -> ty <> HT_aaaa ->
  type_existing fn h name ty = Ret (match find (fun t => ht_eqb (kind t) ty) (for_name_f its name) with Some _ => true | None => false end).
Proof.
  intros HI H1 H2. unfold type_existing. destruct (find_ok h its name ty HI H1) as (r & -> & Hr). cbn [bind]. destruct r as [[ty' d]|].
  - destruct Hr as (_ & t & n & _ & _ & [->|(_ & ? & _)]); [reflexivity|congruence].
  - destruct Hr as (-> & _). reflexivity.
Qed.
Lemma find_kind ty ts t : find (fun t => ht_eqb (kind t) ty) ts = Some t -> kind t = ty.
Proof. intros H. apply find_some in H. destruct H as [_ H]. destruct (kind t), ty; try discriminate; reflexivity. Qed.

Lemma get_cname_ok h its name : hinv h its -> get_cname fn h name = Ret (first alias_of (for_name_f its name)).
Proof.
  intros HI. unfold get_cname. destruct (find_ok h its name HT_cname HI ltac:(discriminate)) as (r & -> & Hr). cbn [bind].
  rewrite (first_find alias_of (fun t => ht_eqb (kind t) HT_cname)) by (intros []; reflexivity). destruct r as [[ty' d]|].
  - destruct Hr as (_ & t & n & [Hn1 Hn2] & Hd & [HF|(_ & ? & _)]); [|congruence]. rewrite HF. apply find_kind in HF. destruct t; try discriminate. rewrite <- Hd, Hn2. reflexivity.
  - destruct Hr as (-> & _). reflexivity.
Qed.
Lemma utils_try_ok good h its name qtype : hinv h its -> utils_try fn good h name qtype = Ret (result good (for_name_f its name) qtype).
Proof.
  intros HI. unfold utils_try, result. set (ts := for_name_f its name).
  rewrite (first_find alias_of (fun t => ht_eqb (kind t) HT_cname)) by (intros []; reflexivity).
  rewrite (first_find v4_of (fun t => ht_eqb (kind t) HT_a)) by (intros []; reflexivity).
  rewrite (first_find v6_of (fun t => ht_eqb (kind t) HT_aaaa)) by (intros []; reflexivity).
  rewrite (first_find list_of (fun t => ht_eqb (kind t) HT_good)) by (intros []; reflexivity).
  assert (F : forall ty, ty <> HT_unknown -> exists r, hosts_find fn h name ty = Ret r /\
    match r with
    | Some (ty', d) => ty' = ty /\ exists t n, node_is (h_ips h) n t /\ hn_data n = d /\
        (find (fun t => ht_eqb (kind t) ty) ts = Some t \/
         find (fun t => ht_eqb (kind t) ty) ts = None /\ ty = HT_aaaa /\ find (fun t => ht_eqb (kind t) HT_a) ts = Some t)
    | None => find (fun t => ht_eqb (kind t) ty) ts = None /\ (ty = HT_aaaa -> find (fun t => ht_eqb (kind t) HT_a) ts = None)
    end) by (intros ty Hty; apply find_ok; auto).
  destruct (Z.eqb_spec qtype 5) as [->|H5]; cbn [bind].
  - destruct (F HT_cname ltac:(discriminate)) as (r & E & Hr). rewrite E. cbn [bind]. destruct r as [[ty' d]|]; cbn [option_map].
    + rewrite E. cbn [bind]. destruct Hr as (-> & t & n & [Hn1 Hn2] & Hd & [HF|(_ & ? & _)]); [|congruence]. rewrite HF. apply find_kind in HF. destruct t; try discriminate. rewrite <- Hd, Hn2. reflexivity.
    + destruct Hr as (-> & _). reflexivity.
  - rewrite (type_existing_ok h its name HT_cname HI) by discriminate. fold ts. cbn [bind].
    destruct (find (fun t => ht_eqb (kind t) HT_cname) ts) as [t|] eqn:EC; [apply find_kind in EC; destruct t; try discriminate; reflexivity|].
    destruct (Z.eqb_spec qtype 1) as [->|H1].
    + destruct (F HT_a ltac:(discriminate)) as (r & E & Hr). rewrite E. cbn [bind]. destruct r as [[ty' d]|]; cbn [option_map].
      * cbn [bind]. rewrite E. cbn [bind]. destruct Hr as (-> & t & n & [Hn1 Hn2] & Hd & [HF|(_ & ? & _)]); [|congruence]. rewrite HF. apply find_kind in HF. destruct t; try discriminate. destruct Hn2 as (i & Hi & Hip). rewrite <- Hd, Hi. cbn [hosts_answer]. rewrite Hip. reflexivity.
      * destruct Hr as (-> & _). destruct (F HT_good ltac:(discriminate)) as (r & E2 & Hr). rewrite E2. cbn [bind]. destruct r as [[ty' d]|]; cbn [option_map].
        -- rewrite E2. cbn [bind]. destruct Hr as (-> & t & n & [Hn1 Hn2] & Hd & [HF|(_ & ? & _)]); [|congruence]. rewrite HF. apply find_kind in HF. destruct t; try discriminate. rewrite <- Hd, Hn2. cbn [hosts_answer list_of]. destruct (good s); reflexivity.
        -- destruct Hr as (-> & _). reflexivity.
    + destruct (Z.eqb_spec qtype 28) as [->|H28]; [|reflexivity].
      destruct (F HT_aaaa ltac:(discriminate)) as (r & E & Hr). rewrite E. cbn [bind]. destruct r as [[ty' d]|]; cbn [option_map].
      * rewrite E. cbn [bind]. destruct Hr as (-> & t & n & [Hn1 Hn2] & Hd & [HF|(HF0 & _ & HF)]).
        -- rewrite HF. apply find_kind in HF. destruct t; try discriminate. destruct Hn2 as (i & Hi & Hip). rewrite <- Hd, Hi. cbn [hosts_answer]. rewrite Hip. reflexivity.
        -- rewrite HF0, HF. apply find_kind in HF. destruct t; try discriminate. destruct Hn2 as (i & Hi & Hip). rewrite <- Hd, Hi. cbn [hosts_answer]. rewrite Hip. reflexivity.
      * destruct Hr as (-> & H2). rewrite (H2 eq_refl). reflexivity.
Qed.
End L.
End T.
