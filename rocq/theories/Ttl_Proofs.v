(** Proofs about the CacheControl rules. *)
From Verif Require Import Base BaseFacts ListFacts List2Facts Hash_Model Sht_Model Chunk_Model Chunk_Spec Chunk_Proofs Chunk_Props Cht_Model Gen_Model Cache_Model Cache_Spec Ttl_Model Ttl_Spec.
Require Import ZifyBool ZifyNat.

(** * Texts *)
Lemma is_space_iff c : is_space c = true <-> c = 32 \/ 9 <= c <= 13.
Proof. unfold is_space. lia. Qed.
Lemma skip_spaces g s : spaces g -> skip_space (g ++ s) = skip_space s.
Proof.
  induction g as [|c g IH]; intros H; [reflexivity|]. cbn [app skip_space]. rewrite (proj2 (is_space_iff c)) by (apply H; cbn; auto). apply IH. intros x Hx. apply H. cbn; auto.
Qed.
Lemma skip_word w s : word w -> skip_space (w ++ s) = w ++ s.
Proof.
  intros (Hne & Hw). destruct w as [|c w]; [congruence|]. cbn [app skip_space]. destruct (is_space c) eqn:E; [|reflexivity].
  apply is_space_iff in E. specialize (Hw c (or_introl eq_refl)). lia.
Qed.
Definition ends (s : list Z) : Prop := s = [] \/ exists g r, gap g /\ s = g ++ r.
Lemma ends_head s : ends s -> match s with [] => True | c :: _ => is_space c = true end.
Proof.
  intros [->|(g & r & (Hn & Hg) & ->)]; [exact I|]. destruct g as [|c g]; [congruence|]. cbn [app]. apply is_space_iff. apply Hg. cbn; auto.
Qed.
Lemma take_word_ok w : forall n rest, (forall c, In c w -> c <> 32 /\ ~ 9 <= c <= 13) -> (length w <= n)%nat -> ends rest -> take_word n (w ++ rest) = (w, rest).
Proof.
  induction w as [|c w IH]; intros n rest Hw Hl Hr; cbn [length app] in *.
  - apply ends_head in Hr. destruct n; [reflexivity|]. destruct rest as [|x rest]; [reflexivity|]. cbn [take_word]. rewrite Hr. reflexivity.
  - destruct n as [|n]; [lia|]. cbn [take_word]. destruct (is_space c) eqn:E.
    + apply is_space_iff in E. specialize (Hw c (or_introl eq_refl)). lia.
    + rewrite IH; [reflexivity|intros x Hx; apply Hw; cbn; auto|lia|exact Hr].
Qed.
Lemma scan_word_ok g w n rest : spaces g -> word w -> (length w <= n)%nat -> ends rest -> scan_word n (g ++ w ++ rest) = Some (w, rest).
Proof.
  intros Hg Hw Hl Hr. unfold scan_word. rewrite skip_spaces, skip_word by assumption. destruct Hw as (Hne & Hw). rewrite take_word_ok by assumption. destruct w; [congruence|reflexivity].
Qed.
Lemma scan_word_none s n : spaces s -> scan_word n s = None.
Proof.
  intros H. unfold scan_word. assert (E : skip_space s = []) by (rewrite <- (app_nil_r s), skip_spaces by exact H; reflexivity). rewrite E. destruct n; reflexivity.
Qed.

(** * Numbers *)
Lemma decimal_facts ds v : decimal ds v -> ds <> [] /\ (forall c, In c ds -> 48 <= c <= 57) /\ dec_value ds = v /\ 0 <= v.
Proof.
  unfold dec_value. induction 1 as [d H|ds v d H (H1 & H2 & H3 & H4) Hd].
  - split; [discriminate|]. split; [intros c [<-|[]]; lia|]. cbn [fold_left]. lia.
  - split; [destruct ds; discriminate|]. split; [|rewrite fold_left_app, H3; cbn [fold_left]; lia]. intros c Hc. apply in_app_or in Hc. destruct Hc as [Hc|[<-|[]]]; [auto|lia].
Qed.
Lemma take_digits_ok ds : forall rest, (forall c, In c ds -> 48 <= c <= 57) -> match rest with [] => True | c :: _ => is_digit c = false end ->
  take_digits (ds ++ rest) = (ds, rest).
Proof.
  induction ds as [|c ds IH]; intros rest Hd Hr; cbn [app].
  - destruct rest as [|x rest]; [reflexivity|]. cbn [take_digits]. rewrite Hr. reflexivity.
  - cbn [take_digits]. replace (is_digit c) with true by (specialize (Hd c (or_introl eq_refl)); unfold is_digit; lia). rewrite IH; [reflexivity|intros x Hx; apply Hd; cbn; auto|exact Hr].
Qed.
Lemma scan_u_ok ds v rest : decimal ds v -> v < 4294967296 -> match rest with [] => True | c :: _ => is_digit c = false end -> scan_u (ds ++ rest) = Some (v, rest).
Proof.
  intros Hd Hv Hr. destruct (decimal_facts _ _ Hd) as (H1 & H2 & H3 & H4). unfold scan_u.
  assert (E : skip_space (ds ++ rest) = ds ++ rest).
  { apply skip_word. split; [exact H1|]. intros c Hc. specialize (H2 c Hc). lia. }
  rewrite E. destruct ds as [|d ds]; [congruence|]. pose proof (H2 d (or_introl eq_refl)) as H5.
  assert (Em : (match (d :: ds) ++ rest with 45 :: r => (true, r) | 43 :: r => (false, r) | _ => (false, (d :: ds) ++ rest) end) = (false, (d :: ds) ++ rest)).
  { cbn [app]. assert (Hc : d = 48 \/ d = 49 \/ d = 50 \/ d = 51 \/ d = 52 \/ d = 53 \/ d = 54 \/ d = 55 \/ d = 56 \/ d = 57) by lia.
    destruct Hc as [->|[->|[->|[->|[->|[->|[->|[->|[->| ->]]]]]]]]]; reflexivity. }
  rewrite Em. rewrite take_digits_ok by assumption. rewrite H3. destruct (Z.ltb_spec 18446744073709551615 v); [lia|]. unfold u32. rewrite Z.mod_small by lia. reflexivity.
Qed.

(** * The text of a rule *)
Definition cont_code (c : contagion) : Z := match c with Actively => 0 | Passively => 1 | NoContagion => 2 end.
Definition enc (r : drule) : ctrl :=
  match d_treat r with
  | Orig => mk_ctrl (-1) 0 0 (cont_code (d_cont r))
  | NoCache => mk_ctrl 0 0 0 (cont_code (d_cont r))
  | Fixed n => mk_ctrl 1 0 n (cont_code (d_cont r))
  | Vari a b => mk_ctrl 2 a b (cont_code (d_cont r))
  end.
Lemma gap_ends g r : gap g -> ends (g ++ r).
Proof. intros H. right. eauto. Qed.
Lemma cmd_word c w : (forall x, In x w -> 97 <= x <= 122) -> w <> [] -> word (cont_text c ++ w).
Proof.
  intros Hw Hn. split; [destruct c; [exact Hn|discriminate|discriminate]|]. intros x Hx. apply in_app_or in Hx. destruct Hx as [Hx|Hx]; [|specialize (Hw x Hx); lia].
  destruct c; cbn in Hx; lia.
Qed.
Lemma treat_word t w a : treat_text t w a -> (forall x, In x w -> 97 <= x <= 122) /\ w <> [] /\ (length w <= 7)%nat.
Proof. destruct 1; (split; [intros x Hx; cbn in Hx; lia|split; [discriminate|cbn [length]; lia]]). Qed.
Lemma vari_word da db a b : decimal da a -> decimal db b -> word (da ++ [120; 43] ++ db).
Proof.
  intros Ha Hb. destruct (decimal_facts _ _ Ha) as (A1 & A2 & _). destruct (decimal_facts _ _ Hb) as (B1 & B2 & _).
  split; [destruct da; discriminate|]. intros c Hc. apply in_app_or in Hc. destruct Hc as [Hc|[<-|[<-|Hc]]]; [specialize (A2 c Hc)| | |specialize (B2 c Hc)]; lia.
Qed.
Lemma arg_word t w a : treat_text t w (Some a) -> word a.
Proof.
  intros H. inversion H as [| |n ds Hd|x y da db Ha Hb]; subst; [|eapply vari_word; eauto].
  destruct (decimal_facts _ _ Hd) as (A1 & A2 & _). split; [exact A1|]. intros c Hc. specialize (A2 c Hc). lia.
Qed.
Lemma add_string_ok d0 c0 a0 k r text : rule_text r text -> ctl_add_string d0 c0 a0 k text = (0, chunk_add_domain k (d_domain r) (Some (enc r))).
Proof.
  intros H. unfold ctl_add_string, enc. destruct H as [w g0 g1 rest Ht Hd Hl Hg0 Hg1 Hr|w a g0 g1 g2 rest Ht Hs Hd Hl Ha Hg0 Hg1 Hg2 Hr].
  - destruct (treat_word _ _ _ Ht) as (W1 & W2 & W3).
    assert (E : exists a, ctl_words d0 c0 a0 (g0 ++ d_domain r ++ g1 ++ cont_text (d_cont r) ++ w ++ rest) = (d_domain r, cont_text (d_cont r) ++ w, a)).
    { unfold ctl_words. rewrite scan_word_ok; [|exact Hg0|exact Hd|exact Hl|apply gap_ends; exact Hg1].
      rewrite (app_assoc (cont_text _)). rewrite scan_word_ok; [|apply Hg1|apply cmd_word; assumption|rewrite app_length; destruct (d_cont r); cbn [cont_text length]; lia|exact Hr].
      destruct (scan_word 63 rest) as [[x y]|]; eauto. }
    destruct E as (a & ->). destruct (d_cont r); inversion Ht; subst; reflexivity.
  - destruct (treat_word _ _ _ Ht) as (W1 & W2 & W3).
    assert (E : ctl_words d0 c0 a0 (g0 ++ d_domain r ++ g1 ++ cont_text (d_cont r) ++ w ++ g2 ++ a ++ rest) = (d_domain r, cont_text (d_cont r) ++ w, a)).
    { unfold ctl_words. rewrite scan_word_ok; [|exact Hg0|exact Hd|exact Hl|apply gap_ends; exact Hg1].
      rewrite (app_assoc (cont_text _)). rewrite scan_word_ok; [|apply Hg1|apply cmd_word; assumption|rewrite app_length; destruct (d_cont r); cbn [cont_text length]; lia|apply gap_ends; exact Hg2].
      rewrite scan_word_ok; [reflexivity|apply Hg2|eapply arg_word; eauto|exact Ha|exact Hr]. }
    rewrite E. inversion Ht as [| |n ds Hds Et|x y da db Hda Hdb Et]; subst.
    + rewrite <- Et in Hs. cbn [small] in Hs.
      assert (Eu : scan_u a = Some (n, [])) by (rewrite <- (app_nil_r a); apply scan_u_ok; [exact Hds|lia|exact I]).
      assert (Ec : ctl_cmd (cont_text (d_cont r) ++ [102; 105; 120; 101; 100]) = (cont_code (d_cont r), [102; 105; 120; 101; 100])) by (destruct (d_cont r); reflexivity).
      rewrite Ec. cbn [starts_with w_orig w_nocache w_fixed w_vari]. rewrite Eu. reflexivity.
    + rewrite <- Et in Hs. cbn [small] in Hs.
      assert (Eu : ctl_vari (da ++ [120; 43] ++ db) = (x, y)).
      { unfold ctl_vari. rewrite (scan_u_ok da x); [|exact Hda|lia|reflexivity]. cbn [app].
        rewrite <- (app_nil_r db). rewrite (scan_u_ok db y); [reflexivity|exact Hdb|lia|exact I]. }
      assert (Ec : ctl_cmd (cont_text (d_cont r) ++ [118; 97; 114; 105]) = (cont_code (d_cont r), [118; 97; 114; 105])) by (destruct (d_cont r); reflexivity).
      rewrite Ec. change (da ++ [120; 43] ++ db) with (da ++ 120 :: 43 :: db) in *. cbn [starts_with w_orig w_nocache w_fixed w_vari]. rewrite Eu. reflexivity.
Qed.

(** * The rule set *)
Definition enc_of (rs : list drule) : list (list Z * option ctrl) := map (fun r => (d_domain r, Some (enc r))) rs.
Lemma add_lines_ok rs lines : Forall2 (fun r l => rule_text r (snd l)) rs lines -> forall k,
  ctl_add_lines k lines = fold_left (fun k r => chunk_add_domain k (fst r) (snd r)) (enc_of rs) k.
Proof.
  unfold ctl_add_lines. induction 1 as [|r [[[d0 c0] a0] t] rs lines H _ IH]; intros k; [reflexivity|]. cbn [fold_left enc_of map fst snd] in *.
  rewrite (add_string_ok d0 c0 a0 k r t H). apply IH.
Qed.
Lemma ctl_init_ok rs lines override multiple : Forall2 (fun r l => rule_text r (snd l)) rs lines -> override < 4294967296 -> multiple < 4294967296 ->
  ctl_init lines override multiple = chunk_of_domains (enc_of (rs ++ global_rule override multiple)).
Proof.
  intros H Ho Hm. unfold ctl_init, chunk_of_domains. rewrite (add_lines_ok _ _ H). unfold enc_of. rewrite map_app, fold_left_app. unfold global_rule.
  destruct (Z.ltb_spec (-1) override).
  - cbn [map fold_left fst snd enc d_treat d_cont d_domain cont_code]. unfold ctl_add, u32, star. rewrite Z.mod_small by lia. reflexivity.
  - destruct (Z.ltb_spec 1 multiple); [|reflexivity]. cbn [map fold_left fst snd enc d_treat d_cont d_domain cont_code]. unfold ctl_add, u32, star. rewrite Z.mod_small by lia. reflexivity.
Qed.

(** ** From encoded rules back to rules *)
Lemma undot_enc rs : map undotted (enc_of rs) = map (fun x => (fst x, option_map enc (snd x))) (map undotted (data_of rs)).
Proof. unfold enc_of, data_of. rewrite !map_map. apply map_ext. intros r. reflexivity. Qed.
Lemma map_split {A B} (f : A -> B) l : forall l1 x l2, map f l = l1 ++ x :: l2 -> exists m1 y m2, l = m1 ++ y :: m2 /\ map f m1 = l1 /\ f y = x /\ map f m2 = l2.
Proof.
  induction l as [|a l IH]; intros l1 x l2 H; [destruct l1; discriminate|]. destruct l1 as [|b l1]; cbn [map app] in H; injection H as Ha Hl.
  - exists [], a, l. auto.
  - destruct (IH _ _ _ Hl) as (m1 & y & m2 & -> & E1 & E2 & E3). exists (a :: m1), y, m2. cbn [map app]. rewrite Ha, E1. auto.
Qed.
Section Back.
Context {V W : Type} (f : V -> W).
Notation up := (fun x : list Z * option V => (fst x, option_map f (snd x))).
Notation T := (fun _ => true).
Lemma newest_back rs s d : newest_exact (map up rs) T s (Some d) -> exists d', d = option_map f d' /\ newest_exact rs T s (Some d').
Proof.
  intros (Hp & rs1 & rs2 & E & _ & Hn). destruct (map_split _ _ _ _ _ E) as (m1 & [s' d'] & m2 & -> & E1 & E2 & E3). cbn [fst snd] in E2. injection E2 as -> <-.
  exists d'. split; [reflexivity|]. split; [exact Hp|]. exists m1, m2. split; [reflexivity|]. split; [reflexivity|]. intros r Hr Hs. subst rs2. exact (Hn _ (in_map up _ _ Hr) Hs).
Qed.
Lemma closest_back rs s o : closest (map up rs) T s o -> exists o', o = option_map (option_map f) o' /\ closest rs T s o'.
Proof.
  destruct o as [d|]; intros H.
  - destruct H as (n & He & Hn & Hm). destruct (newest_back _ _ _ Hn) as (d' & -> & Hn'). exists (Some d'). split; [reflexivity|]. exists n. split; [exact He|]. split; [exact Hn'|].
    intros r Hr. exact (Hm _ (in_map up _ _ Hr)).
  - exists None. split; [reflexivity|]. intros r Hr. exact (H _ (in_map up _ _ Hr)).
Qed.
Lemma wild_back fn rs s o : first_wild fn (map up rs) T s o -> exists o', o = option_map (option_map f) o' /\ first_wild fn rs T s o'.
Proof.
  destruct o as [d|]; intros H.
  - destruct H as (rs1 & p & rs2 & E & Hp & Hf & _ & Hn). destruct (map_split _ _ _ _ _ E) as (m1 & [p' d'] & m2 & -> & E1 & E2 & E3). cbn [fst snd] in E2. injection E2 as -> <-.
    exists (Some d'). split; [reflexivity|]. exists m1, p, m2. split; [reflexivity|]. split; [exact Hp|]. split; [exact Hf|]. split; [reflexivity|].
    intros r Hr. subst rs1. exact (Hn _ (in_map up _ _ Hr)).
  - exists None. split; [reflexivity|]. intros r Hr. exact (H _ (in_map up _ _ Hr)).
Qed.
End Back.

Lemma data_some rs x : In x (map undotted (data_of rs)) -> exists r, In r rs /\ snd x = Some r.
Proof. intros H. apply in_map_iff in H. destruct H as (y & <- & H). apply in_map_iff in H. destruct H as (r & <- & H). eauto. Qed.
Lemma closest_some rs s d : closest (map undotted (data_of rs)) (fun _ => true) s (Some d) -> exists r, d = Some r.
Proof. intros (n & _ & (_ & rs1 & rs2 & E & _) & _). destruct (data_some rs (n, d)) as (r & _ & Hr); [rewrite E; apply in_or_app; cbn; auto|]. cbn in Hr. eauto. Qed.
Lemma wild_some fn rs s d : first_wild fn (map undotted (data_of rs)) (fun _ => true) s (Some d) -> exists r, d = Some r.
Proof. intros (rs1 & p & rs2 & E & _). destruct (data_some rs (p, d)) as (r & _ & Hr); [rewrite E; apply in_or_app; cbn; auto|]. cbn in Hr. eauto. Qed.

(** What the look-up finds, with the parts kept. *)
Lemma get_parts fn stale rs s : s <> [] -> exists p w o, closest (map undotted (data_of rs)) (fun _ => true) s p /\
  first_wild fn (map undotted (data_of rs)) (fun _ => true) s w /\ option_map Some o = match p with Some d => Some d | None => w end /\
  ctl_get fn stale (chunk_of_domains (enc_of rs)) s = option_map enc o.
Proof.
  intros Hs. destruct (C26_domain_match fn (enc_of rs) (fun _ => true) s None stale Hs (or_introl eq_refl)) as (p & w & Hp & Hw & E).
  rewrite undot_enc in Hp, Hw. destruct (closest_back enc _ _ _ Hp) as (p' & -> & Hp'). destruct (wild_back enc fn _ _ _ Hw) as (w' & -> & Hw').
  unfold ctl_get. rewrite E. destruct p' as [dp|].
  - destruct (closest_some _ _ _ Hp') as (r & ->). exists (Some (Some r)), w', (Some r). auto.
  - destruct w' as [dw|].
    + destruct (wild_some _ _ _ _ Hw') as (r & ->). exists None, (Some (Some r)), (Some r). auto.
    + exists None, None, None. auto.
Qed.

(** * The choice *)
Lemma choose_ok (g : list Z -> option ctrl) q own item : g item = option_map enc own -> choose_rule g (option_map enc q) item = option_map enc (select q own).
Proof.
  intros H. unfold choose_rule, select. destruct q as [r|]; [|exact H]. cbn [option_map].
  assert (E : ct_inf (enc r) = cont_code (d_cont r)) by (unfold enc; destruct (d_treat r); reflexivity). rewrite E.
  destruct (d_cont r); cbn [cont_code]; [reflexivity| |exact H]. change (1 =? 1) with true. cbn iota. rewrite H. destruct own; reflexivity.
Qed.
Lemma lifetime_ok o ttl : 0 <= ttl < 4294967296 -> (forall r n, o = Some r -> d_treat r = Fixed n -> 0 <= n < 4294967296) -> lifetime (option_map enc o) ttl = u32 (doc_life o ttl).
Proof.
  intros Ht Hs. unfold lifetime, doc_life, u32. destruct o as [r|]; cbn [option_map]; [|symmetry; apply Z.mod_small; lia]. unfold enc. destruct (d_treat r) eqn:E; cbn [ct_state ct_coef ct_inc].
  - change (-1 =? 0) with false. change (-1 =? -1) with true. cbn iota. symmetry. apply Z.mod_small. lia.
  - reflexivity.
  - change (1 =? 0) with false. change (1 =? -1) with false. cbn iota. reflexivity.
  - change (2 =? 0) with false. change (2 =? -1) with false. cbn iota. reflexivity.
Qed.
