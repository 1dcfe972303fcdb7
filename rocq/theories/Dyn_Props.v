(** C81: names are answered from the hosts that were configured and fetched. *)
From Verif Require Import Base BaseFacts Gen_Model Slist_Model Hosts_Model Hosts_Spec Hosts_Proofs Hosts_Props Line_Model Line_Props Dl_Model Dl_Spec Dl_Proofs Dl_Props Dyn_Model Dyn_Spec Dyn_Proofs.
Require Import ZifyBool ZifyNat.

Section H.
Context (fn : list Z -> list Z -> bool) (parse : list Z -> ipaddr) (good : list Z -> option (list Z)).

(** A table answers every name and type as these lines say ([None]: it has nothing). *)
Definition answers (h : option hosts) (lines : option (list (list Z))) : Prop :=
  forall name ts, says fn parse lines name ts -> (forall q, opt_try fn good h name q = Ret (result good ts q)) /\ opt_cname fn h name = Ret (first alias_of ts) /\
    opt_exist fn h name HT_exclude = Ret (match first excl_of ts with Some _ => true | None => false end).
Lemma table_answers h lines : table_is parse h lines -> answers h lines.
Proof.
  intros T name ts S. destruct (opt_ok fn parse good h lines name ts HT_exclude T S ltac:(discriminate) ltac:(discriminate)) as (E1 & E2 & E3). split; [exact E2|]. split; [exact E3|]. rewrite E1.
  rewrite (Hosts_Proofs.first_find excl_of (fun t => ht_eqb (kind t) HT_exclude)) by (intros []; reflexivity). destruct (find _ ts) as [t|] eqn:EF; [apply Hosts_Proofs.find_kind in EF; destruct t; try discriminate EF; reflexivity|reflexivity].
Qed.
Lemma listed_table ls its : listed parse ls its -> exists h, hosts_of parse hosts_init ls = Ret h.
Proof. intros H. destruct (C27_lookup_partial fn parse good ls its H) as (h & E & _). eauto. Qed.

(** A file whose lines are read as written (C38) is loaded as a whole and replaces the table; nothing of the old one is left. *)
Theorem C81_file_partial bs its cur : readable bs -> end_ok bs -> listed parse (content bs) its ->
  exists h, dyn_load parse (Some bs) true true cur = Ret (0, Some h) /\ table_is parse (Some h) (Some (content bs)) /\ answers (Some h) (Some (content bs)).
Proof.
  intros H1 H2 HL. destruct (listed_table _ _ HL) as (h & E). exists h. rewrite (dyn_load_ok parse bs cur H1 H2), E. split; [reflexivity|]. split; [exact E|]. apply table_answers. exact E.
Qed.
(** If it cannot be read, or memory is short, the old table stays in force. *)
Theorem C81_kept o ok_new ok_init cur : o = None \/ ok_new = false \/ ok_init = false -> dyn_load parse o ok_new ok_init cur = Ret (-1, cur).
Proof. intros [->|[->| ->]]; [reflexivity|destruct o; reflexivity|destruct o, ok_new; reflexivity]. Qed.

(** After an update the dynamic table answers exactly as the lines of the sources that were obtained, in the configured order: no line is lost where two
    sources meet, even if one does not end with a line feed; nothing is left of earlier hosts.  If no source was obtained, or the new file could not be
    put in place, the earlier table stays. *)
Theorem C81_update_partial : forall expand can_write dl fs urls os path its,
  can_write (tmp_of path) = true -> can_write (tmp_of (tmp_of path)) = true -> sources expand fs dl (-1) 0 urls os ->
  (forall u p, In u urls -> local u -> url_path u p -> expand p <> Some (tmp_of path) /\ expand p <> Some (tmp_of (tmp_of path))) ->
  Forall readable (obtained os) -> listed parse (lines_of (obtained os)) its ->
  exists n, forall fuel cur, (n < fuel)%nat ->
    (obtained os <> [] -> exists h fs', dyn_update parse expand can_write dl fuel true fs urls path None true true cur = Ret (Some h, fs') /\ table_is parse (Some h) (Some (lines_of (obtained os))) /\ answers (Some h) (Some (lines_of (obtained os)))) /\
    (obtained os <> [] -> exists fs', dyn_update parse expand can_write dl fuel false fs urls path None true true cur = Ret (cur, fs')) /\
    (obtained os = [] -> forall rok script ok_new ok_init, exists fs', dyn_update parse expand can_write dl fuel rok fs urls path script ok_new ok_init cur = Ret (cur, fs')).
Proof.
  intros expand can_write dl fs urls os path its W1 W2 HS HP HR HL. destruct (multi_ok expand can_write dl (-1) fs urls os path W1 W2 HS HP) as (n & G). exists n. intros fuel cur Hf.
  assert (GO : got_one os = true <-> obtained os <> []).
  { rewrite got_ok. unfold obtained. split; [intros (b & Hb) X; apply in_split in Hb; destruct Hb as (l1 & l2 & ->); rewrite flat_map_app in X; cbn [flat_map app] in X; destruct (flat_map _ l1); discriminate|].
    intros X. destruct (flat_map _ os) as [|b r] eqn:E; [congruence|]. assert (In b (b :: r)) as Hb by (left; reflexivity). rewrite <- E in Hb. apply in_flat_map in Hb. destruct Hb as ([x|] & Hx & Hy); [destruct Hy as [->|[]]; exists b; exact Hx|destruct Hy]. }
  destruct (G true fuel Hf) as (f1 & E1 & F1 & _). destruct (G false fuel Hf) as (f2 & E2 & F2 & _). split; [|split].
  - intros X. apply GO in X. rewrite X in E1, F1. unfold dyn_update, update_thread. rewrite E1. cbn [bind fst snd Z.eqb app]. rewrite F1.
    destruct (C81_file_partial (joined os) its cur) as (h & EL & T & A); [apply joined_readable, HR|left; apply joined_last|rewrite joined_content; exact HL|]. exists h, f1. rewrite EL, joined_content in *. split; [reflexivity|]. split; assumption.
  - intros X. apply GO in X. rewrite X in E2, F2. unfold dyn_update, update_thread. rewrite E2. cbn [bind fst snd Z.eqb app]. rewrite F2. cbn [dyn_load bind snd]. exists f2. reflexivity.
  - intros X rok script ok_new ok_init. assert (EG : got_one os = false) by (apply not_true_is_false; intros Y; apply GO in Y; contradiction). rewrite EG in E1, E2. unfold dyn_update, update_thread. destruct rok; [rewrite E1|rewrite E2]; eexists; reflexivity.
Qed.

(** With a script, what the file holds after the script is loaded. *)
Theorem C81_script : forall expand can_write dl fs urls os path g bs its,
  can_write (tmp_of path) = true -> can_write (tmp_of (tmp_of path)) = true -> sources expand fs dl (-1) 0 urls os -> obtained os <> [] ->
  (forall u p, In u urls -> local u -> url_path u p -> expand p <> Some (tmp_of path) /\ expand p <> Some (tmp_of (tmp_of path))) ->
  (forall fs', fs' path = Some (joined os) -> g fs' path = Some bs) -> readable bs -> end_ok bs -> listed parse (content bs) its ->
  exists n, forall fuel cur, (n < fuel)%nat -> exists h fs', dyn_update parse expand can_write dl fuel true fs urls path (Some g) true true cur = Ret (Some h, fs') /\ answers (Some h) (Some (content bs)).
Proof.
  intros expand can_write dl fs urls os path g bs its W1 W2 HS HO HP HG H1 H2 HL. destruct (C79_thread expand can_write dl fs urls os path true W1 W2 HS HP) as (n & G). exists n. intros fuel cur Hf. destruct (G fuel Hf) as (ev & fs' & E & F & _).
  destruct F as (-> & F). { unfold obtained in HO. destruct (flat_map _ os) as [|b r] eqn:EO; [congruence|]. assert (In b (b :: r)) as Hb by (left; reflexivity). rewrite <- EO in Hb. apply in_flat_map in Hb. destruct Hb as ([x|] & Hx & Hy); [destruct Hy as [->|[]]; exists b; exact Hx|destruct Hy]. }
  unfold dyn_update. rewrite E. cbn [bind fst snd app]. rewrite (HG fs' F). destruct (C81_file_partial bs its cur H1 H2 HL) as (h & EL & _ & A). rewrite EL. cbn [bind snd]. eauto.
Qed.

(** The start: with "Hosts", a hosts file that is already there is in force before anything is fetched; the fetching starts at once, and again every
    "ModulesUpdateInterval" seconds if that is positive.  Without "Hosts" nothing is loaded or fetched. *)
Theorem C81_start script retry update o its : script <> Some false -> 0 <= retry -> update <= 2147483 ->
  match o with Some bs => readable bs /\ end_ok bs /\ listed parse (content bs) its | None => True end ->
  exists h, dyn_init parse true script retry update o true true = Ret (0, h, Some (if 0 <? update then (true, true, update * 1000, true) else (false, true, 0, true))) /\
    answers h (option_map content o) /\ forall ok_new ok_init, ok_new && ok_init = false -> exists t, dyn_init parse true script retry update o ok_new ok_init = Ret (0, None, Some t).
Proof.
  intros HS HR HU HO. unfold dyn_init. cbn [negb]. replace (retry <? 0) with false by lia.
  assert (HT : (if update <=? 0 then (false, true, 0, true) else (true, true, int32 (update * 1000), true)) = (if 0 <? update then (true, true, update * 1000, true) else (false, true, 0, true))).
  { destruct (Z.leb_spec update 0), (Z.ltb_spec 0 update); try lia; [reflexivity|]. unfold int32. rewrite Z.mod_small by lia. replace (update * 1000 + 2147483648 - 2147483648) with (update * 1000) by lia. reflexivity. }
  rewrite HT. assert (HC : forall A (x y : A), match script with Some false => x | _ => y end = y) by (intros; destruct script as [[]|]; congruence || reflexivity). setoid_rewrite HC.
  destruct o as [bs|]; cbn [option_map].
  - destruct HO as (H1 & H2 & HL). destruct (C81_file_partial bs its None H1 H2 HL) as (h & -> & T & A). cbn [bind snd]. exists (Some h). split; [reflexivity|]. split; [exact A|]. intros ok_new ok_init X.
    rewrite C81_kept by (right; destruct ok_new, ok_init; auto; discriminate). cbn [bind snd]. eauto.
  - cbn [bind snd]. exists None. split; [reflexivity|]. split; [apply table_answers; exact I|]. eauto.
Qed.
Theorem C81_off urls script retry update o ok_new ok_init : urls = false \/ script = Some false \/ retry < 0 -> exists r, r <> 0 /\ dyn_init parse urls script retry update o ok_new ok_init = Ret (r, None, None).
Proof.
  intros H. unfold dyn_init. destruct urls; cbn [negb]; [|eexists; split; [|reflexivity]; discriminate]. destruct script as [[]|]; [|eexists; split; [|reflexivity]; discriminate|];
    (destruct H as [X|[X|X]]; try discriminate X; replace (retry <? 0) with true by lia; eexists; split; [|reflexivity]; discriminate).
Qed.
(** "AppendHosts": its strings are the lines of the static table. *)
Theorem C81_append strings its : listed parse strings its ->
  exists h, static_init parse (Some strings) true true = Ret (0, Some h) /\ table_is parse (Some h) (Some strings) /\ answers (Some h) (Some strings) /\
  (forall a b, exists r, r <> 0 /\ static_init parse None a b = Ret (r, None)) /\ (forall s a b, a && b = false -> exists r, r <> 0 /\ static_init parse s a b = Ret (r, None)).
Proof.
  intros HL. destruct (listed_table _ _ HL) as (h & E). exists h. unfold static_init. cbn [negb]. rewrite E. split; [reflexivity|]. split; [exact E|]. split; [apply table_answers; exact E|].
  split; [intros [] b; eexists; (split; [|reflexivity]); discriminate|]. intros [s|] [] [] X; try discriminate X; eexists; (split; [|reflexivity]); discriminate.
Qed.

(** All together: a query, after an update, with what "AppendHosts" and the sources say about its name. *)
Theorem C81_answers_partial : forall expand can_write dl fs urls os path its strings its0,
  can_write (tmp_of path) = true -> can_write (tmp_of (tmp_of path)) = true -> sources expand fs dl (-1) 0 urls os -> obtained os <> [] ->
  (forall u p, In u urls -> local u -> url_path u p -> expand p <> Some (tmp_of path) /\ expand p <> Some (tmp_of (tmp_of path))) ->
  Forall readable (obtained os) -> listed parse (lines_of (obtained os)) its -> listed parse strings its0 ->
  exists n, forall fuel cur, (n < fuel)%nat -> exists dy fs' st, dyn_update parse expand can_write dl fuel true fs urls path None true true cur = Ret (Some dy, fs') /\ static_init parse (Some strings) true true = Ret (0, Some st) /\
    forall name ts1 ts2 block6 qtype, for_name fn its0 name ts1 -> for_name fn its name ts2 ->
    exists r, hosts_try fn good block6 (Some st) (Some dy) name qtype = Ret r /\
      (r = T_blocked <-> block6 = true /\ qtype = 28 /\ (has v4_of ts1 ts2 \/ has list_of ts1 ts2)) /\
      (r <> T_blocked -> has excl_of ts1 ts2 -> r = T_none) /\
      (r <> T_blocked -> ~ has excl_of ts1 ts2 -> r = match result good ts1 qtype with T_none => result good ts2 qtype | r1 => r1 end).
Proof.
  intros expand can_write dl fs urls os path its strings its0 W1 W2 HS HO HP HR HL HL0. destruct (C81_update_partial expand can_write dl fs urls os path its W1 W2 HS HP HR HL) as (n & G). exists n. intros fuel cur Hf. destruct (G fuel cur Hf) as (G1 & _). destruct (G1 HO) as (dy & fs' & E & T2 & _).
  destruct (C81_append strings its0 HL0) as (st & E0 & T1 & _). exists dy, fs', st. split; [exact E|]. split; [exact E0|]. intros name ts1 ts2 block6 qtype N1 N2.
  apply (C28_two_tables fn parse good (Some st) (Some dy) (Some strings) (Some (lines_of (obtained os))) name ts1 ts2 block6 qtype T1 T2); [exists its0; split; assumption|exists its; split; assumption].
Qed.

(** A line that does not fit in 319 characters is passed over if it has no comment and the read that ends it (of 127 bytes) begins with a visible character. *)
Theorem C81_long_partial l1 l2 rest fuel q n c h : plain (l1 ++ l2) -> length l1 = 319%nat -> n = (q * 127)%nat -> (length l2 < n + 127)%nat -> nth_error l2 n = Some c -> is_space c = false ->
  dyn_lines parse (S fuel) (mkf (l1 ++ l2 ++ 10 :: rest) false) h = dyn_lines parse fuel (mkf rest false) h.
Proof.
  intros Hp L1 En HL Hc Hs. assert (Hq : (q < length (l2 ++ 10%Z :: rest))%nat) by (assert (n < length l2)%nat by (apply nth_error_Some; congruence); rewrite app_length; lia). apply plain_app in Hp. destruct Hp as (Hp1 & Hp2). cbn [dyn_lines]. rewrite read_trunc; [|lia|exact Hp1|exact L1]. cbn [bind fst snd f_bytes].
  assert (HQ : forall k, next_line (S q + k) (mkf (l2 ++ 10 :: rest) false) = next_line (S q) (mkf (l2 ++ 10 :: rest) false)).
  { destruct (C38_skip_partial q l2 rest n c Hp2 En HL Hc Hs) as (s & ES). intros k. rewrite ES. revert ES. generalize (mkf (l2 ++ 10 :: rest) false). generalize (S q). clear. intros m. induction m as [|m IH]; intros f; cbn [next_line Nat.add]; [discriminate|].
    destruct (read_line1 128 f) as [(r, f')| | |]; try discriminate. cbn [bind fst snd]. destruct r; try exact (fun X => X). apply IH. }
  destruct (C38_skip_partial q l2 rest n c Hp2 En HL Hc Hs) as (s & ES). replace (S (length (l2 ++ 10 :: rest))) with (S q + (length (l2 ++ 10%Z :: rest) - q))%nat by lia. rewrite HQ, ES. reflexivity.
Qed.
End H.
Print Assumptions C81_file_partial.
Print Assumptions C81_kept.
Print Assumptions C81_update_partial.
Print Assumptions C81_script.
Print Assumptions C81_start.
Print Assumptions C81_off.
Print Assumptions C81_append.
Print Assumptions C81_answers_partial.
Print Assumptions C81_long_partial.

(** ** Where the full statement fails *)
(** A line of exactly 319 characters takes the next one with it: "1.1 a.b" behind it is lost, and "a.b" is not answered. *)
Theorem C81_line_refuted : exists l h, plain l /\ length l = 319%nat /\ dyn_load ex_parse (Some (l ++ 10 :: l_v4 ++ [10])) true true None = Ret (0, Some h) /\ utils_try ex_fn (fun _ => None) h ab 1 = Ret T_none /\
  exists h', dyn_load ex_parse (Some (l_v4 ++ [10])) true true None = Ret (0, Some h') /\ utils_try ex_fn (fun _ => None) h' ab 1 = Ret (T_answer (AN_a [49; 46; 49; 0])).
Proof.
  exists (repeat 97 319). eexists. split; [intros c Hc; apply repeat_spec in Hc; subst c; lia|]. split; [apply repeat_length|]. split; [vm_compute; reflexivity|]. split; [vm_compute; reflexivity|]. eexists. split; [vm_compute; reflexivity|vm_compute; reflexivity].
Qed.
Print Assumptions C81_line_refuted.
(** A positive interval of more than 2147483 seconds becomes another one, a negative one for instance. *)
Theorem C81_interval_refuted : exists update ms, 0 < update < 2147483647 /\ ms < 0 /\ dyn_init ex_parse true None 0 update None true true = Ret (0, None, Some (true, true, ms, true)).
Proof. exists 3000000, (-1294967296). split; [lia|]. split; [lia|]. vm_compute. reflexivity. Qed.
Print Assumptions C81_interval_refuted.

(** "1.1 a.b" without a line feed in the first source, nothing from the second, a comment and "2.2  a.b" in the third; "c.d a.b" before. *)
Example C81_nonvacuous :
  let os := [Some l_v4; None; Some (35 :: 10 :: l_v4b)] in
  obtained os <> [] /\ Forall readable (obtained os) /\ lines_of (obtained os) = [l_v4; l_v4b] /\ (exists its, listed ex_parse (lines_of (obtained os)) its) /\
  let dl := fun (j k : nat) => if (j =? 0)%nat then (true, l_v4) else (true, 35 :: 10 :: l_v4b) in
  let urls := [[117]; [102;105;108;101;58;47;47;47;110]; [117]] in
  sources (fun p => Some p) (fun _ => None) dl (-1) 0 urls os /\
  (let! r := dyn_update ex_parse (fun p => Some p) (fun _ => true) dl 5 true (fun _ => None) urls [70] None true true None in
   match fst r with Some h => utils_try ex_fn (fun _ => None) h ab 1 | None => UBR end) = Ret (T_answer (AN_a [49; 46; 49; 0])) /\
  (let! d := dyn_init ex_parse true None 5 60 (Some (l_v4 ++ [10])) true true in Ret (fst (fst d), snd d)) = Ret (0, Some (true, true, 60000, true)) /\
  (let! d := static_init ex_parse (Some [l_alias]) true true in match snd d with Some h => get_cname ex_fn h ab | None => UBR end) = Ret (Some [99; 46; 100]).
Proof.
  cbv zeta. assert (K : forall l, forallb (fun c => negb (c =? 0) && negb (c =? 13) && negb (c =? 59)) l = true -> (length l <= 318)%nat -> line_ok 320 l).
  { intros l H L. rewrite forallb_forall in H. split; [lia|]. split; [intros X; apply H in X; discriminate|]. split; intros a b ->; specialize (H _ (in_elt _ a b)); discriminate. }
  assert (P2 : url_path [102;105;108;101;58;47;47;47;110] [47;110]).
  { exists [102;105;108;101], 1%nat, [110]. split; [reflexivity|]. split; [reflexivity|]. split; [discriminate|]. intros a b X. destruct b; [reflexivity|]. apply (f_equal (@length Z)) in X as L. rewrite !app_length in L. cbn [length] in L. destruct a as [|? [|? [|? [|? a]]]]; cbn [app length] in *; try discriminate X; lia. }
  assert (N : ~ local [117]) by (intros (r & X); discriminate X).
  split; [discriminate|]. split; [repeat apply Forall_cons; try apply Forall_nil; unfold readable; cbn; repeat apply Forall_cons; try apply Forall_nil; apply K; [reflexivity|cbn [length]; lia| reflexivity|cbn [length]; lia|reflexivity|cbn [length]; lia]|].
  split; [reflexivity|]. split; [eexists; eapply L_item; [exact l_v4_words|exact reads_11|]; eapply L_item; [exact l_v4b_words|exact reads_22|]; apply L_nil|].
  split.
  - constructor; [apply so_received with 0%nat; [exact N|intros i Hi; lia|reflexivity|left; lia]|]. constructor; [eapply so_missing; [eexists; reflexivity|exact P2|cbn [length]; lia|reflexivity|reflexivity]|]. constructor; [apply so_received with 0%nat; [exact N|intros i Hi; lia|reflexivity|left; lia]|constructor].
  - split; [vm_compute; reflexivity|]. split; vm_compute; reflexivity.
Qed.
