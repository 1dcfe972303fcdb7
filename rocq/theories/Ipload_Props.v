From Verif Require Import Base BaseFacts Gen_Model Hosts_Model Line_Model Line_Props Ttl_Spec Addr_Model Addr_Spec Bst_Model Name_Model Parser_Model Parser_Spec Ip_Model Ip_Spec Ip_Proofs Ip2_Proofs Ip3_Proofs Ip4_Proofs Ip5_Proofs Ip_Props Ipload_Model Ipload_Spec Ipload_Proofs.
Require Import ZifyBool ZifyNat.

(** * C77: the addresses that are blocked and replaced are the configured ones *)
(** Full statement: whatever the options and the files, replies are changed according to the rules that stand there.  Proved for rules that are written
    well (or are no address at all), for files whose lines are read as they are written (C38), and within the limits of C31 and C32.  The rules that were
    in force before do not matter. *)
Theorem C77_effect_partial stale open blocks subs files neg es rs cur : asked open blocks subs files es -> means rs es -> (blocks, subs, files, neg) <> (None, None, None, false) ->
  exists new look, ip_load stale open true true blocks subs files neg cur = Ret (0, new) /\ policy rs look /\
  (orderly rs -> forall a o, address a -> (forall r, In r rs -> single r -> ~ rule_covers a r) -> first (rule_covers a) rs o -> look a = option_map ru_act o) /\
  forall g post fuel p0 t0 k0 d0, good_msg g -> m_qs g <> [] -> Forall is_byte post -> Forall address_ok (m_an g) -> (length (m_qs g) <= fuel)%nat -> (length (m_an g) < fuel)%nat ->
  exists b an', filtered look (m_an g) b an' /\
  ip_process fuel new (enc_msg g ++ post) (length (enc_msg g)) p0 t0 k0 d0 =
    if neg && negb (nth 3 (m_idflags g) 0 mod 16 =? 0) then Ret (misc_negative, enc_msg g ++ post)
    else Ret (if b then misc_filtered else misc_nothing, enc_msg (with_an g an') ++ post).
Proof.
  intros HA HM HN. destruct (means_run stale rs es HM) as (es' & W & HR). destruct (C32_filter_partial stale rs es' W) as (c & look & E & HP & HO & HF).
  exists (Some (c, neg)), look. rewrite (load_run stale open blocks subs files es neg cur HN HA), (HR _ _ table_init), E. split; [reflexivity|]. split; [exact HP|]. split; [exact HO|].
  intros g post fuel p0 t0 k0 d0 H1 H2 H3 H4 H5 H6. apply HF; assumption.
Qed.
Print Assumptions C77_effect_partial.

(** With none of the options there are no rules, and replies are left alone. *)
Theorem C77_none stale open ok_new ok_init fuel m len p0 t0 k0 d0 : ip_load stale open ok_new ok_init None None None false None = Ret (0, None) /\ ip_process fuel None m len p0 t0 k0 d0 = Ret (misc_nothing, m).
Proof. split; reflexivity. Qed.
Print Assumptions C77_none.
(** Without memory the call fails and the rules in force stay. *)
Theorem C77_fails stale open ok_new ok_init blocks subs files neg cur : ok_new && ok_init = false -> exists v, ip_load stale open ok_new ok_init blocks subs files neg cur = Ret (v, cur) /\ (v <> 0 \/ (blocks, subs, files, neg) = (None, None, None, false)).
Proof. intros H. destruct blocks, subs, files, neg, ok_new, ok_init; try discriminate H; eexists; (split; [reflexivity|]); first [left; lia|right; reflexivity]. Qed.
Print Assumptions C77_fails.
(** While the program runs, the rules change only if that was asked for; then they are those of the options and of the files as they are now. *)
Theorem C77_update stale open reload blocks subs files neg es c cur : (blocks, subs, files, neg) <> (None, None, None, false) -> asked open blocks subs files es -> ip_load stale open true true blocks subs files neg None = Ret (0, c) ->
  ip_update stale open reload true true blocks subs files neg cur = Ret (if reload then c else cur).
Proof.
  intros HN HA E. unfold ip_update. destruct reload; [|reflexivity]. rewrite (load_run stale open blocks subs files es neg None HN HA) in E. rewrite (load_run stale open blocks subs files es neg cur HN HA), E. reflexivity.
Qed.
Print Assumptions C77_update.
(** Every file with lines that are read as they are written has its list of rules. *)
Theorem C77_total bs : Forall (line_ok 512) (file_lines bs) -> end_ok bs -> exists es, all_entries line_entry (content bs) es.
Proof.
  intros HL HE. assert (H : Forall (fun v => (exists c s, v = c :: s /\ is_space c = false) /\ (exists s c, v = s ++ [c] /\ is_space c = false)) (content bs)).
  { enough (H : forall n bs e, (length bs <= n)%nat -> (e = true -> bs = []) -> Forall (line_ok 512) (file_lines bs) -> end_ok bs -> Forall (fun v => (exists c s, v = c :: s /\ is_space c = false) /\ (exists s c, v = s ++ [c] /\ is_space c = false)) (content bs)) by (apply (H (length bs) bs false); auto; discriminate).
    clear. induction n as [|n IH]; intros bs e Hn He HL HE; pose proof (read_line_ok 512 ltac:(lia) (length bs) bs e (S (length bs)) (le_n _) ltac:(lia) He HL HE) as HR; destruct (content bs) as [|v vs]; try constructor.
    - destruct HR as (f' & _ & _ & _ & X & _). lia.
    - destruct HR as (f' & _ & _ & _ & X & _). lia.
    - destruct HR as (f' & ER & _). destruct (C38_shape 512 (mkf bs e) (RlDone v) f') as (_ & X & Y & _); [lia|exact ER|]. split; assumption.
    - destruct HR as (f' & ER & G1 & G2 & G3 & G4 & G5). rewrite <- G2. apply (IH (f_bytes f') (f_eof f')); try assumption. lia. }
  induction H as [|v vs (H1 & H2) H IH]; [exists []; constructor|]. destruct (line_entry_total v H1 H2) as (e & He). destruct IH as (es & IH). exists (e ++ es). constructor; assumption.
Qed.
Print Assumptions C77_total.

(** ** Lines that are too long *)
(** Full statement: a line that does not fit is passed over.  Proved if it has no comment and the read that ends it (of 127 bytes) begins with a visible
    character. *)
Theorem C77_long_partial stale l1 l2 rest fuel q n c x : plain (l1 ++ l2) -> length l1 = 511%nat -> n = (q * 127)%nat -> (length l2 < n + 127)%nat -> nth_error l2 n = Some c -> is_space c = false ->
  load_lines stale (S fuel) (mkf (l1 ++ l2 ++ 10 :: rest) false) x = load_lines stale fuel (mkf rest false) x.
Proof.
  intros Hp L1 En HL Hc Hs. assert (Hq : (q < length (l2 ++ 10%Z :: rest))%nat) by (assert (n < length l2)%nat by (apply nth_error_Some; congruence); rewrite app_length; lia). apply plain_app in Hp. destruct Hp as (Hp1 & Hp2). cbn [load_lines]. rewrite read_trunc; [|lia|exact Hp1|exact L1]. cbn [bind fst snd f_bytes].
  assert (HQ : forall k, next_line (S q + k) (mkf (l2 ++ 10 :: rest) false) = next_line (S q) (mkf (l2 ++ 10 :: rest) false)).
  { destruct (C38_skip_partial q l2 rest n c Hp2 En HL Hc Hs) as (s & ES). intros k. rewrite ES. revert ES. generalize (mkf (l2 ++ 10 :: rest) false). generalize (S q). clear. intros m. induction m as [|m IH]; intros f; cbn [next_line Nat.add]; [discriminate|].
    destruct (read_line1 128 f) as [(r, f')| | |]; try discriminate. cbn [bind fst snd]. destruct r; try exact (fun X => X). apply IH. }
  destruct (C38_skip_partial q l2 rest n c Hp2 En HL Hc Hs) as (s & ES). replace (S (length (l2 ++ 10 :: rest))) with (S q + (length (l2 ++ 10%Z :: rest) - q))%nat by lia. rewrite HQ, ES. reflexivity.
Qed.
Print Assumptions C77_long_partial.

(** ** Where the full statement fails *)
(** A line of exactly 511 characters takes the next one with it: the rule "1.2.3.4 5.6.7.8" behind it is lost. *)
Definition t_rule : list Z := [49;46;50;46;51;46;52;32;53;46;54;46;55;46;56].
Lemma line_plain : plain (repeat 97 511).
Proof. intros c Hc. apply repeat_spec in Hc. subst c. lia. Qed.
Lemma line_lost : load_file (fun _ => 0) (repeat 97 511 ++ 10 :: t_rule ++ [10]) ipchunk_init = Ret ipchunk_init.
Proof. vm_compute. reflexivity. Qed.
Lemma line_found : (let! c := load_file (fun _ => 0) (t_rule ++ [10]) ipchunk_init in ipchunk_find c [1;2;3;4]) = Ret (Some (ty_subst, Some [5;6;7;8])).
Proof. vm_compute. reflexivity. Qed.
Theorem C77_line_refuted : exists l, plain l /\ length l = 511%nat /\ load_file (fun _ => 0) (l ++ 10 :: t_rule ++ [10]) ipchunk_init = Ret ipchunk_init /\
  exists c, load_file (fun _ => 0) (t_rule ++ [10]) ipchunk_init = Ret c /\ ipchunk_find c [1;2;3;4] = Ret (Some (ty_subst, Some [5;6;7;8])).
Proof. exists (repeat 97 511). split; [exact line_plain|]. split; [apply repeat_length|]. split; [exact line_lost|]. exact (bind_ret _ _ _ line_found). Qed.
Print Assumptions C77_line_refuted.
(** The substitute is not checked: with a mistyped one ("1.2.3.4" replaced by "x") the addresses in replies are replaced by whatever the stack holds. *)
Theorem C77_junk_refuted : forall b0 b1 b2 b3, is_byte b0 -> is_byte b1 -> is_byte b2 -> is_byte b3 -> exists stale c,
  ip_load stale (fun _ => None) true true None (Some [[49;46;50;46;51;46;52]; [120]]) None false None = Ret (0, Some (c, false)) /\ ipchunk_find c [1;2;3;4] = Ret (Some (ty_subst, Some [b0; b1; b2; b3])).
Proof.
  intros b0 b1 b2 b3 H0 H1 H2 H3. exists (fun i => nth i [b0; b1; b2; b3] 0).
  assert (M : forall b, is_byte b -> b mod 256 = b) by (intros b Hb; apply Z.mod_small; exact Hb). 
  assert (V : v4_to_num (fun i => nth i [b0; b1; b2; b3] 0) [120] = (0, [b0; b1; b2; b3])).
  { unfold v4_to_num. replace (scan_list scan_d 46 4 [120]) with (@nil Z) by (vm_compute; reflexivity). cbn [length map or_stale nth]. unfold or_stale. cbn [nth]. rewrite !M by assumption. reflexivity. }
  cbn [ip_load negb strings load_blocks load_pairs load_files bind]. unfold add_subst. replace (str_chr 58 [49;46;50;46;51;46;52]) with (@None (list Z)) by (vm_compute; reflexivity). rewrite V. cbn [snd].
  generalize (fun i : nat => nth i [b0; b1; b2; b3] 0). intros st. clear. eexists. split; [vm_compute; reflexivity|vm_compute; reflexivity].
Qed.
Print Assumptions C77_junk_refuted.

(** ** A case: BlockIP 10.0.0.0/8 and "x", IPSubstituting 10.2.0.5 1.2.3.4 and an odd one, a file that is not there and one with
    "# list\n1.2.3.4\t 5.6.7.8 ignored\nalone\n" *)
Definition t_5678 : list Z := [53;46;54;46;55;46;56].
Definition ex_file : list Z := [35;32;108;105;115;116;10] ++ t_1234 ++ [9;32] ++ t_5678 ++ [32;105;10;97;108;111;110;101;10].
Definition ex_open (p : list Z) : option (list Z) := match p with [102] => Some ex_file | _ => None end.
Definition ex_es : list entry := [(t_10, None); ([120], None); (t_10205, Some t_1234); (t_1234, Some t_5678)].
Definition r_1234 : rule := mk_rule (Some (mk_range [1;2;3;4] 32)) (Replace [5;6;7;8]).
Lemma ex_asked : asked ex_open (Some [t_10; [120]]) (Some [t_10205; t_1234; [121]]) (Some [[103]; [102]]) ex_es.
Proof.
  exists [(t_10205, Some t_1234)], [(t_1234, Some t_5678)]. split; [reflexivity|]. split; [repeat constructor|].
  apply (ae_cons _ _ _ [] [(t_1234, Some t_5678)]); [apply fe_missing; reflexivity|]. apply (ae_cons _ _ _ [(t_1234, Some t_5678)] []); [|constructor].
  apply (fe_file _ _ ex_file); [reflexivity| |left; reflexivity|].
  - assert (X : file_lines ex_file = [[35;32;108;105;115;116]; t_1234 ++ [9;32] ++ t_5678 ++ [32;105]; [97;108;111;110;101]; []]) by (vm_compute; reflexivity). rewrite X.
    assert (Y : forall l, (length l <= 510)%nat -> ~ In 0 l -> ~ In 59 l -> ~ In 13 l -> line_ok 512 l) by (intros l H1 H2 H3 H4; split; [lia|]; split; [exact H2|]; split; intros a b ->; exfalso; [apply H3|apply H4]; apply in_app_iff; right; left; reflexivity).
    repeat apply Forall_cons; try apply Forall_nil; apply Y; cbn; try lia; intuition discriminate.
  - assert (X : content ex_file = [t_1234 ++ [9;32] ++ t_5678 ++ [32;105]; [97;108;111;110;101]]) by (vm_compute; reflexivity). rewrite X.
    assert (W : forall w, w <> [] -> ~ In 32 w -> ~ In 9 w -> word w) by (intros w H1 H2 H3; split; [exact H1|]; apply Forall_forall; intros x Hx [->| ->]; contradiction).
    apply (ae_cons _ _ _ [(t_1234, Some t_5678)] []); [|apply (ae_cons _ _ _ [] []); [|constructor]].
    + apply le_two. exists [9;32], [32;105]. split; [reflexivity|]. split; [apply W; cbn; [discriminate|intuition discriminate..]|]. split; [split; [discriminate|repeat constructor; unfold blank_char; lia]|]. split; [apply W; cbn; [discriminate|intuition discriminate..]|]. right. exists 32, [105]. split; [reflexivity|left; reflexivity].
    + apply le_one. apply W; cbn; [discriminate|intuition discriminate..].
Qed.
Lemma ex_means : means [r_10; r_10205; r_1234] ex_es.
Proof.
  pose proof ex_written as EW. inversion EW as [|? ? ? ? E1 EW2]; subst. inversion EW2 as [|? ? ? ? E2 _]; subst. apply me_rule; [exact E1|]. apply me_skip; [split; intros [X|[]]; discriminate|]. apply me_rule; [exact E2|]. apply me_rule; [|constructor].
  split; [apply (ri_single [1;2;3;4] t_1234); constructor; apply (dotted_digits 1 2 3 4); lia|]. split; [constructor; apply (dotted_digits 5 6 7 8); lia|reflexivity].
Qed.
Example C77_nonvacuous : asked ex_open (Some [t_10; [120]]) (Some [t_10205; t_1234; [121]]) (Some [[103]; [102]]) ex_es /\ means [r_10; r_10205; r_1234] ex_es /\
  exists c, ip_load (fun _ => 7) ex_open true true (Some [t_10; [120]]) (Some [t_10205; t_1234; [121]]) (Some [[103]; [102]]) true None = Ret (0, Some (c, true)) /\
  ipchunk_find c [10;2;0;5] = Ret (Some (ty_subst, Some [1;2;3;4])) /\ ipchunk_find c [10;2;0;6] = Ret (Some (ty_block, None)) /\ ipchunk_find c [1;2;3;4] = Ret (Some (ty_subst, Some [5;6;7;8])) /\ ipchunk_find c [1;2;3;5] = Ret None.
Proof. split; [exact ex_asked|]. split; [exact ex_means|]. eexists. split; [vm_compute; reflexivity|]. repeat split; vm_compute; reflexivity. Qed.
