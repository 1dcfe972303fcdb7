(** C39, lines that do not fit in the buffer of ConfigRead and are not for list options: they are taken in pieces, each as a line of its own. *)
From Verif Require Import Hosts_Model Base BaseFacts List2Facts Hash_Model Addr_Model Arr_Model Slist_Model Replace_Props Slist_Proofs Slist_Props Sht_Model Chunk_Model Chunk_Spec Chunk_Proofs Line_Model Line_Props Config_Model Config_Proofs Config_Props Longval_Props.
Require Import ZifyBool ZifyNat.
Import List ListNotations.
Open Scope list_scope.
Open Scope Z_scope.

(** * Specification *)
(** A text that has no name, or an unknown one, or that of a number or a boolean. *)
Definition cut_ok (t : atable) (a : list Z) : Prop :=
  match split_nv a with
  | None => True
  | Some (k, _) => match resolve t k with None => True | Some (n, _, _) => exists d, In (n, AOpt d) t /\ (d_type d = TInt \/ d_type d = TBool) end
  end.
(** The lines that are taken from a file.  2047 bytes without the end of a line, a comment, CR or NUL are a line, and what follows them is the next one, unless they begin a
    list option (then the whole line is taken, see [long_ok]). *)
Inductive reads (t : atable) : list Z -> list (list Z) -> Prop :=
  | D_end bs : Forall (line_ok 2048) (file_lines bs) -> end_ok bs -> reads t bs (content bs)
  | D_fit l bs ls : line_ok 2048 l -> ~ In 10 l -> reads t bs ls -> reads t (l ++ 10 :: bs) (match visible l with [] => ls | v => v :: ls end)
  | D_long a l bs ls : long_ok t a l -> reads t bs ls -> reads t (a ++ l ++ 10 :: bs) ((a ++ no_tail l) :: ls)
  | D_cut a bs ls : length a = 2047%nat -> plain a -> cut_ok t a -> reads t bs ls -> reads t (a ++ bs) (a :: ls).

(** * Proofs *)
Section S.
Context (junk : nat -> Z) (stale : Z) (expand : list Z -> nat -> list Z).
Context (Hexp : forall x n, ~ In 0 x -> ~ In 0 (expand x n)).
Lemma config_cut_ok g t a f : table g t -> good_table t -> ~ In 0 a -> cut_ok t a ->
  exists g', config_line junk stale expand g a false f = Ret (counts t a, g', f) /\ table g' (a_line stale expand t a) /\ good_table (a_line stale expand t a).
Proof.
  intros HT HG H0 HC. destruct (config_line_ok junk stale expand Hexp g t a f HT HG H0) as (g' & E & H). exists g'. split; [|exact H]. rewrite <- E. clear E H. unfold config_line, cut_ok in *. destruct (split_nv a) as [(k, v)|]; [|reflexivity].
  pose proof (get_opt_ok g t k HT HG) as HO. destruct (resolve t k) as [((n, p), ds)|] eqn:Er; [|rewrite HO; reflexivity]. destruct HO as (i & d & Hi & ->). cbn [bind]. destruct (store_nth g t i n _ HT Hi) as (e & -> & Hrel). destruct e as [o|]; [|reflexivity]. cbn [erel] in Hrel.
  assert (Hd : d_type d = TInt \/ d_type d = TBool). { destruct HC as (d0 & Hd0 & Ht). pose proof (in_assoc t n _ (proj1 HG) (nth_error_In _ _ Hi)) as A1. pose proof (in_assoc t n _ (proj1 HG) Hd0) as A2. congruence. }
  assert (Hp : match p with Some x => ~ In 0 x | None => True end). { unfold resolve in Er. destruct (assoc t k) as [[dd|tg q e]|] eqn:Ea; [injection Er as <- <- <-; exact I| |discriminate]. injection Er as <- <- <-. apply assoc_in in Ea. destruct HG as (_ & _ & _ & G4). eapply G4, Ea. }
  destruct (prepend_ok junk stale expand Hexp o d p ds f Hrel Hp) as (o1 & -> & Hr1). cbn [bind].
  assert (HD : c_type o1 = d_type d). { destruct Hr1 as (-> & _). unfold a_prepend. destruct p as [x|]; [|reflexivity]. destruct Hd as [Ed|Ed]; rewrite Ed; [rewrite (proj1 (a_parse_int_type _ _ _))|rewrite (proj1 (a_parse_bool_type _ _))]; exact Ed. }
  unfold set_value. rewrite HD. destruct Hd as [-> | ->]; reflexivity.
Qed.
Lemma a_line_cut t line a : good_table t -> cut_ok t a -> cut_ok (a_line stale expand t line) a.
Proof.
  intros HG. unfold cut_ok. destruct (split_nv a) as [(k, v)|]; [|auto]. rewrite a_line_resolve by exact HG. destruct (resolve t k) as [((n, p), ds)|]; [|auto]. intros (d & Hd & Ht). destruct (a_line_opt stale expand t line n d HG Hd) as (d' & I' & T1 & T2). exists d'. split; [exact I'|]. rewrite T1. exact Ht.
Qed.
Lemma a_line_reads t line bs ls : good_table t -> reads t bs ls -> reads (a_line stale expand t line) bs ls.
Proof. intros HG. induction 1; [apply D_end; assumption|apply D_fit; assumption|apply D_long; [apply a_line_long; assumption|assumption]|apply D_cut; try assumption; apply a_line_cut; assumption]. Qed.
Lemma reads_step t bs ls : reads t bs ls -> forall e, (e = true -> bs = []) ->
  match ls with
  | [] => exists f', read_line1 2048 (mkf bs e) = Ret (RlEnd, f')
  | v :: vs => (exists f', read_line1 2048 (mkf bs e) = Ret (RlDone v, f') /\ ~ In 0 v /\ fgood f' /\ (length (f_bytes f') < length bs)%nat /\ reads t (f_bytes f') vs) \/
               (exists a l bs', read_line1 2048 (mkf bs e) = Ret (RlTrunc a, mkf (l ++ 10 :: bs') false) /\ v = a ++ no_tail l /\ long_ok t a l /\ (length bs' < length bs)%nat /\ reads t bs' vs) \/
               (exists bs', read_line1 2048 (mkf bs e) = Ret (RlTrunc v, mkf bs' false) /\ ~ In 0 v /\ cut_ok t v /\ (length bs' < length bs)%nat /\ reads t bs' vs)
  end.
Proof.
  induction 1 as [bs HF HE|l bs ls Hl H10 HR IH|a l bs ls HO HR IH|a bs ls La Hp HO HR IH]; intros e He.
  - pose proof (read_line_ok 2048 ltac:(lia) (length bs) bs e (S (length bs)) (le_n _) ltac:(lia) He HF HE) as X. pose proof (content_nonul _ _ HF) as HNU. unfold read_line1. cbn [f_bytes]. destruct (content bs) as [|v vs]; [exact X|]. left. destruct X as (f' & X & G1 & G2 & G3 & G4 & G5). exists f'. split; [exact X|]. split; [apply (Forall_inv HNU)|]. split; [exact G1|]. split; [exact G3|]. rewrite <- G2. apply D_end; assumption.
  - assert (e = false) as -> by (destruct e; [destruct l; discriminate (He eq_refl)|reflexivity]). specialize (IH false ltac:(discriminate)). unfold read_line1 in *. cbn [f_bytes] in *.
    rewrite (step_line l [10] (mkf bs false)); [|exact Hl|left; reflexivity|exact H10|apply fgets_lf; [exact H10|apply Hl|apply Hl]]. pose proof (visible_nonul l (proj1 (proj2 Hl))) as HV. destruct (visible l) as [|x vl].
    + assert (HLe : (S (length bs) <= length (l ++ 10%Z :: bs))%nat) by (rewrite app_length; cbn [length]; lia). destruct ls as [|v vs]; [destruct IH as (f' & E); exists f'; apply (read_line_mono junk expand Hexp _ _ _ _ _ E HLe)|].
      destruct IH as [(f' & E & G0 & G1 & G3 & G4)|[(a' & l' & bs' & E & G0 & G1 & G3 & G4)|(bs' & E & G0 & G1 & G3 & G4)]].
      * left. exists f'. split; [apply (read_line_mono junk expand Hexp _ _ _ _ _ E HLe)|]. do 2 (split; [assumption|]). split; [lia|assumption].
      * right. left. exists a', l', bs'. split; [apply (read_line_mono junk expand Hexp _ _ _ _ _ E HLe)|]. do 2 (split; [assumption|]). split; [lia|assumption].
      * right. right. exists bs'. split; [apply (read_line_mono junk expand Hexp _ _ _ _ _ E HLe)|]. do 2 (split; [assumption|]). split; [lia|assumption].
    + left. exists (mkf bs false). split; [reflexivity|]. split; [exact HV|]. split; [discriminate|]. split; [cbn [f_bytes]; rewrite app_length; cbn [length]; lia|exact HR].
  - assert (e = false) as ->. { destruct e; [|reflexivity]. destruct HO as (_ & _ & (c & r & -> & _) & _). discriminate (He eq_refl). } right. left. exists a, l, bs. pose proof HO as (La & Hp & _). apply plain_app in Hp. split; [apply read_trunc; [lia|apply Hp|lia]|]. split; [reflexivity|]. split; [exact HO|]. split; [rewrite !app_length; cbn [length]; lia|exact HR].
  - assert (e = false) as ->. { destruct e; [|reflexivity]. destruct a; [discriminate|]. discriminate (He eq_refl). } right. right. exists bs. split; [apply read_trunc; [lia|exact Hp|lia]|]. split; [apply plain_not; [exact Hp|lia]|]. split; [exact HO|]. split; [rewrite app_length; lia|exact HR].
Qed.
Lemma config_read_cut fuel : forall g t bs ls e n, table g t -> good_table t -> clean_table t -> (e = true -> bs = []) -> reads t bs ls -> (length bs < fuel)%nat ->
  exists g', config_read junk stale expand fuel g (mkf bs e) n = Ret (n + Z.of_nat (length (filter (counts t) ls)), g') /\ table g' (fold_left (a_line stale expand) ls t) /\ good_table (fold_left (a_line stale expand) ls t).
Proof.
  induction fuel as [|fuel IH]; intros g t bs ls e n HT HG HC He HR Hf; [lia|]. cbn [config_read]. pose proof (reads_step t bs ls HR e He) as HS. destruct ls as [|v vs]; [destruct HS as (f' & ->); cbn [bind fst snd filter length]; rewrite Z.add_0_r; exists g; cbn [fold_left]; auto|].
  destruct HS as [(f' & -> & G0 & G1 & G3 & G4)|[(a & l & bs' & -> & -> & G1 & G3 & G4)|(bs' & -> & G0 & G1 & G3 & G4)]]; cbn [bind fst snd].
  - destruct (config_line_ok junk stale expand Hexp g t v f' HT HG G0) as (g1 & -> & HT1 & HG1). cbn [bind fst snd]. destruct f' as [bs' e']. cbn [f_bytes] in *.
    destruct (IH g1 (a_line stale expand t v) bs' vs e' (if counts t v then n + 1 else n) HT1 HG1 (a_line_clean stale expand t v HG HC) G1 (a_line_reads t v bs' vs HG G4) ltac:(lia)) as (g' & -> & HT' & HG'). exists g'. split; [|cbn [fold_left]; auto].
    do 2 f_equal. rewrite (filter_ext _ (counts t)) by (intros x; apply a_line_counts, HG). cbn [filter]. destruct (counts t v); cbn [length]; lia.
  - destruct (config_long_ok junk stale expand Hexp g t a l bs' HT HG HC G1) as (g1 & -> & HCn & HT1 & HG1). cbn [bind fst snd].
    destruct (IH g1 (a_line stale expand t (a ++ no_tail l)) bs' vs false (n + 1) HT1 HG1 (a_line_clean stale expand t _ HG HC) ltac:(discriminate) (a_line_reads t _ bs' vs HG G4) ltac:(lia)) as (g' & -> & HT' & HG'). exists g'. split; [|cbn [fold_left]; auto].
    do 2 f_equal. rewrite (filter_ext _ (counts t)) by (intros x; apply a_line_counts, HG). cbn [filter]. rewrite HCn. cbn [length]. lia.
  - destruct (config_cut_ok g t v (mkf bs' false) HT HG G0 G1) as (g1 & -> & HT1 & HG1). cbn [bind fst snd].
    destruct (IH g1 (a_line stale expand t v) bs' vs false (if counts t v then n + 1 else n) HT1 HG1 (a_line_clean stale expand t v HG HC) ltac:(discriminate) (a_line_reads t v bs' vs HG G4) ltac:(lia)) as (g' & -> & HT' & HG'). exists g'. split; [|cbn [fold_left]; auto].
    do 2 f_equal. rewrite (filter_ext _ (counts t)) by (intros x; apply a_line_counts, HG). cbn [filter]. destruct (counts t v); cbn [length]; lia.
Qed.
End S.

(** The values of the options after reading a file, with lines of any length: as for the lines that are taken ([reads]).  What is still missing: long lines for path options,
    with comments, with empty strings in a list (C37_parts_refuted), or whose last part for a list option begins with a blank (C38_long_refuted); prepended texts for path options. *)
Theorem C39_taken_partial junk stale expand os bs ls0 fuel : (forall x room, ~ In 0 x -> ~ In 0 (expand x room)) -> setups_ok [] os -> let t := fold_left spec_setup os [] in
  clean_table t -> reads t bs ls0 -> (length bs < fuel)%nat ->
  exists g0 g, run_setups junk cfg_init os = Ret g0 /\ config_read junk stale expand fuel g0 (mkf bs false) 0 = Ret (Z.of_nat (length (filter (counts t) ls0)), g) /\
    (forall name, resolve t name = None -> config_get g name = Ret None) /\
    (forall name n p ds, resolve t name = Some (n, p, ds) -> config_get g name = config_get g n) /\
    forall name d, In (name, AOpt d) t -> exists o, config_get g name = Ret (Some o) /\ c_type o = d_type d /\
      let gs := given t name ls0 in
      match d_type d with
      | TInt => c_int o = final_int stale (d_strat d) (d_int d) (flat_map texts gs)
      | TBool => c_bool o = final_bool (d_strat d) (d_bool d) (flat_map texts gs)
      | TStr => exists m, forall w, (m < w)%nat -> sl_walk w (c_str o) None = Ret (final_strings (d_strat d) (d_str d) (d_delims d) gs)
      | TPath => Forall (fun q => fst (fst (fst q)) = None) gs -> exists m, forall w, (m < w)%nat -> sl_walk w (c_str o) None = Ret (final_paths (d_strat d) (d_str d) (flat_map (paths expand) gs))
      end.
Proof.
  intros HX HS t HCl HRd Hf. destruct (setups_table junk os cfg_init [] table_init HS) as (g0 & E0 & HT & HG). fold t in HT, HG. destruct (config_read_cut junk stale expand HX fuel g0 t bs ls0 false 0 HT HG HCl ltac:(discriminate) HRd Hf) as (g & E1 & HT' & HG').
  exists g0, g. split; [exact E0|]. split; [exact E1|]. set (t' := fold_left (a_line stale expand) ls0 t) in *.
  assert (HR : forall k, resolve t' k = resolve t k) by (intros k; apply resolve_fold, HG). split; [|split].
  - intros name Hn. unfold config_get. pose proof (get_opt_ok g t' name HT' HG') as X. rewrite HR, Hn in X. rewrite X. reflexivity.
  - intros name n p ds Hn. assert (Hn2 : resolve t n = Some (n, None, None)).
    { apply C39_names in Hn; [|exact HG]. apply C39_names; [exact HG|]. left. destruct Hn as [(Hd & -> & _)|Hi]; [auto|]. destruct HG as (_ & _ & HA & _). split; [exact (HA _ _ _ _ Hi)|auto]. }
    unfold config_get. pose proof (get_opt_ok g t' name HT' HG') as X. rewrite HR, Hn in X. pose proof (get_opt_ok g t' n HT' HG') as Y. rewrite HR, Hn2 in Y. destruct X as (i & d & Hi & ->). destruct Y as (j & e & Hj & ->). cbn [bind].
    assert (i = j) as ->; [|reflexivity]. destruct HG' as (HN & _). assert (H1 : nth_error (map fst t') i = Some n) by (rewrite nth_error_map, Hi; reflexivity). assert (H2 : nth_error (map fst t') j = Some n) by (rewrite nth_error_map, Hj; reflexivity). pose proof (str_index_nth _ _ _ HN H1). pose proof (str_index_nth _ _ _ HN H2). congruence.
  - intros name d Hi. pose proof (fold_option stale expand ls0 t name d ltac:(apply HG) Hi) as Hi'. fold t' in Hi'. set (gs := given t name ls0) in *. assert (Hn : resolve t' name = Some (name, None, None)) by (apply C39_names; [exact HG'|]; left; eauto).
    pose proof (get_opt_ok g t' name HT' HG') as X. rewrite Hn in X. destruct X as (i & e & Hj & X). unfold config_get. rewrite X. cbn [bind]. destruct (store_nth g t' i name _ HT' Hj) as (c & -> & Hr). destruct c as [o|]; [|destruct Hr]. cbn [erel] in Hr.
    assert (Ee : e = fold_left (a_set stale expand) gs d). { destruct HG' as (HN & _). pose proof (in_assoc t' name _ HN (nth_error_In _ _ Hj)) as A1. pose proof (in_assoc t' name _ HN Hi') as A2. congruence. }
    exists o. split; [reflexivity|]. destruct Hr as (R1 & R2 & R3 & R4 & R5 & R6 & ls & R7 & R8). subst e. destruct (fold_set_type stale expand gs d) as (T1 & T2). split; [congruence|]. cbv zeta. assert (Hs : d_special d = false) by (apply (setup_fresh os [] ltac:(intros ? ? []) name d Hi)).
    destruct (d_type d) eqn:Ed.
    + rewrite R4. apply fold_ints; assumption.
    + rewrite R5. apply fold_bools; assumption.
    + intros HP. rewrite <- (fold_paths stale expand d gs Ed Hs HP), <- R8. exists (length (concat ls)). intros w Hw. apply walk_ok; assumption.
    + destruct (fold_strings stale expand d gs Ed Hs) as (E & _). rewrite <- E, <- R8. exists (length (concat ls)). intros w Hw. apply walk_ok; assumption.
Qed.
Print Assumptions C39_taken_partial.
(** The file of C39_long_refuted: its one line is taken as two, and the second sets an option. *)
Require Import Ascii String.
Import List ListNotations.
Open Scope list_scope.
Open Scope Z_scope.
Definition ct_rest : list Z := bytes "LogOn 1"%string.
Example C39_taken_nonvacuous : clean_table lv_table /\ reads lv_table long_file [firstn 2047 long_file; ct_rest] /\ given lv_table (bytes "LogOn"%string) [firstn 2047 long_file; ct_rest] = [(None, None, [49], 2042%nat)].
Proof.
  split; [exact (proj1 C39_long_values_nonvacuous)|]. split; [|vm_compute; reflexivity].
  assert (E : long_file = firstn 2047 long_file ++ ct_rest) by (vm_compute; reflexivity). rewrite E at 1. apply D_cut.
  - vm_compute. reflexivity.
  - assert (HB : forallb (fun c => negb (existsb (Z.eqb c) [0; 10; 13; 35; 59])) (firstn 2047 long_file) = true) by (vm_compute; reflexivity). rewrite forallb_forall in HB. intros c Hc. specialize (HB c Hc). cbn [existsb] in HB. lia.
  - assert (HB : match split_nv (firstn 2047 long_file) with None => true | Some (k, _) => match resolve lv_table k with None => true | _ => false end end = true) by (vm_compute; reflexivity). unfold cut_ok. destruct (split_nv (firstn 2047 long_file)) as [(k, v)|]; [|exact I]. destruct (resolve lv_table k); [discriminate|exact I].
  - change [ct_rest] with (content ct_rest). apply D_end.
    + constructor; [|constructor]. split; [apply Nat.leb_le; vm_compute; reflexivity|]. split; [apply nonulb_ok; vm_compute; reflexivity|].
      assert (HN : forall c, existsb (Z.eqb c) ct_rest = false -> forall a b, ct_rest <> a ++ c :: b) by (intros c Hc a b X; assert (existsb (Z.eqb c) ct_rest = true) by (apply existsb_exists; exists c; split; [rewrite X; apply in_or_app; right; left; reflexivity|apply Z.eqb_refl]); congruence).
      split; intros a b X; [destruct (HN 59 ltac:(vm_compute; reflexivity) a b X)|destruct (HN 13 ltac:(vm_compute; reflexivity) a b X)].
    + right. exists 49. split; [vm_compute; tauto|reflexivity].
Qed.
