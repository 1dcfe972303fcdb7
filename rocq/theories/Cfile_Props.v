(** Property C76: the cache survives a restart through its file. *)
From Verif Require Import Base BaseFacts ListFacts List2Facts Hash_Model Sht_Model Sht_Proofs Gen_Model Cht_Model Cht_Proofs Cht_Inv Cache_Model Cache_Spec
  Cache_Proofs Cache2_Proofs Cache3_Proofs Cache4_Proofs Cfile_Model Cfile_Spec Cfile_Proofs.
From Coq Require Import Permutation.
Require Import ZifyBool ZifyNat.

Lemma rep_mem c A m : rep c A -> length m = c_size c -> (forall a, (128 <= a < bottom c)%nat -> nth_error m a = nth_error (c_mem c) a) -> rep (with_mem c m) A.
Proof.
  intros [(L & F & H & HL) He Hc HA] Hm Hs. constructor; [|exact He|exact Hc|exact HA]. exists L, F. split; [|exact HL]. pose proof H as [A1 A2 A3 A4 A5 A6 A7 A8 A9].
  constructor; auto. intros i e Hi. destruct (A7 i e Hi) as (n & Hn & [B1 B2 B3 B4 B5 B6]). exists n. split; [exact Hn|]. constructor; [exact B1|assumption|assumption|assumption|assumption|].
  pose proof (live_bottom _ _ _ _ _ _ _ H Hi Hn) as Hb. pose proof (chunk_end _ _ _ _ _ _ H Hn) as (Hlo & _). unfold header_size in Hlo. change (c_mem (with_mem c m)) with m. rewrite <- B6.
  assert (Hbs : (bottom c <= c_size c)%nat) by (unfold bottom; lia).
  unfold slice. rewrite Hm, A2. destruct (Nat.leb_spec (n_off n + 1 + length (si_bytes e)) (c_size c)); [|lia]. f_equal.
  apply nth_error_ext. intros j. rewrite !nth_error_firstn, !nth_error_skipn. destruct (Nat.ltb_spec j (length (si_bytes e))); [|reflexivity]. apply Hs. lia.
Qed.
Lemma rep_fits k c A : rep c A -> wide k c -> Z.of_nat (c_size c) < 2147483648 -> Z.of_nat k < 2147480000 -> fits k c.
Proof.
  intros [(L & F & H & HL) He Hc HA] Hw Hz Hk. pose proof (v_room _ _ _ _ H) as Hr. pose proof (inv_length _ _ _ _ H) as Hl.
  assert (Hs : (128 <= start (c_nodes c))%nat) by (unfold start, header_size; lia). unfold node_size, slot_size in Hr.
  assert (EA : length A = length L) by (apply (f_equal (@length _)) in HL; rewrite !map_length in HL; lia).
  constructor; [exact Hz|lia|apply H|lia|lia|exact Hw| |exact Hk].
  intros n Hn. apply In_nth_error in Hn. destruct Hn as (i & Hn). pose proof (chunk_end _ _ _ _ _ _ H Hn). lia.
Qed.

(** The program that starts with the file of a cache has that cache again. *)
Lemma restart_ok big cf pn ps k c A rest : kept cf -> 102400 <= area cf < 2147483648 -> rep c A -> wide k c -> c_size c = Z.to_nat (area cf) -> Z.of_nat k < 2147480000 ->
  dns_cache_init big cf all_granted (Some (image pn ps c ++ 0 :: rest)) = Ret (0, Some (with_mem c (image pn ps c)), Some (image pn ps c ++ 0 :: rest)) /\
  rep (with_mem c (image pn ps c)) A /\ wide k (with_mem c (image pn ps c)).
Proof.
  intros (K1 & K2 & K3) Ha Hr Hw Hz Hk. assert (Hf : fits k c) by (eapply rep_fits; [exact Hr|exact Hw|lia|exact Hk]).
  destruct (reload_image pn ps k c Hf) as (R1 & R2). pose proof (image_length pn ps c (ft_mem _ _ Hf) (ft_room _ _ Hf)) as Hl.
  split; [|split; [|exact Hw]].
  - unfold dns_cache_init. rewrite K1, K2, K3. fold (area cf). cbn [negb all_granted g_open g_write g_map]. destruct (Z.ltb_spec (area cf) 102400); [lia|].
    assert (Eg : grown (image pn ps c ++ 0 :: rest) (Z.to_nat (area cf)) = image pn ps c ++ 0 :: rest).
    { unfold grown. rewrite <- Hz. rewrite <- app_assoc, firstn_app. rewrite Hl, Nat.sub_diag. cbn [firstn]. rewrite app_nil_r. rewrite firstn_all2 by lia. f_equal. f_equal.
      rewrite skipn_app, Hl, skipn_all2 by lia. replace (S (c_size c) - c_size c)%nat with 1%nat by lia. reflexivity. }
    rewrite Eg. assert (Em : firstn (Z.to_nat (area cf)) (image pn ps c ++ 0 :: rest) = image pn ps c).
    { rewrite firstn_app, Hl, <- Hz, Nat.sub_diag. cbn [firstn]. rewrite app_nil_r. apply firstn_all2. lia. }
    rewrite Em. unfold init_info. rewrite <- Hz, R1. cbn [bind]. rewrite R2. reflexivity.
  - apply rep_mem; [exact Hr|exact Hl|]. intros a Hb. apply image_mem; [apply Hf|apply Hf|exact Hb].
Qed.

Section Life.
Context (raw : list Z -> list cnode -> nat -> Z) (ignore parallel : bool) (get : list Z -> option ctrl) (big : Z -> Z).
Notation life := (life raw ignore parallel get big).
Lemma life_ok cf es : kept cf -> 102400 <= area cf < 2147483648 -> forall k c A rest, rep c A -> wide k c -> c_size c = Z.to_nat (area cf) ->
  Forall op_ok (ops_of es) -> Forall time_ok (ops_of es) -> Z.of_nat (k + length (ops_of es)) < 2147480000 ->
  (life cf c (0 :: rest) es = UBR /\ (slot_size * length (c_slots c) < 512)%nat) \/
  exists c' A', life cf c (0 :: rest) es = Ret (Some c') /\ a_run ignore parallel get A (ops_of es) A' /\ rep c' A' /\
    wide (k + length (ops_of es)) c' /\ c_size c' = c_size c /\ length (c_slots c') = length (c_slots c).
Proof.
  intros Hkept Ha. induction es as [|[o|pn ps] es IH]; intros k c A rest Hr Hw Hz Ho Ht Hk; cbn [Cfile_Spec.life ops_of] in *.
  - right. exists c, A. split; [reflexivity|]. split; [constructor|]. split; [exact Hr|]. split; [eapply wide_up; [|exact Hw]; lia|]. auto.
  - inversion_clear Ho as [|? ? Ho1 Ho2]. inversion_clear Ht as [|? ? Ht1 Ht2]. cbn [length] in *.
    assert (Hf : fits k c) by (eapply rep_fits; [exact Hr|exact Hw|lia|lia]). pose proof (ft_room _ _ Hf) as Hroom. pose proof (ft_size _ _ Hf) as Hsize.
    assert (Hl0 : (0 < length (c_slots c))%nat) by (destruct Hr as [(L & F & H & _) _ _ _]; apply H).
    destruct o as [infected r now|now]; cbn [run_op op_ok] in *; unfold time_ok in Ht1; cbn [op_time] in Ht1.
    + destruct (add_ok raw ignore parallel get c A infected r now Hr Ho1) as [(E & Hs & _)|(code & c1 & A1 & E & Hadd & H1 & S1 & S2 & _)].
      { rewrite E. left. split; [reflexivity|exact Hs]. }
      assert (Hw1 : wide (S k) c1) by (eapply add_item_wide; [| |exact Hsize| | |exact Hw|exact E]; [exact Ht1|exact Ho1|lia|exact Hl0]).
      rewrite E. cbn [bind snd].
      destruct (IH (S k) c1 A1 rest H1 Hw1 ltac:(congruence) Ho2 Ht2 ltac:(lia)) as [(E2 & Hs)|(c' & A' & E2 & Hrun & H2 & W2 & T1 & T2)].
      * left. split; [exact E2|congruence].
      * right. exists c', A'. split; [exact E2|]. split; [econstructor; eauto|]. split; [exact H2|]. split; [replace (k + S (length (ops_of es)))%nat with (S k + length (ops_of es))%nat by lia; exact W2|]. split; congruence.
    + destruct (sweep_ok c A now Hr) as (c1 & E & H1 & S1 & S2).
      assert (Hw1 : wide (S k) c1) by (eapply wide_up; [|eapply cache_sweep_wide; [|exact Hw|exact E]]; lia).
      rewrite E. cbn [bind].
      destruct (IH (S k) c1 _ rest H1 Hw1 ltac:(congruence) Ho2 Ht2 ltac:(lia)) as [(E2 & Hs)|(c' & A' & E2 & Hrun & H2 & W2 & T1 & T2)].
      * left. split; [exact E2|congruence].
      * right. exists c', A'. split; [exact E2|]. split; [econstructor; eauto|]. split; [exact H2|]. split; [replace (k + S (length (ops_of es)))%nat with (S k + length (ops_of es))%nat by lia; exact W2|]. split; congruence.
  - assert (Hf : fits k c) by (eapply rep_fits; [exact Hr|exact Hw|lia|lia]).
    destruct (restart_ok big cf pn ps k c A rest Hkept Ha Hr Hw Hz ltac:(lia)) as (E & H1 & Hw1). rewrite E. cbn [bind].
    pose proof (image_length pn ps c (ft_mem _ _ Hf) (ft_room _ _ Hf)) as Hl.
    assert (Es : skipn (Z.to_nat (area cf)) (image pn ps c ++ 0 :: rest) = 0 :: rest) by (rewrite skipn_app, Hl, <- Hz, Nat.sub_diag, skipn_all2 by lia; reflexivity).
    rewrite Es. exact (IH k _ A rest H1 Hw1 Hz Ho Ht Hk).
Qed.
End Life.

(** The slots of a new cache: always room for them, and at least 128 from 711997 bytes on. *)
Definition sane (big : Z -> Z) : Prop := forall s, 1048576 <= s -> 125 <= big s <= 100000.
Lemma slot_count_ok big size : sane big -> 102400 <= size -> 7 <= slot_count big size <= 100012 /\ 128 + 4 * slot_count big size <= size /\ (711997 <= size -> 128 <= slot_count big size).
Proof.
  intros Hb Hs. unfold slot_count. destruct (Z.ltb_spec size 1048576) as [H|H].
  - rewrite (Z.quot_div_nonneg size 4979) by lia. pose proof (Z.div_mod size 4979 ltac:(lia)). pose proof (Z.mod_pos_bound size 4979 ltac:(lia)).
    set (q := size / 4979) in *. assert (20 <= q <= 210) by lia. rewrite Z.quot_div_nonneg by lia.
    pose proof (Z.div_mod (q - 18 + 5) 10 ltac:(lia)). pose proof (Z.mod_pos_bound (q - 18 + 5) 10 ltac:(lia)). lia.
  - specialize (Hb size H). set (q := big size) in *. rewrite Z.quot_div_nonneg by lia.
    pose proof (Z.div_mod (q + 5) 10 ltac:(lia)). pose proof (Z.mod_pos_bound (q + 5) 10 ltac:(lia)). lia.
Qed.
Lemma new_cache_ok big size : sane big -> 102400 <= size -> rep (new_cache big size) [] /\ wide 0 (new_cache big size) /\ c_size (new_cache big size) = Z.to_nat size.
Proof.
  intros Hb Hs. destruct (slot_count_ok big size Hb Hs) as (H1 & H2 & _). split; [|split; [|reflexivity]].
  - apply init_ok; unfold header_size, slot_size; lia.
  - split; [constructor|]. split; [|cbn; unfold zr; lia]. cbn [new_cache cache_init c_slots]. rewrite Forall_forall. intros x Hx. apply repeat_spec in Hx. subst x. unfold zr. lia.
Qed.

(** Any history of a cache that is kept in a file, with the program ended and started again any number of times, does what the
    same operations do without restarts: each start succeeds, the records are those of the operations (see [a_run]), and a question is answered
    with the fresh ones among them.  The one exception, a read outside of the memory when a record is added (see C12), needs a
    CacheSize below 711997. *)
Theorem C76_restart raw ignore parallel get big cf rest es : sane big -> kept cf -> 102400 <= area cf < 2147483648 ->
  Forall op_ok (ops_of es) -> Forall time_ok (ops_of es) -> short (ops_of es) ->
  (life raw ignore parallel get big cf (new_cache big (area cf)) (0 :: rest) es = UBR /\ area cf < 711997) \/
  exists c A, life raw ignore parallel get big cf (new_cache big (area cf)) (0 :: rest) es = Ret (Some c) /\ a_run ignore parallel get [] (ops_of es) A /\
    c_count c = Z.of_nat (length A) /\
    forall t0 now, clock t0 (ops_of es) -> last_time t0 (ops_of es) <= now ->
      forall name ty kl g, ~ In 0 name -> 0 <= ty < 65536 -> 0 <= kl < 65536 ->
        get_raw raw ignore c name ty kl now g =
          if Nat.ltb (length (triplet name ty kl)) 264 then serve name ty kl (a_lookup ignore A name ty kl now) (-100) g else Ret (-609, g).
Proof.
  intros Hb Hk Ha Ho Ht Hs. destruct (new_cache_ok big (area cf) Hb ltac:(lia)) as (N1 & N2 & N3). unfold short in Hs.
  destruct (life_ok raw ignore parallel get big cf es Hk Ha 0%nat _ [] rest N1 N2 N3 Ho Ht ltac:(lia)) as [(E & El)|(c & A & E & Hr & Hrep & Hw & _)].
  - left. split; [exact E|]. cbn [new_cache cache_init c_slots] in El. rewrite repeat_length in El. unfold slot_size in El.
    destruct (slot_count_ok big (area cf) Hb ltac:(lia)) as (_ & _ & H3). lia.
  - right. exists c, A. split; [exact E|]. split; [exact Hr|]. split; [apply Hrep|]. intros t0 now Hc Hn name ty kl g H1 H2 H3.
    destruct (Nat.ltb_spec (length (triplet name ty kl)) 264) as [Hl|Hl].
    + apply get_raw_ok; try assumption. intros Hi. eapply Forall_impl; [|eapply run_good; eauto]. intros e (G1 & G2). split; [lia|exact G2].
    + unfold get_raw, key_fits. destruct (Nat.ltb_spec (length (triplet name ty kl)) 264); [lia|reflexivity].
Qed.
Print Assumptions C76_restart.

(** Right after a restart every question is answered as it would have been at the same moment without; the file is as it was. *)
Theorem C76_same_answers raw ignore parallel get big cf rest es c pn ps : sane big -> kept cf -> 102400 <= area cf < 2147483648 ->
  Forall op_ok (ops_of es) -> Forall time_ok (ops_of es) -> short (ops_of es) ->
  life raw ignore parallel get big cf (new_cache big (area cf)) (0 :: rest) es = Ret (Some c) ->
  exists c', dns_cache_init big cf all_granted (Some (image pn ps c ++ 0 :: rest)) = Ret (0, Some c', Some (image pn ps c ++ 0 :: rest)) /\
    c_count c' = c_count c /\
    forall t0 now, clock t0 (ops_of es) -> last_time t0 (ops_of es) <= now ->
      forall name ty kl g, ~ In 0 name -> 0 <= ty < 65536 -> 0 <= kl < 65536 ->
        get_raw raw ignore c' name ty kl now g = get_raw raw ignore c name ty kl now g.
Proof.
  intros Hb Hk Ha Ho Ht Hs E. destruct (new_cache_ok big (area cf) Hb ltac:(lia)) as (N1 & N2 & N3). unfold short in Hs.
  destruct (life_ok raw ignore parallel get big cf es Hk Ha 0%nat _ [] rest N1 N2 N3 Ho Ht ltac:(lia)) as [(E' & _)|(c1 & A & E' & Hr & Hrep & Hw & Hz & _)]; [congruence|].
  assert (c1 = c) by congruence. subst c1. cbn [plus] in Hw.
  destruct (restart_ok big cf pn ps _ c A rest Hk Ha Hrep Hw ltac:(congruence) ltac:(lia)) as (E2 & Hrep' & _).
  eexists. split; [exact E2|]. split; [reflexivity|]. intros t0 now Hc Hn name ty kl g H1 H2 H3.
  assert (Hg : ignore = false -> Forall (good now) A) by (intros Hi; eapply Forall_impl; [|eapply run_good; eauto]; intros e (G1 & G2); split; [lia|exact G2]).
  destruct (Nat.ltb_spec (length (triplet name ty kl)) 264) as [Hl|Hl].
  - now rewrite !(get_raw_ok raw ignore _ A).
  - unfold get_raw, key_fits. destruct (Nat.ltb_spec (length (triplet name ty kl)) 264); [lia|reflexivity].
Qed.
Print Assumptions C76_same_answers.

(** The size of the area: the CacheSize, rounded up to a multiple of 16. *)
Theorem C76_area cf : 0 <= cf_size cf -> (16 | area cf) /\ cf_size cf <= area cf < cf_size cf + 16.
Proof.
  intros H. unfold area, round_up. split; [apply Z.divide_factor_r|]. rewrite Z.quot_div_nonneg by lia. pose proof (Z.div_mod (cf_size cf + 16 - 1) 16 ltac:(lia)). pose proof (Z.mod_pos_bound (cf_size cf + 16 - 1) 16 ltac:(lia)). lia.
Qed.
Print Assumptions C76_area.

(** The first 8 bytes of a file, as a start with it sees them. *)
Definition says (f : list Z) (ver size : Z) : Prop :=
  0 <= ver < 4294967296 /\ -2147483648 <= size < 2147483648 /\ exists r, f ++ repeat 0 8 = le 4 ver ++ le 4 size ++ r.
(** A file of another version or made for another CacheSize is not used: without OverwriteCache there is no start, with it the cache is empty. *)
Theorem C76_refused big cf f ver size : kept cf -> 102400 <= area cf -> says f ver size -> ver <> 23 \/ size <> area cf ->
  exists f', dns_cache_init big cf all_granted (Some f) =
    Ret (if cf_overwrite cf then (0, Some (new_cache big (area cf)), Some f') else (6, None, Some f')).
Proof.
  intros (K1 & K2 & K3) Ha (Hv & Hs & r & Hf) Hne. unfold dns_cache_init. rewrite K1, K2, K3. fold (area cf). cbn [negb all_granted g_open g_write g_map]. destruct (Z.ltb_spec (area cf) 102400); [lia|].
  assert (Em : exists q, firstn (Z.to_nat (area cf)) (grown f (Z.to_nat (area cf))) = le 4 ver ++ le 4 size ++ q).
  { unfold grown. set (n := Z.to_nat (area cf)). assert (Hn : (8 <= n)%nat) by lia. clearbody n.
    assert (L : length (firstn n (f ++ repeat 0 n)) = n) by (rewrite firstn_length, app_length, repeat_length; lia).
    rewrite firstn_app, L, Nat.sub_diag. cbn [firstn]. rewrite app_nil_r, firstn_firstn, Nat.min_id.
    assert (Er : repeat 0 n = repeat 0 8 ++ repeat 0 (n - 8)) by (rewrite <- repeat_app; f_equal; lia). rewrite Er, app_assoc, Hf. exists (firstn (n - 8) (r ++ repeat 0 (n - 8))).
    rewrite <- !app_assoc. rewrite firstn_app, le_length, (firstn_all2 (le 4 ver)) by (rewrite le_length; lia). f_equal.
    rewrite firstn_app, le_length, (firstn_all2 (le 4 size)) by (rewrite le_length; lia). f_equal. f_equal. lia. }
  destruct Em as (q & Em). eexists. rewrite Em. unfold init_info, is_reloadable.
  rewrite (field_at 4 (le 4 ver ++ le 4 size ++ q) [] ver (le 4 size ++ q) 0 eq_refl eq_refl). cbn [bind]. rewrite (i32_at (le 4 ver ++ le 4 size ++ q) (le 4 ver) size q 4 eq_refl ltac:(rewrite le_length; reflexivity) Hs). cbn [bind].
  rewrite unle4, Z.mod_small by lia.
  destruct (Z.eqb_spec ver CACHE_VERSION) as [E1|E1]; destruct (Z.eqb_spec size (Z.of_nat (Z.to_nat (area cf)))) as [E2|E2]; cbn [andb];
    try (destruct (cf_overwrite cf); reflexivity).
  exfalso. unfold CACHE_VERSION in E1. lia.
Qed.
Print Assumptions C76_refused.

(** Without a file, without ReloadCache and with MemoryCache the cache is new: it answers nothing. *)
Theorem C76_new raw ignore big cf file : sane big -> cf_use cf = true -> 102400 <= area cf -> file = None \/ cf_reload cf = false \/ cf_memory cf = true ->
  exists c f', dns_cache_init big cf all_granted file = Ret (0, Some c, f') /\ c_count c = 0 /\
    forall now name ty kl g, ~ In 0 name -> 0 <= ty < 65536 -> 0 <= kl < 65536 -> (length (triplet name ty kl) < 264)%nat -> get_raw raw ignore c name ty kl now g = Ret (-100, g).
Proof.
  intros Hb K1 Ha Hc. exists (new_cache big (area cf)). destruct (new_cache_ok big (area cf) Hb Ha) as (N1 & _ & _).
  assert (E : exists f', dns_cache_init big cf all_granted file = Ret (0, Some (new_cache big (area cf)), f')).
  { unfold dns_cache_init. rewrite K1. fold (area cf). cbn [negb all_granted g_open g_write g_map g_alloc]. destruct (Z.ltb_spec (area cf) 102400); [lia|].
    destruct (cf_memory cf) eqn:Em; [eexists; reflexivity|]. destruct Hc as [->|[Hc|Hc]]; [|rewrite Hc|discriminate].
    - eexists. reflexivity.
    - destruct file; eexists; reflexivity. }
  destruct E as (f' & E). exists f'. split; [exact E|]. split; [reflexivity|]. intros now name ty kl g H1 H2 H3 H4.
  rewrite (get_raw_ok raw ignore _ [] name ty kl now g N1 H1 H2 H3 H4 ltac:(constructor)). reflexivity.
Qed.
Print Assumptions C76_new.

(** A cache that is refused: the size is too small, or the system refuses to allocate, to open, to write or to map. *)
Theorem C76_fails big cf g file : cf_use cf = true ->
  let r := dns_cache_init big cf g file in
  (area cf < 102400 -> r = Ret (1, None, file)) /\
  (102400 <= area cf -> cf_memory cf = true -> g_alloc g = false -> r = Ret (2, None, file)) /\
  (102400 <= area cf -> cf_memory cf = false -> g_open g = false -> r = Ret (3, None, file)) /\
  (102400 <= area cf -> cf_memory cf = false -> g_open g = true -> g_write g = false -> exists f', r = Ret (4, None, f')) /\
  (102400 <= area cf -> cf_memory cf = false -> g_open g = true -> g_write g = true -> g_map g = false -> exists f', r = Ret (5, None, f')).
Proof.
  intros K1 r. unfold r, dns_cache_init. rewrite K1. fold (area cf). cbn [negb].
  destruct (Z.ltb_spec (area cf) 102400) as [Hl|Hl]; (split; [intros H; try reflexivity; lia|]);
    (split; [intros H E1 E2; try lia; rewrite E1, E2; reflexivity|]); (split; [intros H E1 E2; try lia; rewrite E1, E2; reflexivity|]);
    (split; [intros H E1 E2 E3; try lia; rewrite E1, E2, E3; eexists; reflexivity|]); intros H E1 E2 E3 E4; try lia; rewrite E1, E2, E3, E4; eexists; reflexivity.
Qed.
Print Assumptions C76_fails.

(** "A file that is refused is left as it was": a NUL is written after CacheSize bytes before anything is checked, so the file of another program
    (or of a larger cache) is changed. *)
Theorem C76_untouched_refuted : exists cf f f', kept cf /\ area cf = 102400 /\ (forall big, dns_cache_init big cf all_granted (Some f) = Ret (6, None, Some f')) /\ f' <> f.
Proof.
  exists (mk_cf true 102400 false true false), [1], (grown [1] (Z.to_nat 102400)). split; [repeat split|]. split; [reflexivity|]. split.
  - intros big. destruct (C76_refused big (mk_cf true 102400 false true false) [1] 1 0) as (f' & E).
    + repeat split.
    + unfold area. cbn. lia.
    + split; [lia|]. split; [lia|]. eexists. cbn. reflexivity.
    + lia.
    + cbn [cf_overwrite] in E. rewrite E. f_equal. f_equal. unfold dns_cache_init in E. cbn [cf_use cf_memory cf_reload cf_size negb all_granted g_open g_write g_map] in E.
      change (round_up 102400 16) with 102400 in E. change (102400 <? 102400) with false in E. cbv iota in E.
      destruct (init_info big _ _ _ _) as [[c|]| | |]; cbn [bind] in E; try discriminate E. injection E as <-. reflexivity.
  - intros E. apply (f_equal (@length _)) in E. unfold grown in E. rewrite app_length, firstn_length, app_length, repeat_length in E. cbn [length] in E. lia.
Qed.
Print Assumptions C76_untouched_refuted.

(** "A damaged file is not used": nothing but the version and the size is checked.  With one offset wrong a question makes the
    program read outside of the memory. *)
Definition wit_conf : cconf := mk_cf true 102400 false true false.
Definition wit_damaged : cache := mk_cache (Z.to_nat 102400) (repeat 0 7) [mk_cn 0 (-1) (Z.to_nat 102400) 300 1000 0 20] (-1) 144 1 (repeat 0 (Z.to_nat 102400)).
Theorem C76_damaged_refuted : exists cf f c, kept cf /\ area cf = 102400 /\ length f = Z.to_nat 102401 /\
  (forall big, dns_cache_init big cf all_granted (Some f) = Ret (0, Some c, Some f)) /\
  forall raw g, get_raw raw false c [97] 1 1 1001 g = UBR.
Proof.
  assert (Hf : fits 0 wit_damaged).
  { constructor; cbn [wit_damaged c_size c_nodes c_slots c_mem c_end c_count length]; rewrite ?repeat_length; try lia.
    - repeat constructor; cbn; unfold zr; lia.
    - intros n [<-|[]]. cbn [n_off n_len]. lia. }
  destruct (reload_image 0 0 0 wit_damaged Hf) as (R1 & R2). pose proof (image_length 0 0 wit_damaged (ft_mem _ _ Hf) (ft_room _ _ Hf)) as Hl.
  set (m := image 0 0 wit_damaged) in *. clearbody m. change (c_size wit_damaged) with (Z.to_nat 102400) in *.
  exists wit_conf, (m ++ [0]), (with_mem wit_damaged m). split; [repeat split|]. split; [reflexivity|]. split; [rewrite app_length, Hl; cbn [length]; lia|]. split.
  - intros big. unfold dns_cache_init. cbn [wit_conf cf_use cf_memory cf_reload cf_size negb all_granted g_open g_write g_map].
    change (round_up 102400 16) with 102400. change (102400 <? 102400) with false. cbv iota.
    assert (Eg : grown (m ++ [0]) (Z.to_nat 102400) = m ++ [0]).
    { unfold grown. rewrite <- app_assoc, firstn_app, Hl, Nat.sub_diag. cbn [firstn]. rewrite app_nil_r, firstn_all2 by lia. f_equal. f_equal. apply skipn_all2. rewrite app_length, Hl. cbn [length]. lia. }
    rewrite Eg. assert (Em : firstn (Z.to_nat 102400) (m ++ [0]) = m) by (rewrite firstn_app, Hl, Nat.sub_diag; cbn [firstn]; rewrite app_nil_r; apply firstn_all2; lia).
    rewrite Em. unfold init_info. rewrite R1. cbn [bind]. rewrite R2. reflexivity.
  - intros raw g.
    assert (Hrd : forall a, (Z.to_nat 102400 < a)%nat -> rd raw (with_mem wit_damaged m) a = UBR).
    { intros a Ha'. unfold rd. unfold bottom. cbn [with_mem wit_damaged c_size c_slots c_nodes]. destruct (Nat.ltb_spec a (Z.to_nat 102400 - slot_size * length (repeat 0 7) - node_size * length [mk_cn 0 (-1) (Z.to_nat 102400) 300 1000 0 20])); [lia|].
      destruct (Nat.ltb_spec a (Z.to_nat 102400)); [lia|reflexivity]. }
    unfold get_raw. change (key_fits (triplet [97] 1 1)) with true. cbv iota. change (length (c_nodes (with_mem wit_damaged m))) with 1%nat. cbn [raw_loop].
    unfold find_from. change (length (c_nodes (with_mem wit_damaged m))) with 1%nat. cbn [find_from_loop].
    assert (Eh : ht_get (with_mem wit_damaged m) (cstr (triplet [97] 1 1 ++ [0])) None = Ret (Some 0)) by (vm_compute; reflexivity).
    rewrite Eh. cbn [bind]. change (derefn (with_mem wit_damaged m) 0) with (Ret (mk_cn 0 (-1) (Z.to_nat 102400) 300 1000 0 20)). cbn [bind n_time n_ttl n_off]. change (false || (1001 - 1000 <? 300)) with true. cbv iota.
    change (triplet [97] 1 1 ++ [0]) with (97 :: (tl (triplet [97] 1 1 ++ [0]))). cbn [mem_eq]. rewrite Hrd by lia. reflexivity.
Qed.
Print Assumptions C76_damaged_refuted.

Definition wit_get (k : list Z) : option ctrl := None.
Definition wit_raw (ss : list Z) (ns : list cnode) (a : nat) : Z := 0.
(** A name is stored, the program is started again twice with a sweep in between, and the name is found with what is left of its time. *)
Definition wit_rec : crec := mk_rec [119; 46; 97] 1 1 300 [10; 0; 0; 1].
Definition wit_events : list ev := [Does (OAdd None wit_rec 1000); Restarts 4096 8192; Does (OSweep 1059); Restarts 12288 4096].
Definition got (o : outcome (option cache)) : option cache := match o with Ret c => c | _ => None end.
Definition wit_after : option cache := got (life wit_raw false false wit_get (fun _ => 192) wit_conf (new_cache (fun _ => 192) 102400) [0] wit_events).
Example C76_nonvacuous : option_map (fun c => (c_count c, map (fun n => (n_off n, n_ttl n, n_time n)) (c_nodes c))) wit_after = Some (1, [(128%nat, 300, 1000)]) /\ sane (fun _ => 192) /\ kept wit_conf /\ area wit_conf = 102400 /\ Forall op_ok (ops_of wit_events) /\ Forall time_ok (ops_of wit_events) /\ short (ops_of wit_events) /\
  clock 0 (ops_of wit_events).
Proof.
  split; [vm_compute; reflexivity|]. split; [intros s; lia|]. split; [repeat split|]. split; [reflexivity|]. split; [|split; [|split]].
  - repeat constructor; cbn; lia.
  - repeat constructor; unfold time_ok; cbn; lia.
  - unfold short. cbn. lia.
  - cbn. lia.
Qed.
