(** C89: the servers of a UDP group that are asked, and the family of the socket.  C64: the end of a UDP module. *)
From Verif Require Import Base BaseFacts ListFacts List2Facts Hash_Model Bst_Model Bst_Spec Bst_Proofs Cht_Model Cache_Model Cache_Spec Name_Model Parser_Model Parser_Spec Parser_Proofs Gen_Model Gen_Spec
  Iheader_Model Iheader_Spec Iheader_Proofs Ip_Model Ip_Spec Rdata_Model Addr_Model Addr_Spec Arr_Model Slist_Model Slist_Proofs Slist_Props Queue_Props Mctx_Model Mctx_Spec Mctx_Proofs Alist_Model Alist_Spec Alist_Proofs Alist_Props Udpm_Model Udpm_Spec Udpm_Proofs Udpm_Props Fam_Model.
Require Import ZifyBool ZifyNat.
Set Default Proof Using "Type".

(** * Steps *)
Section Steps.
Context {A : Type} (ap : bool) (misc : option (ipchunk * bool)) (par : option (list A)).
Context (raw : list Z -> list cnode -> nat -> Z) (ignore parallel : bool) (get : list Z -> option ctrl).
Context (hdr : iheader -> list Z) (arr : list Z -> list Z).
Notation step fuel nf := (u_step ap misc par raw ignore parallel get hdr arr fuel nf).
Notation run fuel nf := (u_run ap misc par raw ignore parallel get hdr arr fuel nf).

(** The servers stay the same, a module that has ended stays so, and a socket is opened only in a turn in which one can be made. *)
Lemma step_addrs fuel nf s o e s' : step fuel nf s o = Ret (e, s') ->
  al_list (u_addrs s') = al_list (u_addrs s) /\ (u_alive s = false -> u_alive s' = false /\ (u_open s' = true -> u_open s = true) /\ forall t code, e <> VReplied t code) /\
  (u_open s' = true -> u_open s = true \/ u_alive s = true /\ exists x, o = UTurn true x).
Proof.
  intros E1. destruct o as [c now ok|b x|now]; cbn [u_step] in E1.
  - unfold u_send in E1. destruct (with_edns ap fuel c) as [c1| | |]; try discriminate. cbn [bind] in E1. destruct (mc_add (u_tab s) c1 now) as [[a tab]| | |]; try discriminate. cbn [bind fst snd] in E1. cbv zeta in E1.
    assert (HX : exists to code, e = VQueued to code /\ s' = mk_udpm tab (u_rb s) (u_cache s) (u_open s) (u_cnt s) (u_addrs s) (u_alive s)).
    { destruct (u_open s) eqn:Eo; [|eexists _, _; split; [|match type of E1 with Ret (_, ?y) = _ => assert (s' = y) as -> by congruence end; reflexivity]; match type of E1 with Ret (?x, _) = _ => assert (e = x) as -> by congruence end; reflexivity].
      destruct (if h_len (c_h c1) <? 0 then None else _) as [bytes|]; [|discriminate].
      destruct par as [l|]; [|destruct (al_get (u_addrs s)) as [[a0|]| | |]; try discriminate; cbn [bind] in E1];
        (eexists _, _; split; [|match type of E1 with Ret (_, ?y) = _ => assert (s' = y) as -> by congruence end; reflexivity]; match type of E1 with Ret (?x, _) = _ => assert (e = x) as -> by congruence end; reflexivity). }
    destruct HX as (to & code & -> & ->). cbn [u_addrs u_alive u_open]. split; [reflexivity|]. split; [intros H; split; [exact H|split; [auto|discriminate]]|auto].
  - unfold u_turn in E1. destruct (u_alive s) eqn:HA; cbn [negb] in E1; [|assert (e = VNothing /\ s' = s) as (-> & ->) by (split; congruence); split; [reflexivity|split; [intros _; split; [exact HA|split; [auto|discriminate]]|auto]]].
    destruct (u_setup par s b) as [[sx|]| | |] eqn:EU; try discriminate; cbn [bind] in E1.
    2:{ assert (s' = u_cleanup s) as -> by congruence. split; [reflexivity|]. split; [congruence|discriminate]. }
    assert (HU : al_list (u_addrs sx) = al_list (u_addrs s) /\ (u_open sx = true -> u_open s = true \/ b = true)).
    { unfold u_setup in EU. destruct (u_open s) eqn:Eo; [assert (sx = s) as -> by congruence; auto|]. cbv zeta in EU.
      assert (HB : (if b then Some (mk_udpm (u_tab s) (u_rb s) (u_cache s) true 0 (u_addrs s) (u_alive s)) else None) = Some sx).
      { destruct par as [l|]; [congruence|]. destruct (al_get (u_addrs s)) as [[y|]| | |]; try discriminate; cbn [bind] in EU; congruence. }
      destruct b; [|discriminate]. match type of HB with Some ?y = _ => assert (sx = y) as -> by congruence end. auto. }
    destruct HU as (<- & HO). assert (HX : u_addrs s' = u_addrs sx /\ (u_open s' = true -> u_open sx = true)).
    { destruct x as [| |[x|]].
      + assert (s' = u_close sx) as -> by congruence. split; [reflexivity|discriminate].
      + assert (s' = if 8 <? u_cnt sx then u_close sx else sx) as -> by congruence. destruct (8 <? u_cnt sx); [split; [reflexivity|discriminate]|auto].
      + unfold u_receive, u_handle in E1. cbv zeta in E1. destruct (firstn _ (x_bytes x)); [assert (s' = sx) as -> by congruence; auto|].
        destruct (ih_fill fuel nf _ _ _ _ _ _ _ _) as [[[c0 h] dom]| | |]; try discriminate. cbn [bind] in E1. destruct (misc_apply misc fuel h _ _) as [[why mem1]| | |]; try discriminate. cbn [bind] in E1.
        destruct (negb (why =? misc_nothing)); [match type of E1 with Ret (_, ?y) = _ => assert (s' = y) as -> by congruence end; auto|].
        destruct (is_blocked ap _); [match type of E1 with Ret (_, ?y) = _ => assert (s' = y) as -> by congruence end; auto|].
        destruct (mc_answer _ _) as [[[code c] tab]| | |]; try discriminate. cbn [bind] in E1. destruct (cache_apply _ _ _ _ _ _ _ _ _ _) as [k| | |]; try discriminate. cbn [bind] in E1.
        destruct (code =? 0); [|match type of E1 with Ret (_, ?y) = _ => assert (s' = y) as -> by congruence end; auto].
        destruct (send_back _ _ _) as [tt| | |]; try discriminate. cbn [bind] in E1. match type of E1 with Ret (_, ?y) = _ => assert (s' = y) as -> by congruence end. auto.
      + assert (s' = sx) as -> by congruence. auto. }
    destruct HX as (-> & HX). split; [reflexivity|]. split; [congruence|]. intros H. destruct (HO (HX H)) as [H2| ->]; [auto|]. right. eauto.
  - unfold u_sweep in E1. destruct (mc_sweep (u_tab s) now) as [r| | |]; try discriminate. cbn [bind] in E1. match type of E1 with Ret (_, ?y) = _ => assert (s' = y) as -> by congruence end. assert (e = VTimeouts (fst r)) as -> by congruence.
    cbn [u_alive u_addrs u_open]. split; [destruct (existsb _ _); reflexivity|]. split; [intros H; split; [exact H|split; [auto|discriminate]]|auto].
Qed.

(** When a socket cannot be made the module ends, for good: whatever is done later, no client gets a reply from it, and nothing is sent. *)
Theorem C64_ends fuel nf s x e s' : u_alive s = true -> u_open s = false -> step fuel nf s (UTurn false x) = Ret (e, s') ->
  e = VNothing /\ forall os es s2, run fuel nf s' os = Ret (es, s2) -> u_alive s2 = false /\ u_open s2 = false /\ forall t code, ~ In (VReplied t code) es.
Proof.
  intros HA HO E. assert (HE : e = VNothing /\ s' = u_cleanup s).
  { cbn [u_step] in E. unfold u_turn, u_setup in E. rewrite HA, HO in E. cbn [negb] in E. cbv zeta in E. destruct par as [l|]; cbn [bind] in E; [split; congruence|]. destruct (al_get (u_addrs s)) as [[y|]| | |]; try discriminate; cbn [bind] in E; split; congruence. }
  destruct HE as (-> & ->). split; [reflexivity|]. intros os. assert (HA' : u_alive (u_cleanup s) = false) by reflexivity. assert (HO' : u_open (u_cleanup s) = false) by reflexivity. revert HA' HO'. generalize (u_cleanup s) as s1. clear.
  induction os as [|o os IH]; intros s HA HO es s2 H; cbn [u_run] in H; [assert (es = [] /\ s2 = s) as (-> & ->) by (split; congruence); auto|].
  destruct (step fuel nf s o) as [[e s1]| | |] eqn:E1; try discriminate. cbn [bind fst snd] in H. destruct (run fuel nf s1 os) as [[es1 s3]| | |] eqn:E2; try discriminate. cbn [bind fst snd] in H. assert (es = e :: es1 /\ s2 = s3) as (-> & ->) by (split; congruence).
  destruct (step_addrs _ _ _ _ _ _ E1) as (_ & HD & _). destruct (HD HA) as (HA1 & HO1 & HN). assert (HO2 : u_open s1 = false) by (destruct (u_open s1); [specialize (HO1 eq_refl); congruence|reflexivity]).
  destruct (IH s1 HA1 HO2 es1 s3 E2) as (Y1 & Y2 & Y3). split; [exact Y1|]. split; [exact Y2|]. intros t code [X|X]; [apply (HN t code X)|apply (Y3 t code X)].
Qed.
End Steps.
Print Assumptions C64_ends.
(** The first socket of a module cannot be made; a query that is sent in later gets nothing, ever. *)
Example C64_ends_nonvacuous : let s := u_close start64 in u_alive s = true /\ u_open s = false /\
  match u_run false None None no_raw64 false false (fun _ => None) (fun _ => []) arr64 30 30 s [UTurn false SelIdle; UQuery (query64 7 1 5) 100 (fun _ => true); UTurn true (rx64 (enc_msg (reply64 7 77)) 35)] with
  | Ret (es, s') => es = [VNothing; VQueued [] 1; VNothing] /\ u_alive s' = false
  | _ => False
  end.
Proof. cbv zeta. split; [reflexivity|]. split; [reflexivity|]. set (r := u_run _ _ _ _ _ _ _ _ _ _ _ _ _). vm_compute in r. subst r. split; reflexivity. Qed.

(** * C89 *)
(** Full statement: every query to a UDP group can reach the servers of the group - one after the other, or with Parallel all of them - whatever their
    families are: it is sent from a socket of the family of the address.
    The servers: [ps] is the text cut at commas and blanks; with well-formed items the addresses [l]; with Parallel, the ones that are of the first one's
    family, and without any address such a group is refused. *)
Theorem C89_servers_partial text ps l (parallel : bool) : ~ In 0 text -> splits [44; 32] ps text -> addresses 53 (strip_all [9; 32; 46] ps) l ->
  exists f0, forall fuel mem junk, (f0 <= fuel)%nat ->
    udp_init fuel true mem junk text parallel =
    Ret (match parallel, l with
         | false, _ => Some (mk_al l 0, None)
         | true, [] => None
         | true, x :: _ => Some (mk_al l 0, Some (sa_v6 x, filter (fun y => if sa_v6 x then sa_v6 y else negb (sa_v6 y)) l))
         end).
Proof.
  intros H0 HS HA. destruct (C72_servers_partial 53 text ps l ltac:(lia) H0 HS HA) as (f0 & H). exists f0. intros fuel mem junk Hf. unfold udp_init. rewrite (H fuel mem junk Hf). cbn [bind].
  destruct parallel; [|reflexivity]. unfold al_sub. cbn [al_list]. destruct l as [|x l]; [reflexivity|]. cbn [nth_error]. f_equal. f_equal. f_equal. f_equal. f_equal. unfold al_family. cbn [al_list]. apply filter_ext. intros y. destruct (sa_v6 y), (sa_v6 x); reflexivity.
Qed.
Print Assumptions C89_servers_partial.

Section Family.
Context (ap : bool) (misc : option (ipchunk * bool)).
Context (raw : list Z -> list cnode -> nat -> Z) (ignore cpar : bool) (get : list Z -> option ctrl).
Context (hdr : iheader -> list Z) (arr : list Z -> list Z).
Notation fstep p fuel nf := (fam_step ap misc p raw ignore cpar get hdr arr fuel nf).
Notation frun p fuel nf := (fam_run ap misc p raw ignore cpar get hdr arr fuel nf).

(** All that can be asked is of the family [k]. *)
Definition one_kind (p : option (bool * list saddr)) (k : bool) (l : list saddr) : Prop :=
  match p with Some (k', l') => k' = k /\ Forall (fun a => sa_v6 a = k) l' | None => Forall (fun a => sa_v6 a = k) l end.

Lemma al_get_in {A} (a : addrlist A) x : al_get a = Ret (Some x) -> In x (al_list a).
Proof. unfold al_get. destruct (Nat.eqb _ _); [discriminate|]. cbv zeta. destruct (_ && _); [|discriminate]. intros H. apply (nth_error_In _ (Z.to_nat (al_counter a mod Z.of_nat (length (al_list a))))). congruence. Qed.

Lemma fam_step_ok p k fuel nf f s o e f' s' : one_kind p k (al_list (u_addrs s)) -> (u_open s = true -> f = Some k) -> fstep p fuel nf f s o = Ret (e, (f', s')) ->
  one_kind p k (al_list (u_addrs s')) /\ (u_open s' = true -> f' = Some k).
Proof.
  intros HK HF E. unfold fam_step in E. destruct (u_step _ _ _ _ _ _ _ _ _ _ _ s o) as [[e1 s1]| | |] eqn:E1; try discriminate. cbn [bind fst snd] in E.
  match type of E with Ret (_, (?y, _)) = _ => assert (f' = y /\ s' = s1) as (EF & ->) by (split; congruence) end. clear E.
  destruct (step_addrs _ _ _ _ _ _ _ _ _ _ _ _ _ _ _ E1) as (HL & HD & HO). rewrite HL. split; [exact HK|]. intros X. rewrite EF. clear EF f'.
  destruct (u_open s) eqn:Eo.
  - rewrite andb_false_r. specialize (HF eq_refl). destruct o as [c now ok|[|] x|now]; exact HF.
  - destruct (HO X) as [Y|(HA & x & ->)]; [discriminate|]. rewrite HA. cbn [andb negb]. unfold family_for.
    destruct p as [[k' l']|]; [destruct HK as (-> & _); reflexivity|].
    cbn [u_step option_map] in E1. unfold u_turn, u_setup in E1. rewrite HA, Eo in E1. cbn [negb] in E1. cbv zeta in E1.
    destruct (al_get (u_addrs s)) as [[y|]| | |] eqn:EG; try discriminate; cbn [bind] in E1.
    + cbn [one_kind] in HK. rewrite Forall_forall in HK. f_equal. apply HK, al_get_in, EG.
    + assert (s1 = u_cleanup s) as -> by congruence. discriminate.
Qed.
Lemma fam_run_ok p k fuel nf : forall os f s es f' s', one_kind p k (al_list (u_addrs s)) -> (u_open s = true -> f = Some k) -> frun p fuel nf f s os = Ret (es, (f', s')) ->
  one_kind p k (al_list (u_addrs s')) /\ (u_open s' = true -> f' = Some k).
Proof.
  induction os as [|o os IH]; intros f s es f' s' HK HF E; cbn [fam_run] in E; [assert (f' = f /\ s' = s) as (-> & ->) by (split; congruence); auto|].
  destruct (fstep p fuel nf f s o) as [[e [f1 s1]]| | |] eqn:E1; try discriminate. cbn [bind fst snd] in E. destruct (frun p fuel nf f1 s1 os) as [[es1 [f2 s2]]| | |] eqn:E2; try discriminate. cbn [bind fst snd] in E.
  assert (f' = f2 /\ s' = s2) as (-> & ->) by (split; congruence). destruct (fam_step_ok _ _ _ _ _ _ _ _ _ _ HK HF E1) as (HK1 & HF1). apply (IH _ _ _ _ _ HK1 HF1 E2).
Qed.

(** Proved with Parallel (where only the servers of one family are asked), and without it if all addresses of the group are of one family: after any history,
    every message of a query goes to an address of the family of the socket that it is sent from.  Whatever the text is. *)
Theorem C89_family_partial ifuel iok mem junk text (parallel : bool) a p fuel nf s0 os es f s c now ok to code r :
  udp_init ifuel iok mem junk text parallel = Ret (Some (a, p)) -> parallel = true \/ (exists k, Forall (fun x => sa_v6 x = k) (al_list a)) ->
  u_addrs s0 = a -> u_open s0 = false -> frun p fuel nf None s0 os = Ret (es, (f, s)) ->
  fstep p fuel nf f s (UQuery c now ok) = Ret (VQueued to code, r) -> Forall (fun x => f = Some (sa_v6 (fst x))) to.
Proof.
  intros HI HP HA HO HR HQ.
  assert (HK : exists k, one_kind p k (al_list (u_addrs s0))).
  { rewrite HA. clear - HI HP. unfold udp_init in HI. destruct (load_services _ _ _ _ _ _) as [[a'|]| | |]; try discriminate. cbn [bind] in HI. destruct parallel.
    - destruct (al_sub a' 0) as [x|]; [|discriminate]. match type of HI with Ret (Some (_, ?y)) = _ => assert (a = a' /\ p = y) as (-> & ->) by (split; congruence) end. exists (sa_v6 x). cbn [one_kind]. split; [reflexivity|].
      apply Forall_forall. intros y Hy. unfold al_family in Hy. apply filter_In in Hy. destruct Hy as (_ & Hy). apply eqb_prop in Hy. exact Hy.
    - destruct HP as [X|(k & HP)]; [discriminate|]. assert (p = None) as -> by congruence. exists k. exact HP. }
  destruct HK as (k & HK). destruct (fam_run_ok p k fuel nf os None s0 es f s HK ltac:(congruence) HR) as (HK' & HF). clear HR HK HI HP.
  unfold fam_step in HQ. destruct (u_step _ _ _ _ _ _ _ _ _ _ _ s _) as [[e1 s1]| | |] eqn:E1; try discriminate. cbn [bind fst snd] in HQ. assert (e1 = VQueued to code) as -> by congruence. clear HQ.
  cbn [u_step] in E1. unfold u_send in E1. destruct (with_edns ap fuel c) as [c1| | |]; try discriminate. cbn [bind] in E1. destruct (mc_add (u_tab s) c1 now) as [[b tab]| | |]; try discriminate. cbn [bind fst snd] in E1. cbv zeta in E1.
  destruct (u_open s); [|assert (to = []) as -> by congruence; constructor]. rewrite (HF eq_refl).
  destruct (if h_len (c_h c1) <? 0 then None else _) as [bytes|]; [|discriminate]. destruct p as [[k' l']|]; cbn [option_map snd] in E1.
  - destruct HK' as (_ & HK'). match type of E1 with Ret (VQueued ?y _, _) = _ => assert (to = y) as -> by congruence end. apply Forall_forall. intros y Hy. apply in_map_iff in Hy. destruct Hy as (z & <- & Hz). cbn [fst]. rewrite Forall_forall in HK'. rewrite (HK' z Hz). reflexivity.
  - destruct (al_get (u_addrs s)) as [[y|]| | |] eqn:EG; try discriminate; cbn [bind] in E1; [|assert (to = []) as -> by congruence; constructor].
    assert (to = [(y, bytes)]) as -> by congruence. constructor; [|constructor]. cbn [fst]. cbn [one_kind] in HK'. rewrite Forall_forall in HK'. rewrite (HK' y (al_get_in _ _ EG)). reflexivity.
Qed.
End Family.
Print Assumptions C89_family_partial.

(** "1.2.3.4,[::1]" *)
Definition text89 : list Z := [49; 46; 50; 46; 51; 46; 52; 44; 91; 58; 58; 49; 93].
Definition v4_89 : saddr := mk_sa false [1; 2; 3; 4] 53.
Definition v6_89 : saddr := mk_sa true (group_bytes [0; 0; 0; 0; 0; 0; 0; 1]) 53.
Definition start89 : @udpm saddr := mk_udpm bst_init (mk_ubuf (mk_ih None false 0 None 0 [] 0 0 false false 0 []) (repeat 0 256) (repeat 0 120)) None false 0 (mk_al [v4_89; v6_89] 0) true.
Notation run89 p := (fam_run false None p no_raw64 false false (fun _ => None) (fun _ => []) arr64 30 30).
(** False without Parallel if the families differ: the first query gets no reply in time, the next one is for the other server - an IPv6 address -, but the socket is still
    the one for IPv4. *)
Theorem C89_mixed_refuted mem junk : udp_init 20 true mem junk text89 false = Ret (Some (mk_al [v4_89; v6_89] 0, None)) /\
  exists e1 l s, run89 None None start89 [UTurn true SelIdle; UQuery (query64 7 1 5) 100 (fun _ => true); USweep 200; UQuery (query64 9 2 6) 201 (fun _ => true)] =
    Ret ([VNothing; e1; VTimeouts l; VQueued [(v6_89, enc_msg (msg64 9))] 0], (Some false, s)).
Proof.
  split; [reflexivity|]. set (r := run89 None None start89 _). vm_compute in r. subst r. eexists _, _, _. reflexivity.
Qed.
Print Assumptions C89_mixed_refuted.
(** False with Parallel too: the second server is never asked. *)
Theorem C89_parallel_refuted mem junk : udp_init 20 true mem junk text89 true = Ret (Some (mk_al [v4_89; v6_89] 0, Some (false, [v4_89]))).
Proof. reflexivity. Qed.
Print Assumptions C89_parallel_refuted.
Example C89_nonvacuous : addresses 53 (strip_all [9; 32; 46] (pieces [44; 32] text89)) [v4_89; v6_89] /\
  (exists es s, run89 (Some (false, [v4_89])) None start89 [UTurn true SelIdle; UQuery (query64 7 1 5) 100 (fun _ => true)] = Ret (es, (Some false, s)) /\ nth_error es 1 = Some (VQueued [(v4_89, enc_msg (msg64 7))] 0)).
Proof.
  split; [apply ad_one; [apply denotes_1234|]; apply ad_one; [apply (dn_v6 53 _ [58; 58; 49] v6_text_1)|apply ad_none]|].
  set (r := run89 _ None start89 _). vm_compute in r. subst r. eexists _, _. split; reflexivity.
Qed.

(** * C72: a text that is too long *)
(** "000000000000400.2.3.4" is cut after fifteen characters and becomes 0.0.1.0. *)
Theorem C72_long_refuted stale sport dport : exists p, convert stale sport dport (repeat 48 12 ++ [52; 48; 48; 46; 50; 46; 51; 46; 52]) = Ret (Some (mk_sa false [0; 0; 1; 0] p)).
Proof. eexists. reflexivity. Qed.
Print Assumptions C72_long_refuted.

(** * C41: digits *)
(** The characters of a printed IPv6 address: decimal digits, the small letters a to f, colons. *)
Definition small_hex (c : Z) : Prop := 48 <= c <= 57 \/ 97 <= c <= 102 \/ c = 58.
Lemma print_small fuel : forall v, 0 <= v -> Forall small_hex (print_loop fuel 16 v).
Proof.
  assert (HD : forall d, 0 <= d < 16 -> small_hex (print_digit d)) by (intros d H; unfold small_hex, print_digit; destruct (Z.ltb_spec d 10); lia).
  induction fuel as [|fuel IH]; intros v Hv; cbn [print_loop]; [constructor|]. destruct (Z.ltb_spec v 16); [constructor; [apply HD; lia|constructor]|].
  apply Forall_app. split; [apply IH, Z.div_pos; lia|]. constructor; [|constructor]. apply HD, Z.mod_pos_bound. lia.
Qed.
Theorem C41_small a : Forall is_byte a -> Forall small_hex (v6_to_asc a).
Proof.
  intros HB. unfold v6_to_asc. cbv zeta. generalize (z_best (find_run a)) (n_best (find_run a)) 0 9%nat. intros z n i fuel. revert i.
  assert (HN : forall k, 0 <= nth k a 0). { intros k. destruct (nth_in_or_default k a 0) as [X| ->]; [|lia]. rewrite Forall_forall in HB. apply HB in X. unfold is_byte in X. lia. }
  assert (HC : small_hex 58) by (unfold small_hex; lia).
  induction fuel as [|fuel IH]; intros i; cbn [asc_loop]; [constructor|]. destruct (16 <=? i); [constructor|]. destruct ((i =? z) && (2 <? n)).
  - apply Forall_app. split; [destruct (i =? 0); auto|]. constructor; [exact HC|apply IH].
  - cbv zeta. apply Forall_app. split; [apply print_small; pose proof (HN (Z.to_nat i)); pose proof (HN (Z.to_nat i + 1)%nat); nia|]. apply Forall_app. split; [destruct (i <? 14); auto|apply IH].
Qed.
Print Assumptions C41_small.
