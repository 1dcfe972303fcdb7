(** C90: the server groups have the servers, the way of asking and the proxies that are configured. *)
From Verif Require Import Base BaseFacts ListFacts Hash_Model Addr_Model Addr_Spec Sht_Model Chunk_Model Chunk_Spec Chunk_Proofs Chunk_Props Slist_Model Slist_Proofs Slist_Props Line_Model Line_Props Config_Model Filter_Model Filter_Props Arr_Model Alist_Model Alist_Spec Alist_Props Mmgr_Model Mmgr_Props Udpm_Model Fam_Model Fam_Props Grp_Model.
Require Import ZifyBool ZifyNat.
Set Default Proof Using "Type".

(** * Specification *)
(** A group as it is written: protocol, servers, whether all of them are asked at once, the proxies, the domains. *)
Record conf := mk_conf { cf_proto : proto; cf_servers : list Z; cf_all : bool; cf_proxies : option (list Z); cf_domains : list (list Z) }.
(** "parallel" and "proxy", "on" and "no". *)
Definition k_parallel : list Z := [112; 97; 114; 97; 108; 108; 101; 108].
Definition k_proxy : list Z := [112; 114; 111; 120; 121].
Definition says_on (v : list Z) : bool := str_eqb (str_to_lower v) [111; 110].
Definition says_no (v : list Z) : bool := str_eqb (str_to_lower v) [110; 111].
Definition proxies_of (p : proto) (v : list Z) : option (list Z) := match p with UDP => None | TCP => if says_no v then None else Some v end.
(** A group file, as in C33 ([arg_of], [domains_of], [protocols], [trimmed]), with its settings: asking all servers at once is on, proxies are off if not given. *)
Definition file_confs (fs : list Z -> option (option (list Z))) (bs : list Z) : option (list conf) :=
  let ls := map str_to_lower (content bs) in
  let given k d := match arg_of k ls with Some v => v | None => d end in
  match arg_of k_protocol ls with
  | None => None
  | Some p =>
    match match arg_of k_list ls with
          | None => Some []
          | Some x => match fs x with None => None | Some None => Some [] | Some (Some b) => Some (map str_to_lower (content b)) end
          end with
    | None => None
    | Some more =>
      match trimmed (domains_of ls ++ more) with
      | [] => Some []
      | ds => match protocols p, arg_of k_server ls with
              | [], _ | _, None => None
              | l, Some s => Some (map (fun x => mk_conf x s (says_on (given k_parallel [111; 110])) (proxies_of x (given k_proxy [110; 111])) ds) l)
              end
      end
    end
  end.
(** The groups of the strings of ServerGroup up to the first mistake, and whether there is none. *)
Fixpoint confs_of (fs : list Z -> option (option (list Z))) (l : list (list Z)) : list conf * bool :=
  match l with
  | [] => ([], true)
  | ty :: l1 =>
    if str_eqb ty [85; 68; 80] then match l1 with s :: d :: p :: l2 => let (cs, ok) := confs_of fs l2 in (mk_conf UDP s (says_on p) None (trimmed (pieces [44] d)) :: cs, ok) | _ => ([], false) end
    else if str_eqb ty [84; 67; 80] then match l1 with s :: d :: p :: x :: l2 => let (cs, ok) := confs_of fs l2 in (mk_conf TCP s (says_on p) (proxies_of TCP x) (trimmed (pieces [44] d)) :: cs, ok) | _ => ([], false) end
    else if str_eqb ty [70; 73; 76; 69] then
      match l1 with
      | f :: l2 => match match fs f with None => None | Some None => Some [] | Some (Some bs) => file_confs fs bs end with
                   | None => ([], false)
                   | Some cs1 => let (cs, ok) := confs_of fs l2 in (cs1 ++ cs, ok)
                   end
      | _ => ([], false)
      end
    else ([], false)
  end.
(** A list of addresses as text (C72). *)
Definition names (dport : Z) (t : list Z) (l : list saddr) : Prop := ~ In 0 t /\ exists ps, splits [44; 32] ps t /\ addresses dport (strip_all [9; 32; 46] ps) l.
(** What is made of a group; [None]: it is refused. *)
Inductive sets_up : conf -> option msetup -> Prop :=
| su_udp s ds l : names 53 s l -> sets_up (mk_conf UDP s false None ds) (Some (MUdp (mk_al l 0) None))
| su_udp_all s ds x l : names 53 s (x :: l) ->
    sets_up (mk_conf UDP s true None ds) (Some (MUdp (mk_al (x :: l) 0) (Some (sa_v6 x, filter (fun y => if sa_v6 x then sa_v6 y else negb (sa_v6 y)) (x :: l)))))
| su_udp_none s ds : names 53 s [] -> sets_up (mk_conf UDP s true None ds) None
| su_tcp s ds x l b : names 53 s (x :: l) -> sets_up (mk_conf TCP s b None ds) (Some (MTcp (mk_al (x :: l) 0) b None))
| su_tcp_proxy s ds x l b t y k : names 53 s (x :: l) -> names 1080 t (y :: k) -> sets_up (mk_conf TCP s b (Some t) ds) (Some (MTcp (mk_al (x :: l) 0) b (Some (mk_al (y :: k) 0))))
| su_tcp_none s ds b p : names 53 s [] -> sets_up (mk_conf TCP s b p ds) None.
(** All groups, if none is refused. *)
Fixpoint all_set (os : list (option msetup)) : option (list msetup) :=
  match os with [] => Some [] | Some s :: os' => option_map (cons s) (all_set os') | None :: _ => None end.
(** The same as in C33, where only protocols and domains count. *)
Definition erase (g : gmap) : mmap := mk_mmap (map proto_of (g_mods g)) (g_dist g).

(** * Proofs *)
Lemma setting_ok v w : (length w < 7)%nat -> setting v w = str_eqb (str_to_lower v) w.
Proof.
  intros H. unfold setting. destruct (Nat.le_gt_cases (length v) 7) as [L|L]; [rewrite firstn_all2 by exact L; reflexivity|].
  assert (HL : forall x, length (str_to_lower x) = length x) by (intros x; unfold str_to_lower; apply map_length).
  transitivity false; [|symmetry]; apply not_true_is_false; intros E; apply str_eqb_eq in E; apply (f_equal (@length Z)) in E; rewrite HL in E; [rewrite firstn_length in E|]; lia.
Qed.
Lemma setting_on v : setting v [111; 110] = says_on v.
Proof. apply setting_ok. cbn [length]. lia. Qed.
Lemma setting_no v : setting v [110; 111] = says_no v.
Proof. apply setting_ok. cbn [length]. lia. Qed.

Section Load.
Context (fuel : nat) (mem : nat -> nat -> Z) (junk : nat -> nat -> (nat -> Z) * Z) (bind_ok : nat -> bool) (fs : list Z -> option (option (list Z))).
Notation init := (groups_init fuel mem junk bind_ok fs).
Definition core (m : gmap) (c : conf) : outcome (option gmap) :=
  match cf_proto c with UDP => udp_set fuel mem junk m (cf_servers c) (cf_domains c) (cf_all c) | TCP => tcp_set fuel mem junk bind_ok m (cf_servers c) (cf_domains c) (cf_all c) (cf_proxies c) end.
Definition works (c : conf) (o : option msetup) : Prop := forall m, core m c = Ret (option_map (fun s => add_setup m s (cf_domains c)) o).
Fixpoint add_all (m : gmap) (cs : list conf) (os : list (option msetup)) : option gmap :=
  match cs, os with c :: cs', Some s :: os' => add_all (add_setup m s (cf_domains c)) cs' os' | [], [] => Some m | _, _ => None end.
Lemma add_all_app cs1 : forall os1 cs2 os2 m, length cs1 = length os1 -> add_all m (cs1 ++ cs2) (os1 ++ os2) = match add_all m cs1 os1 with Some m' => add_all m' cs2 os2 | None => None end.
Proof.
  induction cs1 as [|c cs1 IH]; intros [|o os1] cs2 os2 m H; try discriminate; cbn [app add_all]; [reflexivity|]. cbn [length] in H. destruct o as [s|]; [|reflexivity]. apply IH. congruence.
Qed.
Lemma udp_group_ok m s ds p o : works (mk_conf UDP s (says_on p) None ds) o -> udp_group fuel mem junk m (Some s) ds (Some p) = Ret (option_map (fun x => add_setup m x ds) o).
Proof. intros H. unfold udp_group. rewrite setting_on. apply (H m). Qed.
Lemma tcp_group_ok m s ds p x o : works (mk_conf TCP s (says_on p) (proxies_of TCP x) ds) o -> tcp_group fuel mem junk bind_ok m (Some s) ds (Some p) (Some x) = Ret (option_map (fun x => add_setup m x ds) o).
Proof. intros H. unfold tcp_group. rewrite setting_on, setting_no. apply (H m). Qed.
Lemma group_file_ok m path cs os : fs_ok fs -> match fs path with None => None | Some None => Some [] | Some (Some bs) => file_confs fs bs end = Some cs -> Forall2 works cs os ->
  group_file fuel mem junk bind_ok fs m path = Ret (add_all m cs os).
Proof.
  intros HF EC HW. unfold group_file. destruct (fs path) as [[bs|]|] eqn:Ep; [|assert (cs = []) as -> by congruence; inversion HW; reflexivity|discriminate].
  destruct (HF _ _ Ep) as (HL & HE). pose proof (group_lines_ok (fun _ => true) (fun _ => true) fs (S (length bs)) [] bs false ltac:(discriminate) HL HE ltac:(lia)) as HG. change (chunk_of (arg_rules [])) with (@chunk_init (list Z)) in HG. change (domains_of []) with (@nil (list Z)) in HG. rewrite HG. clear HG.
  cbn [app bind fst snd]. unfold file_confs in EC. cbv zeta in EC. change w_protocol with k_protocol. change w_list with k_list. change w_server with k_server. change w_parallel with k_parallel. change w_proxy with k_proxy. change tidy with trimmed.
  set (ls := map str_to_lower (content bs)) in *. rewrite !arg_ok by (vm_compute; intuition discriminate). cbn [bind]. destruct (arg_of k_protocol ls) as [p|]; [|discriminate].
  cbn [bind].
  assert (HM : (match match arg_of k_list ls with Some v => Some v | None => None end with None => Ret (Some (domains_of ls)) | Some x => match fs x with None => Ret None | Some None => Ret (Some (domains_of ls)) | Some (Some bs') => let! d := list_lines (S (length bs')) (domains_of ls) (mkf bs' false) in Ret (Some d) end end)
    = Ret (option_map (app (domains_of ls)) match arg_of k_list ls with None => Some [] | Some x => match fs x with None => None | Some None => Some [] | Some (Some b) => Some (map str_to_lower (content b)) end end)).
  { destruct (arg_of k_list ls) as [x|]; [|cbn; rewrite app_nil_r; reflexivity]. destruct (fs x) as [[b|]|] eqn:Ex; [|cbn; rewrite app_nil_r; reflexivity|reflexivity]. destruct (HF _ _ Ex) as (HL' & HE'). rewrite list_lines_ok by (auto; discriminate). reflexivity. }
  rewrite HM. clear HM. cbn [bind]. match goal with |- context [option_map (app (domains_of ls)) ?o] => destruct o as [more|] end; cbn [option_map]; [|discriminate].
  destruct (trimmed (domains_of ls ++ more)) as [|d ds]; [assert (cs = []) as -> by congruence; inversion HW; reflexivity|]. cbn [bind].
  set (par := match arg_of k_parallel ls with Some v => v | None => [111; 110] end) in *. set (prx := match arg_of k_proxy ls with Some v => v | None => [110; 111] end) in *.
  assert (HP : match arg_of k_parallel ls with Some v => Some v | None => Some [111; 110] end = Some par) by (unfold par; destruct (arg_of k_parallel ls); reflexivity).
  assert (HX : match arg_of k_proxy ls with Some v => Some v | None => Some [110; 111] end = Some prx) by (unfold prx; destruct (arg_of k_proxy ls); reflexivity).
  rewrite HP, HX. clear HP HX. clearbody par prx ls. cbn [bind]. unfold protocols in EC.
  assert (HS : exists s, match arg_of k_server ls with Some v => Some v | None => None end = Some s /\ arg_of k_server ls = Some s).
  { destruct (arg_of k_server ls) as [s|]; [eauto|]. exfalso. clear - EC. destruct (str_eqb p [42]); [discriminate|]. destruct (str_eqb p [117; 100; 112]); [discriminate|]. destruct (str_eqb p [116; 99; 112]); discriminate. }
  destruct HS as (s & E1 & E2). rewrite E1. rewrite E2 in EC. clear E1 E2.
  destruct (str_eqb p [42]); [|destruct (str_eqb p [117; 100; 112]); [|destruct (str_eqb p [116; 99; 112]); [|discriminate]]]; cbn [orb map] in *; match type of EC with Some ?y = _ => assert (cs = y) as -> by congruence end; clear EC.
  - inversion HW as [|? o1 ? ? W1 HW']; subst. inversion HW' as [|? o2 ? ? W2 HW'']; subst. inversion HW''; subst.
    rewrite (udp_group_ok m s _ par o1 W1). cbn [bind]. rewrite (tcp_group_ok _ s _ par prx o2 W2). cbn [bind]. destruct o1 as [s1|]; cbn [option_map add_all cf_domains]; [|reflexivity]. destruct o2 as [s2|]; reflexivity.
  - inversion HW as [|? o1 ? ? W1 HW']; subst. inversion HW'; subst. rewrite (udp_group_ok m s _ par o1 W1). cbn [bind]. destruct o1 as [s1|]; reflexivity.
  - inversion HW as [|? o1 ? ? W1 HW']; subst. inversion HW'; subst. cbn [bind]. rewrite (tcp_group_ok m s _ par prx o1 W1). cbn [bind]. destruct o1 as [s1|]; reflexivity.
Qed.
Lemma group_file_bad m path : fs_ok fs -> match fs path with None => None | Some None => Some [] | Some (Some bs) => file_confs fs bs end = None -> group_file fuel mem junk bind_ok fs m path = Ret None.
Proof.
  intros HF EC. unfold group_file. destruct (fs path) as [[bs|]|] eqn:Ep; [|discriminate|reflexivity].
  destruct (HF _ _ Ep) as (HL & HE). pose proof (group_lines_ok (fun _ => true) (fun _ => true) fs (S (length bs)) [] bs false ltac:(discriminate) HL HE ltac:(lia)) as HG. change (chunk_of (arg_rules [])) with (@chunk_init (list Z)) in HG. change (domains_of []) with (@nil (list Z)) in HG. rewrite HG. clear HG.
  cbn [app bind fst snd]. unfold file_confs in EC. cbv zeta in EC. change w_protocol with k_protocol. change w_list with k_list. change w_server with k_server. change w_parallel with k_parallel. change w_proxy with k_proxy. change tidy with trimmed.
  set (ls := map str_to_lower (content bs)) in *. rewrite !arg_ok by (vm_compute; intuition discriminate). cbn [bind]. destruct (arg_of k_protocol ls) as [p|]; [|reflexivity].
  cbn [bind].
  assert (HM : (match match arg_of k_list ls with Some v => Some v | None => None end with None => Ret (Some (domains_of ls)) | Some x => match fs x with None => Ret None | Some None => Ret (Some (domains_of ls)) | Some (Some bs') => let! d := list_lines (S (length bs')) (domains_of ls) (mkf bs' false) in Ret (Some d) end end)
    = Ret (option_map (app (domains_of ls)) match arg_of k_list ls with None => Some [] | Some x => match fs x with None => None | Some None => Some [] | Some (Some b) => Some (map str_to_lower (content b)) end end)).
  { destruct (arg_of k_list ls) as [x|]; [|cbn; rewrite app_nil_r; reflexivity]. destruct (fs x) as [[b|]|] eqn:Ex; [|cbn; rewrite app_nil_r; reflexivity|reflexivity]. destruct (HF _ _ Ex) as (HL' & HE'). rewrite list_lines_ok by (auto; discriminate). reflexivity. }
  rewrite HM. clear HM. cbn [bind]. match goal with |- context [option_map (app (domains_of ls)) ?o] => destruct o as [more|] end; cbn [option_map]; [|reflexivity].
  destruct (trimmed (domains_of ls ++ more)) as [|d ds]; [discriminate|]. cbn [bind]. unfold protocols in EC.
  assert (HP : exists x, match arg_of k_parallel ls with Some v => Some v | None => Some [111; 110] end = Some x) by (destruct (arg_of k_parallel ls); eauto). assert (HX : exists x, match arg_of k_proxy ls with Some v => Some v | None => Some [110; 111] end = Some x) by (destruct (arg_of k_proxy ls); eauto).
  destruct HP as (par & ->). destruct HX as (prx & ->). clearbody ls.
  destruct (arg_of k_server ls) as [s|].
  - destruct (str_eqb p [42]); [discriminate|]. destruct (str_eqb p [117; 100; 112]); [discriminate|]. destruct (str_eqb p [116; 99; 112]); [discriminate|]. reflexivity.
  - destruct (str_eqb p [42]); [reflexivity|]. destruct (str_eqb p [117; 100; 112]); [reflexivity|]. destruct (str_eqb p [116; 99; 112]); reflexivity.
Qed.
Lemma groups_init_ok n : forall l m cs ok os, (length l <= n)%nat -> fs_ok fs -> confs_of fs l = (cs, ok) -> Forall2 works cs os -> init m l = Ret (if ok then add_all m cs os else None).
Proof.
  induction n as [|n IH]; intros l m cs ok os Hn HF EC HW; (destruct l as [|ty l1]; [assert (cs = [] /\ ok = true) as (-> & ->) by (split; cbn in EC; congruence); inversion HW; reflexivity|]); cbn [length] in Hn; [lia|].
  cbn [groups_init confs_of] in *. destruct (str_eqb ty [85; 68; 80]); [|destruct (str_eqb ty [84; 67; 80]); [|destruct (str_eqb ty [70; 73; 76; 69])]].
  - destruct l1 as [|s [|d [|p l2]]]; try (assert (ok = false) as -> by congruence; reflexivity). cbn [length] in Hn. change tidy with trimmed. destruct (confs_of fs l2) as [cs2 ok2] eqn:E2. match type of EC with (?y, _) = _ => assert (cs = y /\ ok = ok2) as (-> & ->) by (split; congruence) end.
    inversion HW as [|? o ? os2 W HW']; subst. rewrite (udp_group_ok m s _ p o W). cbn [bind]. destruct o as [s1|]; cbn [option_map add_all cf_domains]; [|destruct ok2; reflexivity]. apply (IH l2 _ cs2 ok2 os2 ltac:(lia) HF E2 HW').
  - destruct l1 as [|s [|d [|p [|x l2]]]]; try (assert (ok = false) as -> by congruence; reflexivity). cbn [length] in Hn. change tidy with trimmed. destruct (confs_of fs l2) as [cs2 ok2] eqn:E2. match type of EC with (?y, _) = _ => assert (cs = y /\ ok = ok2) as (-> & ->) by (split; congruence) end.
    inversion HW as [|? o ? os2 W HW']; subst. rewrite (tcp_group_ok m s _ p x o W). cbn [bind]. destruct o as [s1|]; cbn [option_map add_all cf_domains]; [|destruct ok2; reflexivity]. apply (IH l2 _ cs2 ok2 os2 ltac:(lia) HF E2 HW').
  - destruct l1 as [|f l2]; [assert (ok = false) as -> by congruence; reflexivity|]. cbn [length] in Hn. destruct (match fs f with None => None | Some None => Some [] | Some (Some bs) => file_confs fs bs end) as [cs1|] eqn:E1.
    + destruct (confs_of fs l2) as [cs2 ok2] eqn:E2. assert (cs = cs1 ++ cs2 /\ ok = ok2) as (-> & ->) by (split; congruence). apply Forall2_app_inv_l in HW. destruct HW as (os1 & os2 & W1 & W2 & ->).
      rewrite (group_file_ok m f cs1 os1 HF E1 W1). cbn [bind]. rewrite add_all_app by (clear - W1; induction W1; cbn [length]; congruence). destruct (add_all m cs1 os1) as [m'|]; [|destruct ok2; reflexivity]. apply (IH l2 m' cs2 ok2 os2 ltac:(lia) HF E2 W2).
    + assert (ok = false) as -> by congruence. rewrite (group_file_bad m f HF E1). reflexivity.
  - assert (ok = false) as -> by congruence. reflexivity.
Qed.
End Load.

Lemma add_all_ok cs : forall os m, length cs = length os ->
  match add_all m cs os with
  | Some g => exists ms, all_set os = Some ms /\ g_mods g = g_mods m ++ ms /\ erase g = map_of (erase m) (map (fun x => (proto_of (fst x), snd x)) (combine ms (map cf_domains cs)))
  | None => all_set os = None
  end.
Proof.
  induction cs as [|c cs IH]; intros [|o os] m H; try discriminate; cbn [add_all all_set]; [exists []; rewrite app_nil_r; auto|]. destruct o as [s|]; [|reflexivity]. cbn [length] in H.
  specialize (IH os (add_setup m s (cf_domains c)) ltac:(congruence)). destruct (add_all _ cs os) as [g|]; [|rewrite IH; reflexivity].
  destruct IH as (ms & -> & E1 & E2). exists (s :: ms). split; [reflexivity|]. split; [rewrite E1; cbn [add_setup g_mods]; rewrite <- app_assoc; reflexivity|]. rewrite E2. cbn [map combine fst snd map_of fold_left]. unfold map_of. f_equal.
  unfold erase, add_setup, add_module. cbn [g_mods g_dist m_mods m_dist]. rewrite map_app, map_length. reflexivity.
Qed.
Lemma set_up_works c o : sets_up c o -> exists f0, forall fuel mem junk bind_ok, (f0 <= fuel)%nat -> (forall i, bind_ok i = true) -> works fuel mem junk bind_ok c o.
Proof.
  intros H. inversion H as [s ds l (N & ps & HS & HA)|s ds x l (N & ps & HS & HA)|s ds (N & ps & HS & HA)|s ds x l b (N & ps & HS & HA)|s ds x l b t y k (N & ps & HS & HA) (N2 & ps2 & HS2 & HA2)|s ds b p (N & ps & HS & HA)]; subst; clear H.
  - destruct (C89_servers_partial _ _ _ false N HS HA) as (f0 & E). exists f0. intros fuel mem junk bok Hf Hb m. unfold core. cbn [cf_proto cf_servers cf_domains cf_all]. unfold udp_set. cbv zeta. rewrite E by exact Hf. reflexivity.
  - destruct (C89_servers_partial _ _ _ true N HS HA) as (f0 & E). exists f0. intros fuel mem junk bok Hf Hb m. unfold core. cbn [cf_proto cf_servers cf_domains cf_all]. unfold udp_set. cbv zeta. rewrite E by exact Hf. reflexivity.
  - destruct (C89_servers_partial _ _ _ true N HS HA) as (f0 & E). exists f0. intros fuel mem junk bok Hf Hb m. unfold core. cbn [cf_proto cf_servers cf_domains cf_all]. unfold udp_set. cbv zeta. rewrite E by exact Hf. reflexivity.
  - destruct (C72_servers_partial 53 _ _ _ ltac:(lia) N HS HA) as (f0 & E). exists f0. intros fuel mem junk bok Hf Hb m. unfold core. cbn [cf_proto cf_servers cf_domains cf_all cf_proxies]. unfold tcp_set, tcp_init. rewrite Hb, E by exact Hf. reflexivity.
  - destruct (C72_servers_partial 53 _ _ _ ltac:(lia) N HS HA) as (f0 & E). destruct (C72_servers_partial 1080 _ _ _ ltac:(lia) N2 HS2 HA2) as (f1 & E'). exists (Nat.max f0 f1). intros fuel mem junk bok Hf Hb m. unfold core. cbn [cf_proto cf_servers cf_domains cf_all cf_proxies]. unfold tcp_set, tcp_init. rewrite Hb, E by lia. cbn [bind al_list]. rewrite E' by lia. reflexivity.
  - destruct (C72_servers_partial 53 _ _ _ ltac:(lia) N HS HA) as (f0 & E). exists f0. intros fuel mem junk bok Hf Hb m. unfold core. cbn [cf_proto cf_servers cf_domains cf_all cf_proxies]. unfold tcp_set, tcp_init. rewrite Hb, E by exact Hf. reflexivity.
Qed.

(** * C90 *)
(** Full statement: each group of the configuration, in order, has the servers, the way of asking and the proxies that are written, and the domains of it are sent to it; with a
    mistake anywhere the groups in use stay.
    Proved for groups whose texts are lists of well-formed addresses and words that are recognisably none (C72) with a proxy among the proxies, if a local port is found for each
    TCP group, for files whose lines are read as written.  The domains of the groups are mapped as in C33. *)
Theorem C90_load_partial fs l cs ok os : fs_ok fs -> l <> [] -> confs_of fs l = (cs, ok) -> Forall2 sets_up cs os ->
  exists f0, forall fuel mem junk bind_ok cur, (f0 <= fuel)%nat -> (forall i, bind_ok i = true) ->
  exists g, groups_load fuel mem junk bind_ok fs cur l = Ret g /\
    match (if ok then all_set os else None) with
    | Some ms => g_mods g = ms /\ erase g = map_of mmap_init (map (fun x => (proto_of (fst x), snd x)) (combine ms (map cf_domains cs)))
    | None => g = cur
    end.
Proof.
  intros HF Hl EC HS.
  assert (HW : exists f0, forall fuel mem junk bind_ok, (f0 <= fuel)%nat -> (forall i, bind_ok i = true) -> Forall2 (works fuel mem junk bind_ok) cs os).
  { clear EC. induction HS as [|c o cs os H HS (f1 & IH)]; [exists 0%nat; constructor|]. destruct (set_up_works c o H) as (f0 & E). exists (Nat.max f0 f1). intros fuel mem junk bok Hf Hb. constructor; [apply E; [lia|exact Hb]|apply IH; [lia|exact Hb]]. }
  destruct HW as (f0 & HW). exists f0. intros fuel mem junk bok cur Hf Hb. specialize (HW fuel mem junk bok Hf Hb).
  unfold groups_load. destruct l as [|ty l]; [congruence|]. rewrite (groups_init_ok fuel mem junk bok fs _ (ty :: l) gmap_init cs ok os (le_n _) HF EC HW). cbn [bind]. eexists. split; [reflexivity|].
  destruct ok; [|reflexivity]. assert (HL : length cs = length os) by (clear - HS; induction HS; cbn [length]; congruence). pose proof (add_all_ok cs os gmap_init HL) as HX. destruct (add_all gmap_init cs os) as [g|]; [|rewrite HX; reflexivity].
  destruct HX as (ms & -> & E1 & E2). split; [exact E1|exact E2].
Qed.
Print Assumptions C90_load_partial.
(** The groups in the order of the configuration with all their domains: the modules are as many as the groups, and of their protocols. *)
Theorem C90_protocols cs os ms : Forall2 sets_up cs os -> all_set os = Some ms -> map proto_of ms = map cf_proto cs.
Proof.
  intros H. revert ms. induction H as [|c o cs os H HS IH]; intros ms E; cbn [all_set] in E; [assert (ms = []) as -> by congruence; reflexivity|].
  destruct o as [s|]; [|discriminate]. destruct (all_set os) as [ms'|]; [|discriminate]. cbn [option_map] in E. assert (ms = s :: ms') as -> by congruence. cbn [map]. rewrite (IH ms' eq_refl). f_equal. inversion H; reflexivity.
Qed.
Print Assumptions C90_protocols.

(** A group file "PROTOCOL UDP / SERVER 1.2.3.4 / LIST /D". *)
Definition file90 : list Z := [80; 82; 79; 84; 79; 67; 79; 76; 32; 85; 68; 80; 10; 83; 69; 82; 86; 69; 82; 32; 49; 46; 50; 46; 51; 46; 52; 10; 76; 73; 83; 84; 32; 47; 68; 10].
Definition fs90 (p : list Z) : option (option (list Z)) := if str_eqb p [103] then Some (Some file90) else if str_eqb p [47; 68] then Some (Some [97; 46; 98; 10]) else Some None.
(** False for a list of domains whose path has capital letters: its letters are made small with the rest of the line, so that the file "/D" with its domain is not found and
    there is no group. *)
Theorem C90_case_refuted mem junk bind_ok cur : fs90 [47; 68] = Some (Some [97; 46; 98; 10]) /\ arg_of [76; 73; 83; 84] (content file90) = Some [47; 68] /\
  groups_load 30 mem junk bind_ok fs90 cur [[70; 73; 76; 69]; [103]] = Ret gmap_init.
Proof. split; [reflexivity|]. split; vm_compute; reflexivity. Qed.
Print Assumptions C90_case_refuted.
(** False for proxies without an address, for instance a host's name: instead of refusing the group the program frees the list of its servers twice. *)
Theorem C90_proxy_refuted mem junk cur : groups_load 30 mem junk (fun _ => true) fs90 cur [[84; 67; 80]; [49; 46; 50; 46; 51; 46; 52]; [97; 46; 98]; [111; 110]; [112; 114; 111; 120; 121]] = UBW.
Proof. reflexivity. Qed.
Print Assumptions C90_proxy_refuted.
(** "UDP", "1.2.3.4,[::1]", "a.b,c", "On"; "TCP", "1.2.3.4", "d", "off", "1.2.3.4"; "FILE", "g". *)
Definition config90 : list (list Z) := [[85; 68; 80]; text89; [97; 46; 98; 44; 99]; [79; 110]; [84; 67; 80]; [49; 46; 50; 46; 51; 46; 52]; [100]; [111; 102; 102]; [49; 46; 50; 46; 51; 46; 52]; [70; 73; 76; 69]; [103]].
Lemma names_1234 dport : names dport [49; 46; 50; 46; 51; 46; 52] [mk_sa false [1; 2; 3; 4] dport].
Proof.
  split; [intros H; cbn in H; intuition discriminate|]. eexists. split; [apply (C37_pieces [44; 32] [49; 46; 50; 46; 51; 46; 52])|]. apply ad_one; [apply denotes_1234|apply ad_none].
Qed.
Example C90_nonvacuous : exists cs os, confs_of fs90 config90 = (cs, true) /\ length cs = 2%nat /\ Forall2 sets_up cs os /\
  all_set os = Some [MUdp (mk_al [v4_89; v6_89] 0) (Some (false, [v4_89])); MTcp (mk_al [v4_89] 0) false (Some (mk_al [mk_sa false [1; 2; 3; 4] 1080] 0))].
Proof.
  eexists _, [Some (MUdp (mk_al [v4_89; v6_89] 0) (Some (false, [v4_89]))); Some (MTcp (mk_al [v4_89] 0) false (Some (mk_al [mk_sa false [1; 2; 3; 4] 1080] 0)))]. split; [vm_compute; reflexivity|]. split; [reflexivity|]. split; [|reflexivity].
  constructor; [|constructor; [|constructor]].
  - apply (su_udp_all _ _ v4_89 [v6_89]). split; [intros H; cbn in H; intuition discriminate|]. eexists. split; [apply (C37_pieces [44; 32] text89)|].
    apply ad_one; [apply denotes_1234|]. apply ad_one; [apply (dn_v6 53 _ [58; 58; 49] v6_text_1)|apply ad_none].
  - apply (su_tcp_proxy _ _ v4_89 [] _ _ (mk_sa false [1; 2; 3; 4] 1080) []); apply names_1234.
Qed.
