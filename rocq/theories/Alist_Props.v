(** C72, C73 and C74: addresses given as text, and what is made of them. *)
From Verif Require Import Base BaseFacts ListFacts List2Facts Hash_Model Ttl_Model Ttl_Spec Ttl_Proofs Addr_Model Addr_Spec Addr_Proofs Addr2_Proofs Addr3_Proofs Addr_Props Arr_Model Slist_Model Slist_Proofs Slist_Props Queue_Props Alist_Model Alist_Spec Alist_Proofs.
Require Import ZifyBool ZifyNat.

(** * C72 *)
(** Full statement: a text gives the address and the port that it names, or is refused.
    Proved for the well-formed texts: dotted decimal without superfluous zeros, IPv6 in brackets, each with or without a port below
    65536 - whatever the stack held.  Other texts: see the refutations below. *)
Theorem C72_reads_partial stale sport dport s x : 0 <= dport < 65536 -> denotes dport s x -> convert stale sport dport s = Ret (Some x).
Proof. apply convert_ok. Qed.
Print Assumptions C72_reads_partial.
(** Names of hosts, numbers that are too few, an IPv6 address without its brackets or without the second one are refused. *)
Theorem C72_rejects stale sport dport s : not_address s -> convert stale sport dport s = Ret None.
Proof. apply convert_bad. Qed.
Print Assumptions C72_rejects.
(** The servers of a group: [ps] is the text cut at commas and blanks; of these, without blanks, tabs and dots at both ends and
    without the empty ones, the addresses are used, in order; the others are left out. *)
Theorem C72_servers_partial dport text ps l : 0 <= dport < 65536 -> ~ In 0 text -> splits [44; 32] ps text -> addresses dport (strip_all [9; 32; 46] ps) l ->
  exists f0, forall fuel mem junk, (f0 <= fuel)%nat -> load_services fuel true mem junk dport text = Ret (Some (mk_al l 0)).
Proof.
  intros Hd H0 HS HA. destruct (C37_pieces [44; 32] text) as (_ & U). specialize (U ps HS). subst ps.
  set (P := pieces [44; 32] text) in *.
  exists (S (S (length P))). intros fuel mem junk Hf. unfold load_services.
  destruct (sl_add_ok true mem [] [] text (Some [44; 32]) ltac:(constructor) H0) as (r & s1 & ls1 & E & H1 & Hr & Ec). rewrite E. cbn [bind fst snd]. rewrite (Hr eq_refl) in Ec |- *. cbn [app concat pieces_opt] in Ec. fold P in Ec.
  destruct (trim_all_ok (Some [9; 32; 46]) s1 ls1 fuel H1 ltac:(rewrite Ec; cbn [concat app]; lia)) as (s2 & ls2 & -> & H2 & Ec2). cbn [bind].
  assert (EL : concat ls2 = strip_all [9; 32; 46] P) by (rewrite Ec2, Ec; reflexivity).
  assert (HL : forall g, (length (strip_all g P) <= length P)%nat). { clear. intros g. unfold strip_all. induction P as [|p P IH]; cbn [flat_map length]; [lia|]. rewrite app_length. destruct (strip g p); cbn [length]; lia. }
  specialize (HL [9; 32; 46]).
  rewrite (walk_ok s2 ls2 fuel H2) by (rewrite EL; lia). cbn [bind]. rewrite EL, (add_texts_ok junk dport _ Hd 0 al_init l HA). cbn [bind al_init al_list al_counter app]. reflexivity.
Qed.
Print Assumptions C72_servers_partial.

(** "010.0.0.1" becomes 8.0.0.1. *)
Theorem C72_octal_refuted : dotted [10; 0; 0; 1] [48; 49; 48; 46; 48; 46; 48; 46; 49] /\ forall stale sport dport, exists p,
  convert stale sport dport [48; 49; 48; 46; 48; 46; 48; 46; 49] = Ret (Some (mk_sa false [8; 0; 0; 1] p)).
Proof.
  split; [|intros; eexists; reflexivity]. exists [[48; 49; 48]; [48]; [48]; [49]]. split; [reflexivity|]. split; [repeat constructor; unfold is_byte; lia|]. split; [|reflexivity].
  constructor; [apply (dec_more [48; 49] 1 0); [apply (dec_more [48] 0 1); [apply (dec_one 0); lia|lia]|lia]|]. constructor; [apply (dec_one 0); lia|]. constructor; [apply (dec_one 0); lia|]. constructor; [apply (dec_one 1); lia|]. constructor.
Qed.
Print Assumptions C72_octal_refuted.
(** "300.1.1.1" and "1.2.3.4.5" are not refused but become 255.255.255.255. *)
Theorem C72_range_refuted stale sport dport : exists p,
  convert stale sport dport [51; 48; 48; 46; 49; 46; 49; 46; 49] = Ret (Some (mk_sa false [255; 255; 255; 255] p)) /\
  convert stale sport dport [49; 46; 50; 46; 51; 46; 52; 46; 53] = Ret (Some (mk_sa false [255; 255; 255; 255] p)).
Proof. eexists. split; reflexivity. Qed.
Print Assumptions C72_range_refuted.
(** "1.2.3.4:" gives the port that happens to be on the stack. *)
Theorem C72_port_refuted stale sport dport : 0 <= sport < 65536 -> convert stale sport dport [49; 46; 50; 46; 51; 46; 52; 58] = Ret (Some (mk_sa false [1; 2; 3; 4] sport)).
Proof. intros H. transitivity (Ret (Some (mk_sa false [1; 2; 3; 4] (sport mod 65536)))); [reflexivity|]. rewrite Z.mod_small by exact H. reflexivity. Qed.
Print Assumptions C72_port_refuted.
(** "1.2.3.4:65589" gives port 53. *)
Theorem C72_wrap_refuted stale sport dport : convert stale sport dport [49; 46; 50; 46; 51; 46; 52; 58; 54; 53; 53; 56; 57] = Ret (Some (mk_sa false [1; 2; 3; 4] 53)).
Proof. reflexivity. Qed.
Print Assumptions C72_wrap_refuted.
(** "[1:2:3:4:5:6:7:8:9::]" writes behind the address. *)
Theorem C72_memory_refuted stale sport dport : convert stale sport dport [91; 49; 58; 50; 58; 51; 58; 52; 58; 53; 58; 54; 58; 55; 58; 56; 58; 57; 58; 58; 93] = UBW.
Proof. reflexivity. Qed.
Print Assumptions C72_memory_refuted.
(** A group with no address at all is accepted; the first query then divides by zero. *)
Theorem C72_none_refuted mem junk : exists a, load_services 9 true mem junk 53 [100; 110; 115] = Ret (Some a) /\ al_get a = UBR.
Proof. eexists. split; reflexivity. Qed.
Print Assumptions C72_none_refuted.
Lemma plain_one d : 0 <= d <= 9 -> plain [48 + d] d.
Proof. intros H. split; [apply dec_one, H|]. intros t' E. congruence. Qed.
Lemma denotes_1234 dport : denotes dport [49; 46; 50; 46; 51; 46; 52] (mk_sa false [1; 2; 3; 4] dport).
Proof.
  apply dn_v4. exists [[49]; [50]; [51]; [52]]. split; [reflexivity|]. split; [repeat constructor; unfold is_byte; lia|]. split; [|reflexivity].
  constructor; [apply (plain_one 1); lia|]. constructor; [apply (plain_one 2); lia|]. constructor; [apply (plain_one 3); lia|]. constructor; [apply (plain_one 4); lia|]. constructor.
Qed.
Lemma v6_text_1 : v6_text [0; 0; 0; 0; 0; 0; 0; 1] [58; 58; 49].
Proof.
  split; [left|cbn [length]; lia]. apply (v6_short _ [] [] [1] [[49]]); [constructor| |cbn [length]; lia|reflexivity]. constructor; [|constructor]. split; [apply hex_one, (hx_num 1)|]; lia.
Qed.
(** "1.2.3.4, dns [::1]:853" *)
Example C72_nonvacuous : denotes 53 [91; 58; 58; 49; 93; 58; 56; 53; 51] (mk_sa true (group_bytes [0; 0; 0; 0; 0; 0; 0; 1]) 853) /\
  addresses 53 [[49; 46; 50; 46; 51; 46; 52]; [100; 110; 115]] [mk_sa false [1; 2; 3; 4] 53] /\
  load_services 20 true (fun _ => 7) (fun _ => (fun _ => 9, 9)) 53 [49; 46; 50; 46; 51; 46; 52; 44; 32; 100; 110; 115; 32; 91; 58; 58; 49; 93; 58; 56; 53; 51] =
    Ret (Some (mk_al [mk_sa false [1; 2; 3; 4] 53; mk_sa true (group_bytes [0; 0; 0; 0; 0; 0; 0; 1]) 853] 0)).
Proof.
  split; [|split; [|vm_compute; reflexivity]].
  - apply (dn_v6_port 53 _ [58; 58; 49] [56; 53; 51] 853 v6_text_1); [|lia]. apply (dec_more [56; 53] 85 3); [|lia]. apply (dec_more [56] 8 5); [|lia]. apply (dec_one 8). lia.
  - apply ad_one; [apply denotes_1234|]. apply ad_skip; [|apply ad_none]. left. split; [intros [X|[X|[X|[]]]]; discriminate|]. left. vm_compute. auto.
Qed.

(** * C73 *)
(** Full statement: the program listens on exactly the interfaces that are configured and that the system lets it use.
    Proved if every item is well-formed or recognisably not an address, and no call of listen fails: the interfaces of [l], in order;
    nothing is left open besides; the start fails (163) if there is none.  [v6]: what it was before. *)
Theorem C73_opens_partial tcp os junk v6 items l : opens os 0 items l ->
  exists cl, frontend_init tcp os junk v6 (Some items) = Ret (if Nat.eqb (length l) 0 then -163 else 0, mk_op l cl [] (existsb (fun x => sa_v6 (snd x)) l || v6)).
Proof.
  intros H. unfold frontend_init. destruct (open_loop_ok tcp os junk items 0 (mk_op [] [] [] v6) l H) as (cl & ->). exists cl. reflexivity.
Qed.
Print Assumptions C73_opens_partial.
(** If listen fails for one interface the socket stays open, unused, and the interfaces behind it are not opened. *)
Theorem C73_listen_refuted junk v6 : let x := [49; 46; 50; 46; 51; 46; 52] in let y := [91; 58; 58; 49; 93] in
  frontend_init true (fun i _ => if Nat.eqb i 0 then NoListen 7 else Opened 8) junk v6 (Some [x; y]) = Ret (-163, mk_op [] [] [7] v6) /\
  (exists a, denotes 53 y a).
Proof. cbv zeta. split; [reflexivity|]. eexists. apply (dn_v6 53 _ [58; 58; 49] v6_text_1). Qed.
Print Assumptions C73_listen_refuted.
Example C73_nonvacuous : let os := fun i (a : saddr) => match i with O => Opened 5 | S O => NoBind 6 | _ => Opened 7 end in
  opens os 0 [[49; 46; 50; 46; 51; 46; 52]; [49; 46; 50; 46; 51; 46; 52]; [100; 110; 115]; [91; 58; 58; 49; 93]]
    [(5, mk_sa false [1; 2; 3; 4] 53); (7, mk_sa true (group_bytes [0; 0; 0; 0; 0; 0; 0; 1]) 53)].
Proof.
  cbv zeta. eapply os_open; [apply denotes_1234|reflexivity|]. eapply os_fail; [apply denotes_1234|right; eauto|]. apply os_skip; [left; split; [intros [X|[X|[X|[]]]]; discriminate|left; vm_compute; auto]|].
  eapply os_open; [apply (dn_v6 53 _ [58; 58; 49] v6_text_1)|reflexivity|]. apply os_none.
Qed.

(** * C74 *)
Definition loopback (v6 : bool) (port : Z) : saddr := mk_sa v6 (if v6 then [0; 0; 0; 0; 0; 0; 0; 0; 0; 0; 0; 0; 0; 0; 0; 1] else [127; 0; 0; 1]) port.
Definition taken (r : sockres) : option Z := match r with NoSocket | NoBind _ => None | NoListen fd | Opened fd => Some fd end.
Lemma loopback_text (v6 : bool) port : denotes port (if v6 then [91; 58; 58; 49; 93] else [49; 50; 55; 46; 48; 46; 48; 46; 49]) (loopback v6 port).
Proof.
  destruct v6; [apply (dn_v6 port _ [58; 58; 49] v6_text_1)|]. apply dn_v4. exists [[49; 50; 55]; [48]; [48]; [49]]. split; [reflexivity|]. split; [repeat constructor; unfold is_byte; lia|]. split; [|reflexivity].
  constructor; [split; [|intros t' E; discriminate]; apply (dec_more [49; 50] 12 7); [apply (dec_more [49] 1 2); [apply (dec_one 1); lia|lia]|lia]|]. constructor; [apply (plain_one 0); lia|]. constructor; [apply (plain_one 0); lia|]. constructor; [apply (plain_one 1); lia|]. constructor.
Qed.
Lemma try_bind_ok os junk v6 start : forall left k, 0 <= start -> start + Z.of_nat k + Z.of_nat left <= 65536 ->
  match try_bind left os junk v6 start k with
  | Ret (Some (fd, a)) => exists j, (k <= j < k + left)%nat /\ a = loopback v6 (start + Z.of_nat j) /\ taken (os j a) = Some fd /\ forall i, (k <= i < j)%nat -> taken (os i (loopback v6 (start + Z.of_nat i))) = None
  | Ret None => forall i, (k <= i < k + left)%nat -> taken (os i (loopback v6 (start + Z.of_nat i))) = None
  | _ => False
  end.
Proof.
  induction left as [|left IH]; intros k H0 H1; cbn [try_bind]; [intros i Hi; lia|].
  rewrite (convert_ok (fst (junk k)) (snd (junk k)) (start + Z.of_nat k) _ _ ltac:(lia) (loopback_text v6 (start + Z.of_nat k))). cbn [bind].
  assert (HN : taken (os k (loopback v6 (start + Z.of_nat k))) = None -> match try_bind left os junk v6 start (S k) with
    | Ret (Some (fd, a)) => exists j, (k <= j < k + S left)%nat /\ a = loopback v6 (start + Z.of_nat j) /\ taken (os j a) = Some fd /\ forall i, (k <= i < j)%nat -> taken (os i (loopback v6 (start + Z.of_nat i))) = None
    | Ret None => forall i, (k <= i < k + S left)%nat -> taken (os i (loopback v6 (start + Z.of_nat i))) = None
    | _ => False
    end).
  { intros HT. specialize (IH (S k) H0 ltac:(lia)). destruct (try_bind left os junk v6 start (S k)) as [[(fd, a)|]| | |]; try contradiction.
    - destruct IH as (j & Hj & Ha & Ht & Hi). exists j. split; [lia|]. split; [exact Ha|]. split; [exact Ht|]. intros i Hk. destruct (Nat.eq_dec i k) as [->|]; [exact HT|apply Hi; lia].
    - intros i Hi. destruct (Nat.eq_dec i k) as [->|]; [exact HT|apply IH; lia]. }
  destruct (os k (loopback v6 (start + Z.of_nat k))) as [|f|f|f] eqn:EO; [apply HN; reflexivity|apply HN; reflexivity| |];
    (exists k; split; [lia|]; split; [reflexivity|]; split; [rewrite EO; reflexivity|]; intros i Hi; lia).
Qed.
(** The internal sockets are bound to the loopback interface, to the first of the 10000 ports from the given one on that the system
    grants; if there is none there is no socket. *)
Theorem C74_loopback os junk v6 start : 0 <= start <= 55536 -> exists r, try_bind_local os junk v6 start = Ret r /\
  match r with
  | Some (fd, a) => exists k, Z.of_nat k < 10000 /\ a = loopback v6 (start + Z.of_nat k) /\ taken (os k a) = Some fd /\ forall i, (i < k)%nat -> taken (os i (loopback v6 (start + Z.of_nat i))) = None
  | None => forall i, Z.of_nat i < 10000 -> taken (os i (loopback v6 (start + Z.of_nat i))) = None
  end.
Proof.
  intros H. unfold try_bind_local. pose proof (try_bind_ok os junk v6 start (Z.to_nat 10000) 0 ltac:(lia) ltac:(rewrite Z2Nat.id; lia)) as X. destruct (try_bind (Z.to_nat 10000) os junk v6 start 0) as [[(fd, a)|]| | |]; try contradiction; eexists; (split; [reflexivity|]).
  - destruct X as (j & Hj & Ha & Ht & Hi). exists j. split; [lia|]. split; [exact Ha|]. split; [exact Ht|]. intros i Hk. apply Hi. lia.
  - intros i Hi. apply X. lia.
Qed.
Print Assumptions C74_loopback.
Example C74_nonvacuous : try_bind_local (fun i _ => match i with O => NoBind 3 | S O => NoSocket | _ => Opened 4 end) (fun _ => (fun _ => 1, 1)) false 10300 = Ret (Some (4, loopback false 10302)).
Proof. vm_compute. reflexivity. Qed.
