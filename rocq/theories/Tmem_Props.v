(** C91: what a server group takes from the heap and gives back. *)
From Verif Require Import Base Tmem_Model.

(** Specification: the blocks in use after some steps; None when a block is freed that is not in use (as when it is freed twice), which is undefined. *)
Definition block_eq_dec : forall a b : block, {a = b} + {a <> b}.
Proof. decide equality. Defined.
Fixpoint in_use (live : list block) (es : list event) : option (list block) :=
  match es with
  | [] => Some live
  | Alloc b :: r => in_use (b :: live) r
  | Free b :: r => if in_dec block_eq_dec b live then in_use (remove block_eq_dec b live) r else None
  end.
(** The place where the initialisation of a TCP group stops: the first of its steps that fails; step 7 also for want of a server, step 12 also for want of a proxy. *)
Definition stops (fails : nat -> bool) (servers : nat) (proxies : option nat) (k : nat) : Prop :=
  (k < match proxies with None => 8 | Some _ => 13 end)%nat /\ (fails k = true \/ k = 7%nat /\ servers = 0%nat \/ k = 12%nat /\ proxies = Some 0%nat) /\
  forall j, (j < k)%nat -> fails j = false /\ (j = 7%nat -> servers <> 0%nat).
(** What is lost when it stops at step [k]. *)
Definition lost (k : nat) : list block :=
  match k with
  | 2 => [BPuller] | 4 => [BAddrs] | 6 | 7 => [BFams; BPtrs] | _ => [] end%nat.

(** A UDP group gives everything back exactly once, whatever fails and whether it was set up or not. *)
Theorem C91_udp : forall fails servers parallel, in_use [] (udp_mem fails servers parallel) = Some [].
Proof.
  intros f n p. unfold udp_mem, udp_mem_init, udp_mem_cleanup, has_list. destruct (f 0%nat), (f 1%nat), p, n, (f 2%nat), (f 3%nat); reflexivity.
Qed.
Print Assumptions C91_udp.

(** When nothing fails a TCP group is set up iff it has a server and, with proxies, a proxy. *)
Theorem C91_set_up : forall fails servers proxies, fst (tcp_mem_init fails servers proxies) = true <-> (forall k, ~ stops fails servers proxies k).
Proof.
  intros f n p. split.
  - intros H k (A & B & C). unfold tcp_mem_init, init_proxies in H.
    destruct (f 0%nat) eqn:E0; [discriminate H|]. destruct (f 1%nat) eqn:E1; [discriminate H|]. destruct (f 2%nat) eqn:E2; [discriminate H|].
    destruct (f 3%nat) eqn:E3; [discriminate H|]. destruct (f 4%nat) eqn:E4; [discriminate H|]. destruct (f 5%nat) eqn:E5; [discriminate H|].
    destruct (f 6%nat) eqn:E6; [discriminate H|]. destruct (f 7%nat) eqn:E7; [discriminate H|]. destruct n as [|n]; [discriminate H|]. cbn [Nat.eqb orb] in H.
    destruct p as [np|].
    + destruct (f 8%nat) eqn:E8; [discriminate H|]. destruct (f 9%nat) eqn:E9; [discriminate H|]. destruct (f 10%nat) eqn:E10; [discriminate H|].
      destruct (f 11%nat) eqn:E11; [discriminate H|]. destruct (f 12%nat) eqn:E12; [discriminate H|]. destruct np; [discriminate H|].
      destruct B as [B | [[-> B] | [-> B]]]; try congruence.
      do 13 (destruct k as [|k]; [congruence|]). lia.
    + destruct B as [B | [[-> B] | [-> B]]]; try congruence. do 8 (destruct k as [|k]; [congruence|]). lia.
  - intros H.
    assert (K : forall k, (k < match p with None => 8 | Some _ => 13 end)%nat -> (forall j, (j < k)%nat -> f j = false /\ (j = 7%nat -> n <> 0%nat)) ->
      f k = false /\ (k = 7%nat -> n <> 0%nat) /\ (k = 12%nat -> p <> Some 0%nat)).
    { intros k A C. specialize (H k). unfold stops in H. destruct (f k) eqn:E; [exfalso; apply H; auto|]. split; [reflexivity|].
      split; intros -> Q; apply H; repeat split; try (apply C; assumption); auto. }
    assert (F : forall k, (k < match p with None => 8 | Some _ => 13 end)%nat -> f k = false /\ (k = 7%nat -> n <> 0%nat) /\ (k = 12%nat -> p <> Some 0%nat)).
    { induction k as [k IH] using lt_wf_ind. intros A. apply K; [assumption|]. intros j L. destruct (IH j L) as (X & Y & _); [lia|]. auto. }
    clear H K. unfold tcp_mem_init, init_proxies.
    destruct p as [np|].
    + assert (G : forall k, (k < 13)%nat -> f k = false) by (intros k L; apply F, L).
      destruct (F 7%nat) as (_ & N & _); [lia|]. destruct (F 12%nat) as (_ & _ & P); [lia|].
      rewrite !G by lia. destruct n; [exfalso; apply N; reflexivity|]. destruct np; [exfalso; apply P; reflexivity|]. reflexivity.
    + assert (G : forall k, (k < 8)%nat -> f k = false) by (intros k L; apply F, L).
      destruct (F 7%nat) as (_ & N & _); [lia|]. rewrite !G by lia. destruct n; [exfalso; apply N; reflexivity|]. reflexivity.
Qed.
Print Assumptions C91_set_up.

(** A TCP group that is not set up, exactly: it frees its servers' addresses twice iff it has a server and came past step 5 (the proxies name no address, or an
    allocation fails after the servers' addresses were read); else it frees nothing twice and loses what [lost] says: the puller when there is no local port, the
    addresses when the text cannot be split, the lists of a group without servers. *)
Theorem C91_stops : forall fails servers proxies k, stops fails servers proxies k ->
  in_use [] (tcp_mem fails servers proxies) = (if (Nat.leb 6 k && Nat.leb 1 servers)%bool then None else Some (lost k)).
Proof.
  intros f n p k (A & B & C). assert (G : forall j, (j < k)%nat -> f j = false) by (intros j L; apply C, L).
  unfold tcp_mem, tcp_mem_init, init_proxies, tcp_mem_cleanup, exit_9, exit_8, exit_7, exit_6, exit_5, exit_4.
  do 7 (destruct k as [|k]; [rewrite ?G by lia; destruct B as [-> | [[B _] | [B _]]]; [|lia|lia]; destruct n; reflexivity|]).
  destruct k as [|k].
  { rewrite ?G by lia. destruct B as [-> | [[_ ->] | [B _]]]; [| |lia].
    - destruct n; reflexivity.
    - destruct (f 7%nat); reflexivity. }
  assert (N : n <> 0%nat) by (apply (C 7%nat); lia). destruct n as [|n]; [exfalso; apply N; reflexivity|]. destruct p as [np|]; [|lia].
  do 4 (destruct k as [|k]; [rewrite ?G by lia; destruct B as [-> | [[B _] | [B _]]]; [|lia|lia]; destruct np; reflexivity|]).
  destruct k as [|k]; [|lia]. rewrite ?G by lia. destruct B as [-> | [[B _] | [_ B]]]; [|lia|].
  - destruct np; reflexivity.
  - assert (np = 0%nat) as -> by congruence. destruct (f 12%nat); reflexivity.
Qed.
Print Assumptions C91_stops.

(** How often a block is taken and given back. *)
Definition taken (b : block) (es : list event) : nat := length (filter (fun e => match e with Alloc c => if block_eq_dec b c then true else false | Free _ => false end) es).
Definition given (b : block) (es : list event) : nat := length (filter (fun e => match e with Free c => if block_eq_dec b c then true else false | Alloc _ => false end) es).
Definition in_list (b : block) (l : list block) : nat := if in_dec block_eq_dec b l then 1%nat else 0%nat.

(** Block by block, a TCP group with a server that stops past step 5: the addresses of the servers are given back once too often, those of the proxies as well once they are
    read; the pointers and families, the pullers of the servers once made, and the pointers and families of the proxies are not given back; all else is, exactly once. *)
Theorem C91_each : forall fails servers proxies k, stops fails servers proxies k -> (6 <= k)%nat -> (1 <= servers)%nat -> forall b,
  (given b (tcp_mem fails servers proxies) + in_list b ([BPtrs; BFams] ++ (if Nat.leb 8 k then [BAgents] else []) ++ (if Nat.leb 11 k then [BProxyPtrs; BProxyFams] else [])) =
   taken b (tcp_mem fails servers proxies)
   + in_list b (BAddrs :: match proxies with Some (S _) => if Nat.leb 11 k then [BProxyAddrs] else [] | _ => [] end))%nat.
Proof.
  intros f n p k (A & B & C) K N b. assert (G : forall j, (j < k)%nat -> f j = false) by (intros j L; apply C, L). destruct n as [|n]; [lia|].
  unfold tcp_mem, tcp_mem_init, init_proxies, tcp_mem_cleanup, exit_9, exit_8, exit_7, exit_6, exit_5, exit_4.
  do 6 (destruct k as [|k]; [lia|]).
  do 2 (destruct k as [|k]; [rewrite ?G by lia; destruct B as [-> | [[_ B] | [B _]]]; [|lia|lia]; destruct p as [[|np]|]; destruct b; reflexivity|]).
  destruct p as [np|]; [|lia].
  do 4 (destruct k as [|k]; [rewrite ?G by lia; destruct B as [-> | [[B _] | [B _]]]; [|lia|lia]; destruct np; destruct b; reflexivity|]).
  destruct k as [|k]; [|lia]. rewrite ?G by lia. destruct B as [-> | [[B _] | [_ B]]]; [|lia|].
  - destruct np; destruct b; reflexivity.
  - assert (np = 0%nat) as -> by congruence. destruct (f 12%nat); destruct b; reflexivity.
Qed.
Print Assumptions C91_each.

(** Block by block, a TCP group with proxies from its start to its end: the addresses of the proxies are given back once too often; the pullers of the servers and of the
    proxies and the pointers to the proxies' addresses are not given back; all else is, exactly once. *)
Theorem C91_proxies_each : forall fails servers np, (forall k, ~ stops fails servers (Some np) k) -> forall b,
  (given b (tcp_mem fails servers (Some np)) + in_list b [BAgents; BProxyPtrs; BProxyPullers] = taken b (tcp_mem fails servers (Some np)) + in_list b [BProxyAddrs])%nat.
Proof.
  intros f n np H b. pose proof (proj2 (C91_set_up f n (Some np)) H) as E. unfold tcp_mem. unfold tcp_mem_init, init_proxies in *.
  destruct (f 0%nat); [discriminate E|]. destruct (f 1%nat); [discriminate E|]. destruct (f 2%nat); [discriminate E|].
  destruct (f 3%nat); [discriminate E|]. destruct (f 4%nat); [discriminate E|]. destruct (f 5%nat); [discriminate E|].
  destruct (f 6%nat); [discriminate E|]. destruct (f 7%nat); [discriminate E|]. destruct n as [|n]; [discriminate E|].
  destruct (f 8%nat); [discriminate E|]. destruct (f 9%nat); [discriminate E|]. destruct (f 10%nat); [discriminate E|].
  destruct (f 11%nat); [discriminate E|]. destruct (f 12%nat); [discriminate E|]. destruct np as [|np]; [discriminate E|]. destruct b; reflexivity.
Qed.
Print Assumptions C91_proxies_each.

(** A TCP group without proxies that is set up gives everything back exactly once at its end, but for the pullers of its servers (partial: they are lost). *)
Theorem C91_plain_partial : forall fails servers, (forall k, ~ stops fails servers None k) -> in_use [] (tcp_mem fails servers None) = Some [BAgents].
Proof.
  intros f n H. pose proof (proj2 (C91_set_up f n None) H) as E. unfold tcp_mem. unfold tcp_mem_init, init_proxies in *.
  destruct (f 0%nat); [discriminate E|]. destruct (f 1%nat); [discriminate E|]. destruct (f 2%nat); [discriminate E|].
  destruct (f 3%nat); [discriminate E|]. destruct (f 4%nat); [discriminate E|]. destruct (f 5%nat); [discriminate E|].
  destruct (f 6%nat); [discriminate E|]. destruct (f 7%nat); [discriminate E|]. destruct n as [|n]; [discriminate E|]. reflexivity.
Qed.
Print Assumptions C91_plain_partial.

(** A TCP group with proxies that is set up frees the addresses of its proxies twice at its end, whatever its servers and proxies. *)
Theorem C91_proxies_refuted : forall fails servers np, (forall k, ~ stops fails servers (Some np) k) -> in_use [] (tcp_mem fails servers (Some np)) = None.
Proof.
  intros f n np H. pose proof (proj2 (C91_set_up f n (Some np)) H) as E. unfold tcp_mem. unfold tcp_mem_init, init_proxies in *.
  destruct (f 0%nat); [discriminate E|]. destruct (f 1%nat); [discriminate E|]. destruct (f 2%nat); [discriminate E|].
  destruct (f 3%nat); [discriminate E|]. destruct (f 4%nat); [discriminate E|]. destruct (f 5%nat); [discriminate E|].
  destruct (f 6%nat); [discriminate E|]. destruct (f 7%nat); [discriminate E|]. destruct n as [|n]; [discriminate E|].
  destruct (f 8%nat); [discriminate E|]. destruct (f 9%nat); [discriminate E|]. destruct (f 10%nat); [discriminate E|].
  destruct (f 11%nat); [discriminate E|]. destruct (f 12%nat); [discriminate E|]. destruct np as [|np]; [discriminate E|]. reflexivity.
Qed.
Print Assumptions C91_proxies_refuted.

(** Nothing fails, the group has a server, and its proxies name no address: the addresses of its servers are freed twice. *)
Theorem C91_init_refuted : exists fails servers proxies, (forall k, fails k = false) /\ (0 < servers)%nat /\ in_use [] (tcp_mem fails servers proxies) = None.
Proof. exists (fun _ => false), 2%nat, (Some 0%nat). repeat split. lia. Qed.
Print Assumptions C91_init_refuted.

(** The hypotheses are met: a group with two servers is set up, with one proxy too; one without a local port stops at step 2; the blocks of a UDP group. *)
Example C91_nonvacuous :
  (forall k, ~ stops (fun _ => false) 2 None k) /\ (forall k, ~ stops (fun _ => false) 2 (Some 1%nat) k) /\ stops (Nat.eqb 2) 3 None 2 /\
  in_use [] (tcp_mem (Nat.eqb 2) 3 None) = Some [BPuller] /\ stops (fun _ => false) 2 (Some 0%nat) 12 /\
  in_use [] (snd (tcp_mem_init (fun _ => false) 1 None)) = Some [BAgents; BAgentPtrs; BQueryPuller; BFams; BPtrs; BAddrs; BPuller; BContext] /\
  snd (udp_mem_init (fun _ => false) 1 true) = [Alloc BText; Alloc BAddrs; Free BText; Alloc BParallels; Alloc BContext].
Proof.
  split; [apply C91_set_up; reflexivity|]. split; [apply C91_set_up; reflexivity|].
  split. { split; [lia|]. split; [left; reflexivity|]. intros j L. split; [|lia]. destruct j as [|[|j]]; [reflexivity|reflexivity|lia]. }
  split; [reflexivity|]. split. { split; [lia|]. split; [right; right; auto|]. intros j L. split; [reflexivity|lia]. }
  split; reflexivity.
Qed.
