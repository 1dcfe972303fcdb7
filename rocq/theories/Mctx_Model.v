(** Model of the table of pending queries (mcontext.c). *)
From Verif Require Import Base Hash_Model Bst_Model.

(** struct _IHeader, iheader.h 13-36.  Parent is the address of another header; BackAddress is its family and
    bytes ([None] is AF_UNSPEC); TcpLengthRaw is a place holder and left out. *)
Record iheader := mk_ih {
  h_parent : option nat; h_reqtcp : bool; h_time : Z; h_back : option (list Z); h_sock : Z;
  h_domain : list Z; h_hash : Z; h_type : Z; h_rethdr : bool; h_edns : bool; h_len : Z; h_agent : list Z }.

(** MsgContext: the header and the entity (the message) that follows it, iheader.h 40-48. *)
Record mctx := mk_ctx { c_h : iheader; c_entity : list Z }.

(** DNSGetQueryIdentifier, dnsparser.h 17: the first two bytes of the message.  The entity is a buffer of
    fixed size, so that they always exist. *)
Definition ctx_id (c : mctx) : Z := match get16 (c_entity c) 0 with Some v => v | None => 0 end.

(** ModuleContextCompare, 117-130.  HashValue is uint32_t; the difference is converted to int. *)
Definition ctx_cmp (a b : mctx) : Z :=
  if negb (ctx_id a =? ctx_id b) then ctx_id a - ctx_id b else to_int32 (h_hash (c_h a) - h_hash (c_h b)).

(** IHeader_Reset, iheader.c 10-19. *)
Definition ih_reset (h : iheader) : iheader :=
  mk_ih None false (h_time h) None (h_sock h) [] 0 (h_type h) (h_rethdr h) false (h_len h) [].

(** Assignment to the header's Timestamp, in ModuleContext_Add, mcontext.c 58-71. *)
Definition set_time (c : mctx) (now : Z) : mctx :=
  let h := c_h c in
  mk_ctx (mk_ih (h_parent h) (h_reqtcp h) now (h_back h) (h_sock h) (h_domain h) (h_hash h) (h_type h) (h_rethdr h) (h_edns h) (h_len h) (h_agent h))
         (c_entity c).

(** ModuleContext_Add, 58-71. *)
Definition mc_add (b : bst mctx) (c : mctx) (now : Z) : outcome (nat * bst mctx) := bst_add ctx_cmp b (set_time c now).

(** ModuleContext_Find, 73-76; ModuleContext_Del, 78-81. *)
Definition mc_find (b : bst mctx) (c : mctx) : outcome (option nat) := bst_search ctx_cmp b c None.
(** ModuleContext_Del, mcontext.c 78-81. *)
Definition mc_del (b : bst mctx) (a : nat) : outcome (bst mctx) := bst_delete b a.

(** ModuleContext_GenAnswerHeaderAndRemove, 83-115, with Input == Output as udpm.c and tcpm.c have it (hosts.c has not:
    Redir_Model.mc_answer_to): result code and the message afterwards. *)
Definition mc_answer (b : bst mctx) (input : mctx) : outcome (Z * mctx * bst mctx) :=
  let! r := mc_find b input in
  match r with
  | None => Ret (-60, input, b)
  | Some a =>
    let! n := deref b a in
    let h := c_h (n_data n) in
    let out := mk_ctx (mk_ih (h_parent h) (h_reqtcp h) (h_time h) (h_back h) (h_sock h) (h_domain h) (h_hash h) (h_type h)
                             (h_rethdr h) (h_edns (c_h input)) (h_len (c_h input)) (h_agent h)) (c_entity input) in
    let b1 := store b a (mk_node (n_par n) (n_left n) (n_right n) (mk_ctx (ih_reset h) (c_entity (n_data n)))) in
    let! b2 := bst_delete b1 a in
    Ret (0, out, b2)
  end.

(** ModuleContext_Sweep_Collect, 6-17: the pointers pushed to the array so far.  One sweep reads the clock
    for each element; the model takes the same value [now] for all. *)
Definition collect (now : Z) (acc : list nat) (a : nat) (c : mctx) : list nat * bool :=
  (if 2 <? now - h_time (c_h c) then acc ++ [a] else acc, false).

(** 41-53: callback (its calls are returned, with their number) and deletion. *)
Fixpoint sweep_loop (b : bst mctx) (i : Z) (l : list nat) : outcome (list (mctx * Z) * bst mctx) :=
  match l with
  | [] => Ret ([], b)
  | a :: l' =>
    let! n := deref b a in
    let! b1 := bst_delete b a in
    let! r := sweep_loop b1 (i + 1) l' in
    Ret ((n_data n, i + 1) :: fst r, snd r)
  end.

(** ModuleContext_Sweep, 19-56. *)
Definition mc_sweep (b : bst mctx) (now : Z) : outcome (list (mctx * Z) * bst mctx) :=
  let! l := bst_enum b (collect now) [] in sweep_loop b 0 l.

(** What the users of the table do (udpm.c, tcpm.c, hosts.c), each step under the module's lock. mcontext.c 19-115, as called from udpm.c and tcpm.c. *)
Inductive mop := MQuery (c : mctx) (now : Z) | MReply (c : mctx) | MSweep (now : Z).
(** What these calls bring about, mcontext.c 6-115. *)
Inductive mevent := EAdded (c : mctx) | EDelivered (c : mctx) | EIgnored | ETimeout (l : list (mctx * Z)).
(** One call: ModuleContext_Add 58-71, ModuleContext_GenAnswerHeaderAndRemove 83-115 or ModuleContext_Sweep 19-56 of mcontext.c. *)
Definition mc_step (b : bst mctx) (o : mop) : outcome (mevent * bst mctx) :=
  match o with
  | MQuery c now => let! r := mc_add b c now in Ret (EAdded (set_time c now), snd r)
  | MReply c => let! r := mc_answer b c in
                Ret (if fst (fst r) =? 0 then EDelivered (snd (fst r)) else EIgnored, snd r)
  | MSweep now => let! r := mc_sweep b now in Ret (ETimeout (fst r), snd r)
  end.
(** A sequence of calls, mcontext.c 19-115. *)
Fixpoint mc_run (b : bst mctx) (os : list mop) : outcome (list mevent * bst mctx) :=
  match os with
  | [] => Ret ([], b)
  | o :: os' => let! r := mc_step b o in let! r' := mc_run (snd r) os' in Ret (fst r :: fst r', snd r')
  end.
