(** What becomes of a query that goes on to a server group. *)
From Verif Require Import Base Hash_Model Parser_Spec Gen_Spec Iheader_Spec Iheader_Model Mctx_Model Mctx_Spec Udpm_Model.

(** The message [msg] sent to the client at [back] (None: the client's connection) through [sock]. *)
Definition at_client (back : option (list Z)) (sock : Z) (msg : list Z) : sent :=
  mk_sent sock back (match back with None => be16 (Z.of_nat (length msg) mod 65536) ++ msg | Some _ => msg end).

(** [g] has the identification and the question of [q]. *)
Definition response_to (g q : message) : Prop :=
  firstn 2 (m_idflags g) = firstn 2 (m_idflags q) /\ exists name type, asked g name type /\ asked q name type.

(** No query of [os] has both the identification and the hash of the name of [c]. *)
Definition alone {A} (c : mctx) (os : list (@uop A)) : Prop :=
  forall c2 t ok, In (UQuery c2 t ok) os -> ctx_id c2 <> ctx_id c \/ h_hash (c_h c2) <> h_hash (c_h c).
(** All of [os] is done within two seconds after [now], as far as the removal of old queries is concerned. *)
Definition in_time {A} (now : Z) (os : list (@uop A)) : Prop := forall t, In (USweep t) os -> t <= now + 2.
