(** What a cache kept in a file should do: a history of a cache in which the program is ended and started again in between. *)
From Verif Require Import Base Hash_Model Gen_Model Cht_Model Cache_Model Cache_Spec Cfile_Model.

(** An operation on the cache, or the program ends and is started again; [pn] and [ps] are the addresses the two arrays had. *)
Inductive ev := Does (o : op) | Restarts (pn ps : Z).
Fixpoint ops_of (es : list ev) : list op :=
  match es with [] => [] | Does o :: r => o :: ops_of r | Restarts _ _ :: r => ops_of r end.

(** A system that refuses nothing. *)
Definition all_granted : grants := mk_gr true true true true.
(** The cache is kept in a file and reloaded from it. *)
Definition kept (cf : cconf) : Prop := cf_use cf = true /\ cf_memory cf = false /\ cf_reload cf = true.
Definition area (cf : cconf) : Z := round_up (cf_size cf) 16.

Section Life.
Context (raw : list Z -> list cnode -> nat -> Z) (ignore parallel : bool) (get : list Z -> option ctrl) (big : Z -> Z).

(** The history of a cache [c] whose file has the bytes [rest] after the area.  [None]: the program did not start again with
    a cache. *)
Fixpoint life (cf : cconf) (c : cache) (rest : list Z) (es : list ev) : outcome (option cache) :=
  match es with
  | [] => Ret (Some c)
  | Does o :: r => let! c' := run_op raw ignore parallel get c o in life cf c' rest r
  | Restarts pn ps :: r =>
    let! x := dns_cache_init big cf all_granted (Some (image pn ps c ++ rest)) in
    match x with
    | (0, Some c', Some f) => life cf c' (skipn (Z.to_nat (area cf)) f) r
    | _ => Ret None
    end
  end.
End Life.

(** The numbers of a history fit the fields of the file: the time is a 64-bit number and no chunk is used again two thousand
    million times. *)
Definition time_ok (o : op) : Prop := -9223372036854775808 <= op_time o < 9223372036854775808.
Definition short (ops : list op) : Prop := Z.of_nat (length ops) < 2147480000.
