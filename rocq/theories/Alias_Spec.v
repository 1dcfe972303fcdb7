(** Answering from the cache: following aliases, on the plain list of the stored records. *)
From Verif Require Import Base Hash_Model Gen_Model Cht_Model Cache_Model Cache_Spec.

Section Alias.
Context (ignore : bool).
(** The newest servable alias of a name. *)
Definition alias (A : list entry) (name : list Z) (now : Z) : option entry :=
  find (fun e => same_key name 5 1 e && fresh ignore now e) A.

(** Following the aliases from [name] on; each goes into the answer [g] as a CNAME record of the (to be compressed) name "a".
    The result: 0 and the name that has no alias, or -5 when a record does not fit. *)
Inductive follow (A : list entry) (now : Z) : list Z -> gen -> Z -> list Z -> gen -> Prop :=
| fo_end name g : alias A name now = None -> follow A now name g 0 name g
| fo_step name g e s g1 code name' g' : alias A name now = Some e -> e_data e = s ++ [0] ->
    gen_cname [97] s (remaining ignore now e) g = Ret (0, g1) -> follow A now s g1 code name' g' -> follow A now name g code name' g'
| fo_full name g e s code g1 : alias A name now = Some e -> e_data e = s ++ [0] ->
    gen_cname [97] s (remaining ignore now e) g = Ret (code, g1) -> code <> 0 -> follow A now name g (-5) name g1.
End Alias.

(** What ToCacheData gives: for names (CNAME, PTR, NS) a text of at most 253 bytes with its terminator, for MX two bytes and
    such a text. *)
Definition text_data (d : list Z) : Prop := exists s, d = s ++ [0] /\ ~ In 0 s /\ (length s <= 253)%nat.
Definition data_ok (ty : Z) (d : list Z) : Prop :=
  (ty = 5 \/ ty = 12 \/ ty = 2 -> text_data d) /\ (ty = 15 -> exists a b d', d = a :: b :: d' /\ text_data d').
Definition op_data_ok (o : op) : Prop := match o with OAdd _ r _ => data_ok (r_type r) (r_data r) | OSweep _ => True end.

(** A message under construction: the header is there, the writing position is inside. *)
Definition started (g : gen) : Prop := (12 <= g_itr g <= length (g_buf g))%nat /\ In (g_num g) [4; 6; 8; 10; 12]%nat.
Definition raw_type (ty : Z) : Prop := ty = 1 \/ ty = 28 \/ ty = 65 \/ ty = 16.
