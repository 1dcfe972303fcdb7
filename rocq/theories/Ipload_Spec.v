(** The address rules a configuration asks for. *)
From Verif Require Import Base Ttl_Spec Addr_Spec Parser_Spec Ip_Spec Line_Props.

(** ** A line with two words *)
Definition blank_char (c : Z) : Prop := c = 32 \/ c = 9.
Definition word (w : list Z) : Prop := w <> [] /\ Forall (fun c => ~ blank_char c) w.
Definition gap (g : list Z) : Prop := g <> [] /\ Forall blank_char g.
(** What stands behind the second word is ignored. *)
Definition two_words (line a b : list Z) : Prop :=
  exists g rest, line = a ++ g ++ b ++ rest /\ word a /\ gap g /\ word b /\ (rest = [] \/ exists c r, rest = c :: r /\ blank_char c).

(** ** The rules of a configuration, as they are written: the text of an address (range) and the text of its substitute, or None to block it *)
Definition entry : Type := list Z * option (list Z).
(** A line with one word only has no rule. *)
Inductive line_entry : list Z -> list entry -> Prop :=
| le_two line a b : two_words line a b -> line_entry line [(a, Some b)]
| le_one w : word w -> line_entry w [].
Inductive all_entries {A} (one : A -> list entry -> Prop) : list A -> list entry -> Prop :=
| ae_nil : all_entries one [] []
| ae_cons x l e es : one x e -> all_entries one l es -> all_entries one (x :: l) (e ++ es).
(** A file whose lines fit in 512 bytes and are read as they are written (C38); no rules if it is not there. *)
Inductive file_entry (open : list Z -> option (list Z)) : list Z -> list entry -> Prop :=
| fe_missing p : open p = None -> file_entry open p []
| fe_file p bs es : open p = Some bs -> Forall (line_ok 512) (file_lines bs) -> end_ok bs -> all_entries line_entry (content bs) es -> file_entry open p es.
(** Address and substitute alternate; a last one without substitute is ignored. *)
Inductive pair_entries : list (list Z) -> list entry -> Prop :=
| pe_nil : pair_entries [] []
| pe_odd a : pair_entries [a] []
| pe_two a b l es : pair_entries l es -> pair_entries (a :: b :: l) ((a, Some b) :: es).
Definition given (o : option (list (list Z))) : list (list Z) := match o with Some l => l | None => [] end.
(** The order is: what is blocked, what is substituted in the configuration, what is substituted in files. *)
Definition asked (open : list Z -> option (list Z)) (blocks subs files : option (list (list Z))) (es : list entry) : Prop :=
  exists e2 e3, es = map (fun t => (t, None)) (given blocks) ++ e2 ++ e3 /\ pair_entries (given subs) e2 /\ all_entries (file_entry open) (given files) e3.

(** ** Their meaning: what has neither a dot nor a colon is not an address and is passed over *)
Definition no_address (t : list Z) : Prop := ~ In 46 t /\ ~ In 58 t.
Inductive means : list rule -> list entry -> Prop :=
| me_nil : means [] []
| me_rule r ip sub rs es : ip_rule_text r ip sub -> means rs es -> means (r :: rs) ((ip, sub) :: es)
| me_skip ip sub rs es : no_address ip -> means rs es -> means rs ((ip, sub) :: es).
