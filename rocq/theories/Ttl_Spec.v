(** CacheControl rules as documented in default.en.config, 426-510. *)
From Verif Require Import Base Hash_Model Chunk_Model Chunk_Spec Cht_Model Gen_Model Cache_Model Cache_Spec Ttl_Model.

Inductive contagion := Actively | Passively | NoContagion.
Inductive treatment := Orig | NoCache | Fixed (n : Z) | Vari (a b : Z).
Record drule := mk_rule { d_domain : list Z; d_cont : contagion; d_treat : treatment }.

(** The rule that applies to a name: of the closest enclosing domain, else the first pattern that matches. *)
Definition data_of (rs : list drule) : list (list Z * option drule) := map (fun r => (d_domain r, Some r)) rs.
Definition rule_for (fn : list Z -> list Z -> bool) (rs : list drule) (s : list Z) (o : option drule) : Prop :=
  exists p w, closest (map undotted (data_of rs)) (fun _ => true) s p /\ first_wild fn (map undotted (data_of rs)) (fun _ => true) s w /\
    option_map Some o = match p with Some d => Some d | None => w end.

(** The rule that counts for a record: [q] is the rule of the queried domain, [own] that of the record's name. *)
Definition select (q own : option drule) : option drule :=
  match q with
  | None => own
  | Some r => match d_cont r with
              | Actively => q
              | Passively => match own with Some _ => own | None => q end
              | NoContagion => own
              end
  end.
(** The lifetime; 0 is not to store. *)
Definition doc_life (o : option drule) (ttl : Z) : Z :=
  match o with
  | None => ttl
  | Some r => match d_treat r with Orig => ttl | NoCache => 0 | Fixed n => n | Vari a b => a * ttl + b end
  end.

(** OverrideTTL is a rule "* fixed n" and MultipleTTL a rule "* vari nx+0". *)
Definition global_rule (override multiple : Z) : list drule :=
  if -1 <? override then [mk_rule [42] Passively (Fixed override)]
  else if 1 <? multiple then [mk_rule [42] Passively (Vari multiple 0)] else [].

(** ** The text of a rule *)
Definition spaces (s : list Z) : Prop := forall c, In c s -> c = 32 \/ 9 <= c <= 13.
Definition gap (s : list Z) : Prop := s <> [] /\ spaces s.
Definition word (s : list Z) : Prop := s <> [] /\ forall c, In c s -> c <> 32 /\ ~ 9 <= c <= 13.
(** Decimal digits [ds] writing the number [v]. *)
Inductive decimal : list Z -> Z -> Prop :=
| dec_one d : 0 <= d <= 9 -> decimal [48 + d] d
| dec_more ds v d : decimal ds v -> 0 <= d <= 9 -> decimal (ds ++ [48 + d]) (10 * v + d).
Definition cont_text (c : contagion) : list Z := match c with Actively => [] | Passively => [36] | NoContagion => [36; 36] end.
(** Type and argument; "orig" and "nocache" have none (what follows is ignored). *)
Inductive treat_text : treatment -> list Z -> option (list Z) -> Prop :=
| tt_orig : treat_text Orig [111; 114; 105; 103] None
| tt_nocache : treat_text NoCache [110; 111; 99; 97; 99; 104; 101] None
| tt_fixed n ds : decimal ds n -> treat_text (Fixed n) [102; 105; 120; 101; 100] (Some ds)
| tt_vari a b da db : decimal da a -> decimal db b -> treat_text (Vari a b) [118; 97; 114; 105] (Some (da ++ [120; 43] ++ db)).
(** Rules that can be written: the name has at most 127 bytes, the argument at most 63, numbers have 32 bits. *)
Definition small (t : treatment) : Prop :=
  match t with Fixed n => 0 <= n < 4294967296 | Vari a b => 0 <= a < 4294967296 /\ 0 <= b < 4294967296 | _ => True end.
Inductive rule_text (r : drule) : list Z -> Prop :=
| rt_plain w g0 g1 rest : treat_text (d_treat r) w None -> word (d_domain r) -> (length (d_domain r) <= 127)%nat -> spaces g0 -> gap g1 ->
    (rest = [] \/ exists g rest', gap g /\ rest = g ++ rest') ->
    rule_text r (g0 ++ d_domain r ++ g1 ++ cont_text (d_cont r) ++ w ++ rest)
| rt_arg w a g0 g1 g2 rest : treat_text (d_treat r) w (Some a) -> small (d_treat r) -> word (d_domain r) -> (length (d_domain r) <= 127)%nat ->
    (length a <= 63)%nat -> spaces g0 -> gap g1 -> gap g2 -> (rest = [] \/ exists g rest', gap g /\ rest = g ++ rest') ->
    rule_text r (g0 ++ d_domain r ++ g1 ++ cont_text (d_cont r) ++ w ++ g2 ++ a ++ rest).

(** What a message adds: its answers, authority and additional records of class IN and a type that is cached. *)
Definition cached_type (ty : Z) : Prop := In ty [1; 2; 5; 12; 15; 16; 28; 65].
Definition kept (x : Z * crec * Z) : Prop := let '(purpose, r, _) := x in purpose <> 4 /\ cached_type (r_type r) /\ r_class r = 1.
