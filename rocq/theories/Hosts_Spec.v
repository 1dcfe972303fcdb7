(** What the hosts tables should do, on the list of their lines. *)
From Verif Require Import Base Chunk_Model Chunk_Spec Hosts_Model.

(** What a line says about its domain. *)
Inductive target := V4 (a : ipaddr) | V6 (a : ipaddr) | Alias (s : list Z) | Excluded | IpList (s : list Z).
Notation item := (list Z * target)%type.

Definition digit (c : Z) : Prop := 48 <= c <= 57.
Definition letter (c : Z) : Prop := 65 <= c <= 90 \/ 97 <= c <= 122.
Definition hexdigit (c : Z) : Prop := digit c \/ 65 <= c <= 70 \/ 97 <= c <= 102.
Definition blank (c : Z) : Prop := 9 <= c <= 13 \/ c = 32.

Section S.
Context (fn : list Z -> list Z -> bool) (parse : list Z -> ipaddr) (good : list Z -> option (list Z)).

(** How the first word of a line is read. *)
Inductive reads : list Z -> target -> Prop :=
| R_list : forall x y, ~ In 62 x -> (0 < length x <= 127)%nat -> y = [] \/ last y 0 = 62 -> reads (60 :: x ++ 62 :: y) (IpList x)
| R_excl : forall w, reads (64 :: 64 :: w) Excluded
| R_v6 : forall c w, hexdigit c \/ c = 58 -> In 58 (c :: w) -> reads (c :: w) (V6 (parse (c :: w)))
| R_v4 : forall c w, digit c -> ~ In 58 w -> (forall x, In x w -> ~ letter x /\ x <> 45) -> reads (c :: w) (V4 (parse (c :: w)))
| R_alias_hex : forall c w x, hexdigit c -> ~ In 58 w -> In x (c :: w) -> letter x \/ x = 45 -> reads (c :: w) (Alias (c :: w))
| R_alias : forall c w, ~ hexdigit c -> (forall x, In x (c :: w) -> letter x \/ digit x \/ x = 45 \/ x = 46) -> reads (c :: w) (Alias (c :: w)).
(** A first word that is not read at all: its line is skipped. *)
Definition unreadable (w : list Z) : Prop :=
  exists c w', w = c :: w' /\ ~ hexdigit c /\ c <> 58 /\ (exists x, In x w /\ ~ letter x /\ ~ digit x /\ x <> 45 /\ x <> 46) /\
    ~ (c = 60 /\ last w 0 = 62) /\ ~ (exists w2, w = 64 :: 64 :: w2).

(** A line of two words (each of at most 128 characters) and possibly more. *)
Definition word (w : list Z) : Prop := w <> [] /\ (length w <= 128)%nat /\ forall c, In c w -> ~ blank c.
Definition two_words (line w1 w2 : list Z) : Prop :=
  exists b1 b2 rest, line = b1 ++ w1 ++ b2 ++ w2 ++ rest /\ word w1 /\ word w2 /\ (forall c, In c b1 -> blank c) /\
    b2 <> [] /\ (forall c, In c b2 -> blank c) /\ match rest with [] => True | c :: _ => blank c end.
(** At most one word. *)
Definition incomplete (line : list Z) : Prop :=
  (forall c, In c line -> blank c) \/
  exists b1 w b2, line = b1 ++ w ++ b2 /\ word w /\ (forall c, In c b1 -> blank c) /\ (forall c, In c b2 -> blank c).

(** The items that lines list, in order. *)
Inductive listed : list (list Z) -> list item -> Prop :=
| L_nil : listed [] []
| L_item : forall line w1 w2 t ls its, two_words line w1 w2 -> reads w1 t -> listed ls its -> listed (line :: ls) ((w2, t) :: its)
| L_bad : forall line w1 w2 ls its, two_words line w1 w2 -> unreadable w1 -> listed ls its -> listed (line :: ls) its
| L_short : forall line ls its, incomplete line -> listed ls its -> listed (line :: ls) its.

(** Which domain of the table is used for [name]: [name] itself if it is listed, else the first pattern listed that matches. *)
Definition applies (its : list item) (name : list Z) (o : option (list Z)) : Prop :=
  match o with
  | Some k => (k = name /\ plain name /\ exists t, In (k, t) its) \/
              ((plain name -> forall t, ~ In (name, t) its) /\ ~ plain k /\ fn k name = true /\
               exists i1 t i2, its = i1 ++ (k, t) :: i2 /\ forall i, In i i1 -> ~ plain (fst i) -> fn (fst i) name = false)
  | None => (plain name -> forall t, ~ In (name, t) its) /\ forall i, In i its -> ~ plain (fst i) -> fn (fst i) name = false
  end.

(** The targets listed for a domain, in the order of the lines. *)
Definition targets (its : list item) (k : list Z) : list target := map snd (filter (fun i => str_eqb (fst i) k) its).
(** The order in which a lookup considers them: the first, then the others from the last on. *)
Definition considered (ts : list target) : list target := match ts with [] => [] | t :: r => t :: rev r end.

Definition v4_of (t : target) := match t with V4 a => Some a | _ => None end.
Definition v6_of (t : target) := match t with V6 a => Some a | _ => None end.
Definition alias_of (t : target) := match t with Alias s => Some s | _ => None end.
Definition list_of (t : target) := match t with IpList s => Some s | _ => None end.
Definition excl_of (t : target) := match t with Excluded => Some tt | _ => None end.
Fixpoint first {A} (f : target -> option A) (ts : list target) : option A :=
  match ts with [] => None | t :: r => match f t with Some a => Some a | None => first f r end end.

(** The result for targets in the order considered. *)
Definition result (ts : list target) (qtype : Z) : tryres :=
  let t_of o := match o with Some a => T_answer a | None => T_none end in
  if qtype =? 5 then t_of (option_map AN_cname (first alias_of ts))
  else match first alias_of ts with
  | Some _ => T_recursed
  | None =>
    if qtype =? 1 then
      match first v4_of ts with
      | Some a => T_answer (AN_a (skipn 12 (ip_bytes a)))
      | None => match first list_of ts with
                | Some l => t_of (option_map AN_a (good l))
                | None => T_none
                end
      end
    else if qtype =? 28 then
      match first v6_of ts, first v4_of ts with
      | Some a, _ | None, Some a => T_answer (AN_aaaa (ip_bytes a))
      | None, None => T_none
      end
    else T_none
  end.
(** The targets for a name in the order considered. *)
Definition for_name (its : list item) (name : list Z) (ts : list target) : Prop :=
  exists o, applies its name o /\ ts = match o with Some k => considered (targets its k) | None => [] end.

(** One table; [None] has not been loaded. *)
Definition table_is (h : option hosts) (lines : option (list (list Z))) : Prop :=
  match h, lines with
  | None, None => True
  | Some h, Some ls => hosts_of parse hosts_init ls = Ret h
  | _, _ => False
  end.
Definition says (lines : option (list (list Z))) (name : list Z) (ts : list target) : Prop :=
  match lines with None => ts = [] | Some ls => exists its, listed ls its /\ for_name its name ts end.
End S.
