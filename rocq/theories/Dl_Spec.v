(** What the sources of hosts give. *)
From Verif Require Import Base.

(** The path in a URL "file://..." ("file", then anything, "://", any further slashes, the rest): a slash and the rest. *)
Definition url_path (url p : list Z) : Prop :=
  exists s n rest, url = s ++ [58;47;47] ++ repeat 47 n ++ rest /\ p = 47 :: rest /\ (forall r, rest <> 47 :: r) /\ (forall a b, s ++ [58;47;47] = a ++ [58;47;47] ++ b -> b = []).
Definition no_path (url : list Z) : Prop := forall a b, url <> a ++ [58;47;47] ++ b.
Definition local (url : list Z) : Prop := exists r, url = [102;105;108;101] ++ r.

Section Sources.
Context (expand : list Z -> option (list Z)) (present : list Z -> option (list Z)) (dl : nat -> nat -> bool * list Z) (times : Z).
(** What the j-th source gives: the file there, or what a download that succeeds receives, with at most [times] attempts (no limit if it is negative). *)
Inductive source (j : nat) (url : list Z) : option (list Z) -> Prop :=
| so_file p q b : local url -> url_path url p -> (length p < 384)%nat -> expand p = Some q -> present q = Some b -> source j url (Some b)
| so_missing p q : local url -> url_path url p -> (length p < 384)%nat -> expand p = Some q -> present q = None -> source j url None
| so_bad : local url -> (no_path url \/ exists p, url_path url p /\ ((384 <= length p)%nat \/ expand p = None)) -> source j url None
| so_received k b : ~ local url -> (forall i, (i < k)%nat -> fst (dl j i) = false) -> dl j k = (true, b) -> times < 0 \/ Z.of_nat k < times -> source j url (Some b)
| so_failed : ~ local url -> 0 <= times -> (forall i, Z.of_nat i < times -> fst (dl j i) = false) -> source j url None.
Inductive sources : nat -> list (list Z) -> list (option (list Z)) -> Prop :=
| ss_nil j : sources j [] []
| ss_cons j u o us os : source j u o -> sources (S j) us os -> sources j (u :: us) (o :: os).
(** The sources in order, each with a line feed behind it. *)
Definition joined (os : list (option (list Z))) : list Z := concat (map (fun o => match o with Some b => b | None => [] end ++ [10]) os).
End Sources.
