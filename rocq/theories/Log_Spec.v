(** What a log is. *)
From Verif Require Import Base.

(** A message as it is logged: date, kind (if any), text. *)
Record message := mk_message { me_date : list Z; me_kind : option (list Z); me_text : list Z }.
Definition logged (m : message) : list Z :=
  me_date m ++ [32] ++ match me_kind m with Some k => [91] ++ k ++ [93; 32] | None => [] end ++ me_text m.

(** A log file that starts with [start] and gets the messages [ms]: a file that has [limit] bytes or more is put away before the next message. *)
Inductive rolled (limit : Z) : list Z -> list (list Z) -> list (list Z) -> list Z -> Prop :=
| ro_end start : rolled limit start [] [] start
| ro_stay start m ms old cur : Z.of_nat (length start) < limit -> rolled limit (start ++ m) ms old cur -> rolled limit start (m :: ms) old cur
| ro_roll start m ms old cur : limit <= Z.of_nat (length start) -> rolled limit m ms old cur -> rolled limit start (m :: ms) (start :: old) cur.

(** The numbers under which files are put away: each the first free one behind the last. *)
Inductive numbered (used : Z -> Prop) : Z -> list Z -> Prop :=
| nu_nil k : numbered used k []
| nu_cons k n ns : k < n -> ~ used n -> (forall i, k < i < n -> used i) -> numbered used n ns -> numbered used k (n :: ns).
