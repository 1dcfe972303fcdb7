(** What the hosts tables are loaded from. *)
From Verif Require Import Base Line_Model Line_Props.

(** The sources that were obtained. *)
Definition obtained (os : list (option (list Z))) : list (list Z) := flat_map (fun o => match o with Some b => [b] | None => [] end) os.
(** The lines of several texts, without comments, blanks around them and empty ones; no line goes over from one text to the next. *)
Definition lines_of (texts : list (list Z)) : list (list Z) := flat_map content texts.
(** Every line is read as it is written (C38). *)
Definition readable (text : list Z) : Prop := Forall (line_ok 320) (file_lines text).
