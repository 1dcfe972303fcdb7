(** The functions that hand out the values of options: readconfig.c 481-552. *)
From Verif Require Import Base Arr_Model Slist_Model Config_Model.

(** The first call of Next of a fresh iterator, stringlist.c 318-346: the first string, or NULL. *)
Definition first_string (s : sbuf) : outcome (option (list Z)) :=
  let! n := sl_next s None in
  match n with None => Ret None | Some (b, o) => let! x := str_at s b o in Ret (Some x) end.
(** ConfigGetRawString, readconfig.c 481-499.  For an option that is not a string the union of the holder (readconfig.h 65-75) has no list: [UBR]. *)
Definition config_raw (g : cfg) (key : list Z) : outcome (option (list Z)) :=
  let! r := config_get g key in
  match r with
  | None => Ret None
  | Some o => match c_type o with TStr | TPath => first_string (c_str o) | _ => UBR end
  end.
(** ConfigGetNumberOfStrings, readconfig.c 518-528, with StringList_Count, stringlist.c 29-49; [fuel] for its loop. *)
Definition config_count (fuel : nat) (g : cfg) (key : list Z) : outcome Z :=
  let! r := config_get g key in
  match r with
  | None => Ret 0
  | Some o => match c_type o with TStr | TPath => let! l := sl_walk fuel (c_str o) None in Ret (Z.of_nat (length l)) | _ => UBR end
  end.
(** ConfigGetStringList, readconfig.c 501-516: NULL, or the list, here as its strings. *)
Definition config_list (fuel : nat) (g : cfg) (key : list Z) : outcome (option (list (list Z))) :=
  let! r := config_get g key in
  match r with
  | None => Ret None
  | Some o => match c_type o with TStr | TPath => let! l := sl_walk fuel (c_str o) None in Ret (match l with [] => None | _ => Some l end) | _ => UBR end
  end.
(** ConfigGetInt32, readconfig.c 530-540. *)
Definition config_int (g : cfg) (key : list Z) : outcome Z :=
  let! r := config_get g key in
  match r with None => Ret 0 | Some o => match c_type o with TInt => Ret (c_int o) | _ => UBR end end.
(** ConfigGetBoolean, readconfig.c 542-552. *)
Definition config_bool (g : cfg) (key : list Z) : outcome bool :=
  let! r := config_get g key in
  match r with None => Ret false | Some o => match c_type o with TBool => Ret (c_bool o) | _ => UBR end end.
